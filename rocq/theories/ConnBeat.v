(** The heartbeat goroutine that misses its wake-up. *)
From Verif Require Import GoBase MessagesModel ConfigModel ConnModel ConnSpec ConnBase ConnInv ConnUser ConnMacro ConnStable.
From Coq Require Import Arith Lia.
Open Scope nat_scope.

(** BEATs sent by the heartbeat goroutine *)
Definition beats (l : list event) : list (list byte) :=
  flat_map (fun e => match e with ESend OHb _ _ b => [b] | _ => [] end) l.
Lemma beats_app a b : beats (a ++ b) = beats a ++ beats b.
Proof. apply flat_map_app. Qed.

(** Dial/Accept has returned and the goroutine has not been woken, or the association is gone *)
Definition asleep (c : conn) : Prop :=
  dial c <> DWait /\ ((hb c = BStart \/ hb c = BWait) \/ sopen c = false).
Lemma asleep_step c l c' : asleep c -> step c l = Some c' -> asleep c' /\ beats (log c') = beats (log c).
Proof.
  intros [D A] S. apply step_stepR in S as [C S].
  destruct S; try (split; [split; cb; [assumption||congruence|first [exact A | tauto | (destruct A as [[A|A]|A]; congruence) | (destruct A as [A|A]; [left|right]; congruence) ]]
     |first [reflexivity | cb; rewrite ?beats_app; cbn [beats flat_map]; rewrite ?app_nil_r; reflexivity]]; fail).
  all: try solve [assert (F : sopen c = false) by (first [solve [destruct A as [[A|A]|A]; congruence] | solve [destruct H, A as [[A|A]|A]; congruence]]); first [congruence |
    split; [split; cb; [exact D|right; exact F]|reflexivity]]].
  - rewrite state_update_eq. split; [split; cb; [exact D|exact A]|]. cb. rewrite beats_app. cbn [beats flat_map]. now rewrite app_nil_r.
  - bfields (closing c). fields c. split; [split; cb; [congruence|right; congruence]|]. cb.
    match goal with H : log (broadcast _) = _ |- _ => rewrite H end. match goal with H : log (closing _) = _ |- _ => rewrite H end.
    rewrite beats_app. cbn [beats flat_map]. now rewrite app_nil_r.
  - assert (F : sopen c = false) by (destruct A as [[A|A]|A]; congruence). split; [split; destruct (hba c); cb; auto|]. destruct (hba c); reflexivity.
  - fields c. split; [split; cb; [congruence|right; congruence]|]. cb. match goal with H : log (closing _) = _ |- _ => rewrite H end.
    rewrite beats_app. cbn [beats flat_map]. now rewrite app_nil_r.
  - split; [split; cb; assumption|]. cb. rewrite beats_app.
    destruct H0 as [->|[->|(o & e & _ & ->)]]; cbn [beats flat_map]; now rewrite app_nil_r.
Qed.
Lemma asleep_run c ls c' : asleep c -> run c ls = Some c' -> asleep c' /\ beats (log c') = beats (log c).
Proof.
  intros A R. refine (run_along c (fun x => asleep x /\ beats (log x) = beats (log c)) _ _ ls c' R); auto.
  intros l0 x l x' _ [A' B] S. destruct (asleep_step _ _ _ A' S) as [A'' B']. split; [exact A''|congruence].
Qed.

(** a goroutine that waits when the establishment is reported does send BEATs *)
Lemma beat_starts c d : crash c = None -> mon c = MEst -> dial c = DWait -> closed c = false -> sopen c = true -> hb c = BWait ->
  hb_on (cfg c) = true -> length d = 128 ->
  exists c' b, run c [LMon true; LHb true; LHbRand d; LHb true] = Some c' /\ encodes (beat d) b /\ dial c' = DOk /\
    log c' = log c ++ [ESend OHb 0 (beat d) b].
Proof.
  intros C M D Cl So B On Ld. destruct (wire_total (beat d)) as [b W].
  assert (B0 : broadcast (set_dial DOk c) = set_hb BRun (set_dial DOk c)) by (unfold broadcast; cb; now rewrite B).
  destruct (hba c) eqn:Ha; (eexists _, b; split; [|split; [now apply wire_encodes|]];
  [eapply go; [exact C|eapply S_est; eauto|rewrite B0; exact C|];
    rewrite B0; eapply go; [exact C|eapply S_hb_run; reflexivity|exact C|]; cb; rewrite On;
    eapply go; [exact C|eapply S_hb_rand; [reflexivity|exact Ld]|cb; rewrite Ha; exact C|]; cb; rewrite Ha;
    eapply go; [exact C|eapply S_hb_write; [reflexivity|exact W|reflexivity|exact So]|exact C|]; reflexivity
  |cb; split; reflexivity]).
Qed.
