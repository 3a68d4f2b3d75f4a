(** The bounds of C90 are attained, for every number of packets. *)
From Verif Require Import GoBase BaseProofs ParamsModel MessagesModel ConfigModel ConnModel ConnSpec ConnBase ConnInv ConnTrace ConnUser
  CfgSpec ConnCodec ConnMacro ConnMore ConnStable ConnPieces ConnExamples WorkSpec ConnWork.
From Coq Require Import Arith Lia.
Open Scope nat_scope.

Definition ready (m : cmode) (c : conn) : Prop :=
  crash c = None /\ mon c = MRead /\ sopen c = true /\ ctxd c = false /\ inq c = [] /\ mode c = m.
Lemma answers_app a b : answers (a ++ b) = answers a + answers b.
Proof. unfold answers. now rewrite filter_app, app_length. Qed.
Lemma packets_app a b : packets (a ++ b) = packets a + packets b.
Proof. unfold packets. now rewrite filter_app, app_length. Qed.
Lemma smooth_arrivals ls : Forall smooth ls -> arrivals ls = [].
Proof. induction 1 as [|l ls H S IH]; [reflexivity|]. destruct l; cbn in *; auto; contradiction. Qed.

(** an ASP Up is answered, by an ack or an Error, in every state; a client sends an ASP Active, too *)
Lemma up_once m c : reachable c -> ready m c ->
  exists ls c', run c (LArrive pk_up :: ls) = Some c' /\ arrivals ls = [] /\ ready m c' /\ packets (log c') = 1 + packets (log c) /\
    answers (log c') = match m with Client => 2 | Server => 1 end + answers (log c).
Proof.
  intros R (C & M & So & Cx & Q & Mo).
  set (ca := set_inq [pk_up] c).
  assert (Ra : run c [LArrive pk_up] = Some ca) by (eapply go; [exact C|apply S_arrive|exact C|]; rewrite Q; reflexivity).
  assert (V : exists t, valid pk_up (Typed t) /\ m_kind t = KAspUp) by (eexists; split; [split; vm_compute; reflexivity|reflexivity]).
  destruct V as (t & V & K).
  destruct (process ca pk_up [] (Typed t)) as (rc & ls & c1 & evs & Re & Ou & R1 & F1 & Kp & L1 & S1 & M1 & Q1 & D1 & _); auto.
  { eapply reachable_run; eauto. }
  { apply Nat.leb_le. vm_compute. reflexivity. }
  { intros t' E' B. congruence. }
  destruct Kp as (K1 & K2 & K3 & K4 & K5 & K6 & K7 & K8 & K9 & K10 & K11 & K12 & K13 & K14).
  assert (Ns : next_state (Typed t) (state ca) = Inactive) by (unfold next_state, names; now rewrite K). rewrite Ns in *.
  assert (Ev : answers evs = 1 /\ packets evs = 0).
  { destruct rc as [|r|e]; cbn in Ou.
    - inversion Re as [t' I| | | |]; subst. unfold silent_table in I. rewrite K in I. contradiction.
    - destruct Ou as (b & _ & ->). split; reflexivity.
    - destruct Ou as (r & b & _ & _ & ->). split; reflexivity. }
  destruct Ev as [Ev1 Ev2].
  assert (La : answers (log c1) = 1 + answers (log c) /\ packets (log c1) = 1 + packets (log c)).
  { rewrite L1. change (log ca) with (log c). split.
    - rewrite answers_app. change (ERead pk_up :: evs ++ [EUpd Inactive]) with ([ERead pk_up] ++ evs ++ [EUpd Inactive]). rewrite !answers_app, Ev1. cbn. lia.
    - rewrite packets_app. change (ERead pk_up :: evs ++ [EUpd Inactive]) with ([ERead pk_up] ++ evs ++ [EUpd Inactive]). rewrite !packets_app, Ev2. cbn. lia. }
  destruct La as [La Lp].
  assert (Rr : run c (LArrive pk_up :: ls) = Some c1) by (change (LArrive pk_up :: ls) with ([LArrive pk_up] ++ ls); eapply run_trans; eauto).
  unfold upd_mon in M1. change (mode ca) with (mode c) in M1. rewrite Mo in M1.
  assert (C1 : crash c1 = None) by (rewrite K14; exact C). assert (So1 : sopen c1 = true) by (rewrite K5; exact So).
  assert (Cx1 : ctxd c1 = false) by (rewrite K6; exact Cx). assert (Mo1 : mode c1 = m) by (rewrite K1; exact Mo).
  destruct m.
  - destruct (wire_total (asp_active (cfg ca))) as [b W].
    exists (ls ++ [LMon true]). eexists. split.
    + change (LArrive pk_up :: ls ++ [LMon true]) with ((LArrive pk_up :: ls) ++ [LMon true]). eapply run_trans; [exact Rr|].
      eapply go; [exact C1|eapply S_init_send; [exact M1|exact W|reflexivity|exact So1]|exact C1|]. reflexivity.
    + split; [rewrite arrivals_app, (smooth_arrivals ls F1); reflexivity|]. split; [repeat split; cb; auto|]. cb.
      rewrite packets_app, answers_app. cbn [answers packets filter is_answer is_read length]. lia.
  - exists ls, c1. split; [exact Rr|]. split; [exact (smooth_arrivals ls F1)|]. split; [repeat split; auto|]. split; [exact Lp|exact La].
Qed.
Lemma ups m n : forall c, reachable c -> ready m c ->
  exists ls c', run c ls = Some c' /\ arrivals ls = repeat pk_up n /\ ready m c' /\ packets (log c') = n + packets (log c) /\
    answers (log c') = n * match m with Client => 2 | Server => 1 end + answers (log c).
Proof.
  induction n as [|n IH]; intros c R W.
  - exists [], c. repeat split; auto; apply W.
  - destruct (up_once m c R W) as (l1 & c1 & R1 & A1 & W1 & P1 & N1).
    destruct (IH c1 (reachable_run _ _ _ R R1) W1) as (l2 & c2 & R2 & A2 & W2 & P2 & N2).
    exists ((LArrive pk_up :: l1) ++ l2), c2. split; [eapply run_trans; eauto|].
    split. { rewrite arrivals_app, A2. change (LArrive pk_up :: l1) with ([LArrive pk_up] ++ l1). rewrite arrivals_app, A1. reflexivity. }
    split; [exact W2|]. rewrite P2, P1, N2, N1. destruct m; lia.
Qed.
Lemma boots m g o : exists ls c, run (start m g o) ls = Some c /\ arrivals ls = [] /\ ready m c /\ packets (log c) = 0 /\
  answers (log c) = match m with Client => 1 | Server => 0 end.
Proof.
  destruct m.
  - destruct (wire_total (asp_up g)) as [b W]. exists boot_client. eexists. split.
    + unfold boot_client. eapply go; [reflexivity|apply S_init; reflexivity|reflexivity|].
      eapply go; [reflexivity|eapply S_upd; reflexivity|reflexivity|].
      eapply go; [reflexivity|eapply S_init_send; [reflexivity|exact W|reflexivity|reflexivity]|reflexivity|]. reflexivity.
    + repeat split.
  - exists boot_server. eexists. split; [reflexivity|]. repeat split.
Qed.
Lemma attained m g o n : exists ls c, run (start m g o) ls = Some c /\ arrivals ls = repeat pk_up n /\ packets (log c) = n /\
  answers (log c) = match m with Client => 1 + 2 * n | Server => n end.
Proof.
  destruct (boots m g o) as (l1 & c1 & R1 & A1 & W1 & P1 & N1). assert (R : reachable c1) by (exists m, g, o, l1; exact R1).
  destruct (ups m n c1 R W1) as (l2 & c2 & R2 & A2 & W2 & P2 & N2).
  exists (l1 ++ l2), c2. split; [eapply run_trans; eauto|]. split; [now rewrite arrivals_app, A1, A2|]. rewrite P2, P1, N2, N1. destruct m; lia.
Qed.
