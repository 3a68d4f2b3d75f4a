(** What is left of a connection after a failed Dial/Accept and after the end of the monitor. *)
From Verif Require Import GoBase BaseProofs ParamsModel MessagesModel ConfigModel
  ConnModel ConnSpec ConnBase ConnInv ConnTrace ConnUser ConnMacro ConnMore ConnStable.
From Coq Require Import Arith Lia.
Open Scope nat_scope.

(** ** Specification *)
(** the bytes written to the association *)
Definition sends (l : list event) : list (list byte) :=
  flat_map (fun e => match e with ESend _ _ _ b => [b] | _ => [] end) l.
(** the goroutine's next operation is a send to the monitor *)
Definition to_monitor (l : list instr) : Prop := match l with IErr _ :: _ | ISt _ :: _ => True | _ => False end.
(** every goroutine of the library has returned *)
Definition all_ended (c : conn) : Prop :=
  mon c = MExit /\ hb c = BDone /\ Forall (fun l => l = []) (hs c) /\ Forall (fun d => d = DDone) (ds c).

(** ** A failed Dial/Accept *)
Lemma sends_app a b : sends (a ++ b) = sends a ++ sends b.
Proof. apply flat_map_app. Qed.
Definition failed (c : conn) : Prop := dial c = DFailed \/ dial c = DTimeout.
Definition gone (c : conn) : Prop := failed c /\ sopen c = false /\ us c = [].
Lemma gone_step c l c' : gone c -> crash c = None -> stepR c l c' ->
  gone c' /\ dial c' = dial c /\ reads (log c') = reads (log c) /\ sends (log c') = sends (log c).
Proof.
  intros (D & So & U) C S.
  assert (Un : forall i u, nth_error (us c) i = Some u -> False) by (intros i u H; rewrite U in H; destruct i; discriminate).
  assert (Dw : dial c <> DWait) by (destruct D; congruence). assert (Dk : dial c <> DOk) by (destruct D; congruence).
  unfold gone, failed in *.
  destruct S; try congruence; try (exfalso; eauto; fail); cb; rewrite ?reads_app, ?sends_app; cbn [reads sends flat_map app]; rewrite ?app_nil_r; auto 10.
  - rewrite state_update_eq. cb. rewrite reads_app, sends_app. cbn [reads sends flat_map]. rewrite !app_nil_r. auto 10.
  - fields c. bfields (closing c). cb. rewrite B16, K16, B6, K6, B15, K15, B20, K20, reads_app, sends_app. cbn [reads sends flat_map]. rewrite !app_nil_r. auto 10.
  - destruct (hba c); cb; auto 10.
  - destruct H0 as [->|[->|(o & e & _ & ->)]]; cbn [reads sends flat_map]; rewrite ?app_nil_r; auto 10.
Qed.
Lemma gone_forever c ls c' : gone c -> run c ls = Some c' ->
  gone c' /\ dial c' = dial c /\ reads (log c') = reads (log c) /\ sends (log c') = sends (log c).
Proof.
  intros G R. revert ls c' R.
  refine (run_along c (fun c' => gone c' /\ dial c' = dial c /\ reads (log c') = reads (log c) /\ sends (log c') = sends (log c)) _ _); [auto|].
  intros ls a l b _ (I1 & I2 & I3 & I4) S. destruct (step_stepR _ _ _ S) as [C S'].
  destruct (gone_step a l b I1 C S') as (J1 & J2 & J3 & J4). rewrite J2, J3, J4. auto.
Qed.
Definition settled_dial (c : conn) : Prop :=
  (failed c -> sopen c = false) /\ (dial c = DFailed -> mon c = MExit).
Lemma failed_gone c : reachable c -> failed c -> gone c /\ (dial c = DFailed -> mon c = MExit).
Proof.
  intros R F. assert (settled_dial c) as [S1 S2].
  { revert R. intros (m & g & o & ls & H). clear F. revert ls c H.
    refine (run_along (start m g o) settled_dial _ _); [split; [intros [X|X]; discriminate|discriminate]|].
    intros ls c l c' R [I1 I2] S. assert (Rc : reachable c) by (exists m, g, o, ls; exact R).
    destruct (step_stepR _ _ _ S) as [C S']. unfold settled_dial, failed in *.
    destruct S'; cb; auto; try solve [split; [exact I1|intros E; apply I2 in E; congruence]].
    - rewrite state_update_eq. cb. split; auto. intros E. apply I2 in E. congruence.
    - bfields (set_dial DOk c). cb. rewrite B16. split; [intros [X|X]|intros X]; discriminate.
    - fields c. bfields (closing c). cb. rewrite B6, K6. auto.
    - destruct (hba c); cb; auto.
    - split; auto. intros _. apply (waiting_closed c Rc); auto.
    - split; [auto|discriminate].
    - fields c. cb. rewrite K16, K6, K10. split; auto. }
  split; [|exact S2]. split; [exact F|]. split; [auto|].
  destruct (us c) eqn:E; auto. assert (dial c = DOk) by (apply users_dial; auto; rewrite E; discriminate). destruct F; congruence.
Qed.
(** while no call has been made only the monitor closes the channels *)
Lemma no_user_closed c : reachable c -> us c = [] -> closed c = true -> mon c = MExit.
Proof.
  intros (m & g & o & ls & H). revert ls c H.
  refine (run_along (start m g o) (fun c => us c = [] -> closed c = true -> mon c = MExit) _ _); [discriminate|].
  assert (UE : forall (u : list upc) i x, upd u i x = [] -> u = []) by (intros [|y r] [|i] x E; auto; discriminate).
  intros ls c l c' R I S. destruct (step_stepR _ _ _ S) as [C S'].
  destruct S'; cb; auto; intros U Cl; try (specialize (I U Cl); congruence); try (apply UE in U; auto; fail).
  - rewrite state_update_eq in U, Cl |- *. cb. specialize (I U Cl). congruence.
  - bfields (set_dial DOk c). cb. rewrite B15 in U. rewrite B5 in Cl. specialize (I U Cl). congruence.
  - destruct (hba c); cb; auto.
  - destruct (us c); discriminate.
  - exfalso. fields c. cb. rewrite K15 in U. apply UE in U. rewrite U in H. destruct i; discriminate.
Qed.
Lemma failed_monitor_ends c : reachable c -> crash c = None -> failed c -> mon c = MRead ->
  exists c', run c [LMon true; LMon true] = Some c' /\ mon c' = MExit /\ crash c' = None.
Proof.
  intros R C F M. destruct (failed_gone c R F) as [(_ & So & U) _].
  assert (Cl : closed c = false) by (destruct (closed c) eqn:E; auto; pose proof (no_user_closed c R U E); congruence).
  set (c1 := set_mon MClose c). set (c2 := set_mon MExit (broadcast (closing c1))).
  fields c1. bfields (closing c1).
  assert (C1 : crash c1 = None) by exact C.
  assert (C2 : crash c2 = None) by (unfold c2; cb; congruence).
  exists c2. split; [|split; [reflexivity|exact C2]].
  eapply (go c (LMon true) c1); [exact C|unfold c1; apply S_read_fail; [exact M|now rewrite So]|exact C1|].
  eapply (go c1 (LMon true) c2); [exact C1|unfold c2; apply S_mclose; [reflexivity|intros _; exact Cl]|exact C2|reflexivity].
Qed.

(** ** After the end of the monitor *)
Lemma exit_step c l c' : mon c = MExit -> crash c = None -> stepR c l c' ->
  mon c' = MExit /\
  (forall i p, nth_error (hs c) i = Some p -> to_monitor p -> nth_error (hs c') i = Some p) /\
  (forall i e, nth_error (ds c) i = Some (DErr e) -> nth_error (ds c') i = Some (DErr e)) /\
  (forall e, hb c = BErr e -> hb c' = BErr e) /\
  (hb c = BStart \/ hb c = BWait -> hb c' = BStart \/ hb c' = BWait).
Proof.
  intros M C S.
  assert (Hh : forall i y z, nth_error (hs c) i = Some y -> ~ to_monitor y ->
    forall j p, nth_error (hs c) j = Some p -> to_monitor p -> nth_error (upd (hs c) i z) j = Some p).
  { intros i y z N T j p N' T'. rewrite upd_nth_other; auto. intros ->. congruence. }
  assert (Hd : forall i y z, nth_error (ds c) i = Some y -> (forall e, y <> DErr e) ->
    forall j e, nth_error (ds c) j = Some (DErr e) -> nth_error (upd (ds c) i z) j = Some (DErr e)).
  { intros i y z N T j p N'. rewrite upd_nth_other; auto. intros ->. apply (T p). congruence. }
  assert (Ap : forall A (l : list A) x j p, nth_error l j = Some p -> nth_error (l ++ [x]) j = Some p).
  { intros A l0 x j p N. rewrite nth_error_app1; auto. apply nth_error_Some. congruence. }
  destruct S; try congruence; cb;
    try solve [split; [exact M|]; split; [eauto|]; split; [eauto|]; split; [intros; congruence|intros [X|X]; first [now right | congruence | now left]]];
    try solve [split; [exact M|]; split; [intros; eapply Hh; eauto|]; split; [eauto|]; split; [intros; congruence|intros [X|X]; first [now right | congruence | now left]]];
    try solve [split; [exact M|]; split; [eauto|]; split; [intros; eapply Hd; eauto; intros; discriminate|]; split; [intros; congruence|intros [X|X]; first [now right | congruence | now left]]].
  - destruct (hba c); cb; (split; [exact M|]; split; [eauto|]; split; [eauto|]; split; [intros; congruence|intros [X|X]; congruence]).
  - split; [exact M|]. split; [eauto|]. split; [eauto|]. split; [|intros [X|X]; destruct H; congruence]. intros; destruct H; congruence.
  - fields c. rewrite K10, K13, K14, K11. auto 10.
Qed.
Lemma exit_forever c ls c' : mon c = MExit -> run c ls = Some c' ->
  mon c' = MExit /\
  (forall i p, nth_error (hs c) i = Some p -> to_monitor p -> nth_error (hs c') i = Some p) /\
  (forall i e, nth_error (ds c) i = Some (DErr e) -> nth_error (ds c') i = Some (DErr e)) /\
  (forall e, hb c = BErr e -> hb c' = BErr e) /\
  (hb c = BStart \/ hb c = BWait -> hb c' = BStart \/ hb c' = BWait).
Proof.
  intros M R. revert ls c' R.
  refine (run_along c (fun c' => mon c' = MExit /\
  (forall i p, nth_error (hs c) i = Some p -> to_monitor p -> nth_error (hs c') i = Some p) /\
  (forall i e, nth_error (ds c) i = Some (DErr e) -> nth_error (ds c') i = Some (DErr e)) /\
  (forall e, hb c = BErr e -> hb c' = BErr e) /\
  (hb c = BStart \/ hb c = BWait -> hb c' = BStart \/ hb c' = BWait)) _ _); [auto 10|].
  intros ls a l b _ (I1 & I2 & I3 & I4 & I5) S. destruct (step_stepR _ _ _ S) as [C S'].
  destruct (exit_step a l b I1 C S') as (J1 & J2 & J3 & J4 & J5). split; [exact J1|]. split; [eauto|]. split; [eauto|]. split; auto.
Qed.

(** ** A sleeping heartbeat after Close *)
Definition no_cancel (l : label) : Prop := match l with LCancel => False | _ => True end.
Definition restless (b : bpc) : Prop := match b with BSleep | BRand | BWrite _ | BErr _ => True | _ => False end.
Definition leaking (c : conn) : Prop := closed_calmly c /\ crash c = None /\ ctxd c = false /\ restless (hb c).
Lemma leaking_step c l c' : leaking c -> no_cancel l -> crash c = None -> stepR c l c' -> leaking c'.
Proof.
  intros (Cc & _ & X & Re) Nl C S. destruct (closed_calmly_step c l c' Cc C S) as [Cc' C'].
  destruct Cc as (Ca & So & St & M).
  assert (Hh : forall i x k, nth_error (hs c) i = Some (x :: k) -> False) by (intros; eapply calm_nth_hs; eauto).
  split; [exact Cc'|]. split; [exact C'|]. clear Cc' C'.
  destruct S; cb; try contradiction; try (exfalso; eauto; fail); auto; try congruence;
    try (split; [exact X|]; repeat match goal with H : hb c = _ |- _ => rewrite H in Re end; cbn [restless] in *; auto; try contradiction; fail).
  - rewrite state_update_eq. cb. auto.
  - bfields (set_dial DOk c). cb. rewrite B7, B11. split; auto. destruct (hb c); auto.
  - fields c. bfields (closing c). cb. rewrite B7, K7, B11, K11. split; auto. destruct (hb c); auto.
  - destruct (hba c); cb; auto.
  - split; auto. destruct M as [M|[M|M]]; congruence.
  - fields c. rewrite K7, K11. auto.
Qed.
Lemma leaking_forever c ls c' : leaking c -> Forall no_cancel ls -> run c ls = Some c' -> leaking c'.
Proof. intros L F R. exact (run_inv no_cancel leaking leaking_step ls c c' L F R). Qed.

(** ** An orderly end *)
Lemma mon_ends c : closed_calmly c -> crash c = None -> closed c = true ->
  exists ls c', run c ls = Some c' /\ length ls <= 2 /\ closed_calmly c' /\ crash c' = None /\ closed c' = true /\ mon c' = MExit /\
    hb c' = (match mon c with MExit => hb c | _ => match hb c with BWait => BRun | x => x end end) /\ cfg c' = cfg c.
Proof.
  intros Cc C Cl.
  assert (A : forall c, closed_calmly c -> crash c = None -> closed c = true -> mon c = MClose ->
    exists c', run c [LMon true] = Some c' /\ closed_calmly c' /\ crash c' = None /\ closed c' = true /\ mon c' = MExit /\
      hb c' = (match hb c with BWait => BRun | x => x end) /\ cfg c' = cfg c).
  { clear. intros c Cc C Cl M. set (c2 := set_mon MExit (broadcast (closing c))).
    fields c. bfields (closing c).
    assert (C2 : crash c2 = None) by (unfold c2; cb; congruence).
    assert (S : stepR c (LMon true) c2).
    { apply S_mclose; auto. destruct Cc as (_ & _ & X & _). congruence. }
    exists c2. split; [eapply go; eauto; reflexivity|]. split; [apply (closed_calmly_step c (LMon true) c2 Cc C S)|].
    split; [exact C2|]. unfold c2. cb. rewrite B5, K5, Cl, B11, K11, B2, K2, Bool.orb_true_r. auto. }
  destruct (proj2 (proj2 (proj2 Cc))) as [M|[M|M]].
  - set (c1 := set_mon MClose c).
    assert (S : stepR c (LMon true) c1) by (unfold c1; apply S_read_fail; auto; destruct Cc as (_ & X & _); now rewrite X).
    destruct (closed_calmly_step c _ c1 Cc C S) as [Cc1 C1].
    destruct (A c1 Cc1 C1 Cl eq_refl) as (c' & R & P1 & P2 & P3 & P4 & P5 & P6).
    exists [LMon true; LMon true], c'. split; [eapply go; eauto|]. rewrite M. repeat (split; auto).
  - destruct (A c Cc C Cl M) as (c' & R & P1 & P2 & P3 & P4 & P5 & P6). exists [LMon true], c'. rewrite M. repeat (split; auto).
  - exists [], c. rewrite M. repeat (split; auto).
Qed.
Lemma calm_ends c : closed_calmly c -> crash c = None -> closed c = true ->
  hb c = BDone \/ hb c = BAck \/ (hb_on (cfg c) = false /\ hb c = BRun) ->
  exists ls c', run c ls = Some c' /\ length ls <= 3 /\ crash c' = None /\ all_ended c'.
Proof.
  intros Cc C Cl H. destruct (mon_ends c Cc C Cl) as (ls & c1 & R & L & Cc1 & C1 & Cl1 & M1 & H1 & G1).
  assert (Hb : hb c1 = hb c) by (rewrite H1; destruct (mon c); auto; destruct H as [->|[->|[_ ->]]]; auto).
  assert (En : forall c', closed_calmly c' -> mon c' = MExit -> hb c' = BDone -> all_ended c').
  { intros c' ((D1 & D2 & _) & _) M B. split; auto. }
  assert (Last : hb c1 <> BDone -> stepR c1 (LHb true) (set_hb BDone c1) ->
    exists ls c', run c ls = Some c' /\ length ls <= 3 /\ crash c' = None /\ all_ended c').
  { intros _ S. destruct (closed_calmly_step c1 _ _ Cc1 C1 S) as [Cc2 C2].
    exists (ls ++ [LHb true]), (set_hb BDone c1). split; [eapply run_trans; [exact R|eapply go; eauto; reflexivity]|].
    rewrite app_length. cbn [length]. split; [lia|]. split; [exact C2|]. apply En; auto. }
  destruct H as [H|[H|[On H]]].
  - exists ls, c1. split; auto. split; [lia|]. split; auto. apply En; auto. congruence.
  - apply Last; [congruence|]. apply S_hb_closed; auto. congruence.
  - apply Last; [congruence|]. pose proof (S_hb_run c1 true) as S. rewrite G1, On in S. apply S. congruence.
Qed.
Lemma ended_forever c ls c' : all_ended c -> closed_calmly c -> crash c = None -> run c ls = Some c' -> all_ended c' /\ crash c' = None.
Proof.
  intros E Cc C R. revert ls c' R.
  refine (fun ls c' R => _ (run_along c (fun c' => closed_calmly c' /\ crash c' = None /\ mon c' = MExit /\ hb c' = BDone) _ _ ls c' R)).
  - intros (((D1 & D2 & _) & _) & C' & M & B). unfold all_ended. auto.
  - destruct E as (M & B & _). auto.
  - intros l0 a l b _ (I1 & I2 & I3 & I4) S. destruct (step_stepR _ _ _ S) as [Ca S'].
    destruct (closed_calmly_step a l b I1 Ca S') as [J1 J2]. split; auto. split; auto.
    destruct (exit_step a l b I3 Ca S') as [J3 _]. split; auto.
    clear - I1 I3 I4 S'. assert (Hh : forall i x k, nth_error (hs a) i = Some (x :: k) -> False) by (intros; eapply calm_nth_hs; eauto; apply I1).
    destruct S'; cb; try congruence; try (exfalso; eauto; fail); auto.
    fields a. congruence.
Qed.

(** ** Close on a connection waiting for a packet *)
Lemma calm_closed c i ok : reachable c -> crash c = None -> mon c = MRead -> Forall (fun d => d = DDone) (ds c) -> maxs c <> 0%N ->
  closed c = false -> state c <> Down -> nth_error (us c) i = Some (UGo OpClose) ->
  exists c1, step c (LUser i ok) = Some c1 /\ nth_error (us c1) i = Some (UDone (RClosed (sopen c))) /\
    closed_calmly c1 /\ crash c1 = None /\ closed c1 = true /\ hb c1 = hb c /\ cfg c1 = cfg c /\ ctxd c1 = ctxd c.
Proof.
  intros R C M D Mx Cl Sn N. exists (ugo i (UDone (RClosed (sopen c))) (closing c)).
  destruct (Inv_reachable c R C) as (_ & _ & h & _ & _ & _ & _ & _ & T).
  assert (calm c) as (C1 & C2 & C3 & C4).
  { unfold calm. destruct T as [? ? Id ?|? ? ? E ?|? ? ? ?|? ? ? ? ? ? ? Id ? ?|? ? Id]; try congruence;
      try (exfalso; unfold idle in Id; rewrite M in Id; exact Id). auto. }
  fields c. split; [apply stepR_step; auto; [apply S_uclose; auto; unfold unlocked; now rewrite M|cb; congruence]|].
  cb. split; [rewrite K15; eapply upd_nth_same; eauto|].
  split; [unfold closed_calmly, calm; cb; rewrite K13, K14, K3, K12, K4, K10, M; repeat split; auto|].
  split; [congruence|]. split; [rewrite K5; apply st_eqb_neq in Sn; now rewrite Sn|]. auto.
Qed.
Lemma close_ends c i : reachable c -> crash c = None -> mon c = MRead -> Forall (fun d => d = DDone) (ds c) -> maxs c <> 0%N ->
  closed c = false -> state c <> Down -> nth_error (us c) i = Some (UGo OpClose) ->
  hb c = BDone \/ hb c = BAck \/ (hb_on (cfg c) = false /\ hb c = BRun) ->
  exists ls c', run c (LUser i true :: ls) = Some c' /\ length ls <= 3 /\ all_ended c' /\
    forall ls' c2, run c' ls' = Some c2 -> all_ended c2 /\ crash c2 = None.
Proof.
  intros R C M D Mx Cl Sn N H. destruct (calm_closed c i true R C M D Mx Cl Sn N) as (c1 & S & _ & Cc & C1 & Cl1 & H1 & G1 & _).
  destruct (calm_ends c1 Cc C1 Cl1) as (ls & c' & Ru & L & C' & E); [now rewrite H1, G1|].
  exists ls, c'. split; [now rewrite (run_cons _ _ _ c1)|]. split; auto. split; auto.
  intros ls' c2 R2. apply (ended_forever c' ls' c2); auto. apply (closed_calmly_forever c1 ls c' Cc C1 Ru).
Qed.
Lemma close_leaks c i ok : reachable c -> crash c = None -> mon c = MRead -> Forall (fun d => d = DDone) (ds c) -> maxs c <> 0%N ->
  closed c = false -> state c <> Down -> nth_error (us c) i = Some (UGo OpClose) -> ctxd c = false -> restless (hb c) ->
  exists c1, step c (LUser i ok) = Some c1 /\ nth_error (us c1) i = Some (UDone (RClosed (sopen c))) /\
    forall ls c', Forall no_cancel ls -> run c1 ls = Some c' -> restless (hb c') /\ crash c' = None.
Proof.
  intros R C M D Mx Cl Sn N X H. destruct (calm_closed c i ok R C M D Mx Cl Sn N) as (c1 & S & U & Cc & C1 & _ & H1 & _ & X1).
  exists c1. split; auto. split; auto. intros ls c' F Ru.
  destruct (leaking_forever c1 ls c') as (_ & A & _ & B); auto. split; auto. split; auto. split; [congruence|now rewrite H1].
Qed.
