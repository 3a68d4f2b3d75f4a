(** Situations that no continuation leaves. *)
From Verif Require Import GoBase BaseProofs ParamsModel MessagesModel MessagesProofs MessagesProofs2 AccessorProofs ConfigModel
  ConnModel ConnSpec ConnBase ConnInv ConnTrace ConnUser ConnMacro ConnMore.
From Coq Require Import Arith Lia.
Open Scope nat_scope.

(** facts needed about Close and Broadcast *)
Ltac fields c :=
  let K := fresh "K" in
  pose proof (closing_fields c) as K;
  destruct K as (?K1 & ?K2 & ?K3 & ?K4 & ?K5 & ?K6 & ?K7 & ?K8 & ?K9 & ?K10 & ?K11 & ?K12 & ?K13 & ?K14 & ?K15 & ?K16 & ?K17 & ?K18 & ?K19 & ?K20).
Ltac bfields c :=
  let B := fresh "B" in
  pose proof (broadcast_fields c) as B;
  destruct B as (?B1 & ?B2 & ?B3 & ?B4 & ?B5 & ?B6 & ?B7 & ?B8 & ?B9 & ?B10 & ?B11 & ?B12 & ?B13 & ?B14 & ?B15 & ?B16 & ?B17 & ?B18 & ?B19 & ?B20).

(** ** The monitor waiting to report an establishment nobody waits for *)
Definition stuck_est (c : conn) : Prop := mon c = MEst /\ dial c <> DWait /\ closed c = false.
(** calls that start by taking the state lock, possibly after choosing a stream *)
Definition locks (op : uop) : bool := match op with OpWriteSignal _ => false | _ => true end.

Lemma app1_neq {A} (l : list A) x : l ++ [x] <> l.
Proof. intros H. apply (f_equal (@length A)) in H. rewrite app_length in H. cbn in H. lia. Qed.

Lemma stuck_est_step c l c' : stuck_est c -> crash c = None -> stepR c l c' ->
  stuck_est c' /\ state c' = state c /\ reads (log c') = reads (log c) /\ updates (log c') = updates (log c).
Proof.
  intros (M & D & K) C S.
  assert (U : unlocked c = false) by (unfold unlocked; now rewrite M).
  unfold stuck_est. destruct S; try congruence; cb; rewrite ?reads_app, ?updates_app; cbn [reads updates flat_map app]; rewrite ?app_nil_r; auto.
  - destruct (hba c); cb; auto.
  - destruct H0 as [->|[->|(o & e & X & _)]]; [| |congruence]; cbn; rewrite ?app_nil_r; auto.
Qed.
Lemma stuck_est_forever c ls c' : stuck_est c -> run c ls = Some c' ->
  stuck_est c' /\ state c' = state c /\ reads (log c') = reads (log c) /\ updates (log c') = updates (log c).
Proof.
  intros H R. revert ls c' R.
  refine (run_along c (fun c' => stuck_est c' /\ state c' = state c /\ reads (log c') = reads (log c) /\ updates (log c') = updates (log c)) _ _).
  - auto.
  - intros ls a l b _ (I1 & I2 & I3 & I4) S. destruct (step_stepR _ _ _ S) as [C S'].
    destruct (stuck_est_step a l b I1 C S') as (J1 & J2 & J3 & J4). rewrite J2, J3, J4. auto.
Qed.
Lemma locked_call_step c l c' i op : unlocked c = false -> step c l = Some c' -> nth_error (us c) i = Some (UGo op) -> locks op = true ->
  exists op', nth_error (us c') i = Some (UGo op') /\ locks op' = true.
Proof.
  intros U S N L. destruct (user_frame _ _ _ _ _ S N) as [[ok ->]|[E _]]; [|eauto].
  destruct (step_stepR _ _ _ S) as [C S']. remember (LUser i ok) as la eqn:El.
  destruct S'; inversion El; subst; try congruence;
    try match goal with H : nth_error (us c) i = Some _ |- _ => 
      pose proof (eq_trans (eq_sym N) H) as E; first [discriminate E | injection E as E]; subst end; try congruence; cb; try discriminate;
    try (eexists; split; [eapply upd_nth_same; eauto|reflexivity]).
  eauto.
Qed.
Lemma stuck_est_calls c ls c' i op : stuck_est c -> run c ls = Some c' -> nth_error (us c) i = Some (UGo op) -> locks op = true ->
  exists op', nth_error (us c') i = Some (UGo op') /\ locks op' = true.
Proof.
  intros H R N L. revert ls c' R.
  apply (run_along c (fun c' => exists op', nth_error (us c') i = Some (UGo op') /\ locks op' = true)); [eauto|].
  intros ls a l b R (op' & N' & L') S. destruct (stuck_est_forever _ _ _ H R) as ((M & _) & _).
  eapply locked_call_step; eauto. unfold unlocked. now rewrite M.
Qed.
(** how it comes about: an update to Active of a connection that is not Active, after Dial/Accept has returned *)
Lemma stuck_est_entered c ok c' : mon c = MUpd Active -> state c <> Active -> dial c <> DWait -> closed c = false ->
  step c (LMon ok) = Some c' -> stuck_est c'.
Proof.
  intros M S D K H. unfold step, step_mon in H. destruct (crash c); [discriminate|]. rewrite M in H.
  assert (c' = state_update Active c) as -> by congruence. rewrite state_update_eq. unfold stuck_est, upd_mon. cb. apply st_eqb_neq in S. rewrite S. auto.
Qed.

(** ** After a Close made by the user *)
Definition is_closed (u : upc) : Prop := match u with UDone (RClosed _) => True | _ => False end.
Definition after_close (c : conn) : Prop :=
  sopen c = false /\ dial c <> DWait /\ (state c = Active -> mon c = MEst).
Lemma after_close_step c l c' : after_close c -> crash c = None -> stepR c l c' -> after_close c'.
Proof.
  intros (So & D & A) C S. unfold after_close.
  destruct S; cb; try solve [repeat split; auto; first [congruence | intros E; apply A in E; congruence]].
  - rewrite state_update_eq. cb. repeat split; auto. intros ->. unfold upd_mon.
    destruct (st_eqb (state c) Active) eqn:E; auto. apply st_eqb_iff in E. apply A in E. congruence.
  - fields c. bfields (closing c). cb. repeat split; congruence.
  - destruct (hba c); cb; auto.
  - fields c. cb. repeat split; congruence.
Qed.

(** calls are only made on an established connection *)
Lemma users_dial c : reachable c -> us c <> [] -> dial c = DOk.
Proof.
  intros (m & g & o & ls & H). revert ls c H.
  refine (run_along (start m g o) (fun c => us c <> [] -> dial c = DOk) _ _); [intros X; now destruct X|].
  intros ls c l c' _ I S. destruct (step_stepR _ _ _ S) as [C S'].
  assert (UE : forall (u : list upc) i x, upd u i x <> [] -> u <> []) by (intros u i x E ->; destruct i; apply E; reflexivity).
  destruct S'; cb; auto; try congruence; try (intros E; apply I in E; congruence);
    try (intros E; apply UE in E; auto; fail).
  - rewrite state_update_eq. cb. auto.
  - bfields (set_dial DOk c). cb. rewrite B15, B16. auto.
  - fields c. bfields (closing c). cb. rewrite B15, B16, K15, K16. auto.
  - destruct (hba c); cb; auto.
  - fields c. cb. rewrite K15, K16. intros E; apply UE in E; auto.
Qed.
Lemma closed_returned c i b : reachable c -> nth_error (us c) i = Some (UDone (RClosed b)) -> after_close c.
Proof.
  intros (m & g & o & ls & H). revert ls c H i b.
  refine (run_along (start m g o) (fun c => forall i b, nth_error (us c) i = Some (UDone (RClosed b)) -> after_close c) _ _).
  { intros [|i] b; discriminate. }
  intros ls c l c' R I S i b N. destruct (step_stepR _ _ _ S) as [C S'].
  assert (Old : nth_error (us c) i = Some (UDone (RClosed b)) -> after_close c') by (intros E; eapply after_close_step; eauto).
  assert (Upd : forall j x, us c' = upd (us c) j x -> ~ is_closed x -> after_close c').
  { intros j x E Nx. apply Old. destruct (Nat.eq_dec j i) as [->|D].
    - exfalso. apply Nx. rewrite E in N. destruct (nth_error (us c) i) eqn:Ni.
      + rewrite (upd_nth_same _ _ _ _ Ni) in N. inversion N. exact Logic.I.
      + assert (nth_error (upd (us c) i x) i = None) as Z; [|congruence]. apply nth_error_None. rewrite upd_len. now apply nth_error_None.
    - rewrite E in N. now rewrite upd_nth_other in N by auto. }
  assert (R' : reachable c) by (exists m, g, o, ls; exact R).
  destruct S'; cb; auto; try (eapply Upd; [reflexivity|cbn; tauto]).
  - apply Old. rewrite state_update_eq in N. cb. auto.
  - apply Old. bfields (set_dial DOk c). cb. congruence.
  - apply Old. fields c. bfields (closing c). cb. congruence.
  - apply Old. destruct (hba c); cb; auto.
  - apply Old. destruct (lt_dec i (length (us c))) as [L|L].
    + now rewrite nth_error_app1 in N by auto.
    + rewrite nth_error_app2 in N by lia. destruct (i - length (us c)) as [|[|]]; discriminate.
  - eapply Upd; [reflexivity|]. destruct op; cbn in H0; inversion H0; cbn; tauto.
  - fields c. unfold after_close. cb. split; [congruence|]. split; [|congruence].
    rewrite K16. rewrite (users_dial c R'); [discriminate|]. intros E. rewrite E in H. destruct i0; discriminate.
  - eapply Upd; [reflexivity|]. destruct buf; cbn; tauto.
Qed.
(** what calls made after Close return *)
Definition late_result (op : uop) (r : ures) : Prop :=
  match op with
  | OpState => exists s, r = RState s /\ s <> Active
  | OpClose => r = RClosed false
  | OpWriteSignal _ => r = RWriteError
  | _ => r = RNotEstablished
  end.
Definition late (op : uop) (u : upc) : Prop :=
  match u with
  | UGo op' => forall r, late_result op' r -> late_result op r
  | UDone r => late_result op r
  | _ => False
  end.
Lemma late_calls c ls c' i op : after_close c -> run c ls = Some c' -> nth_error (us c) i = Some (UGo op) ->
  exists u, nth_error (us c') i = Some u /\ late op u.
Proof.
  intros A R N.
  assert (after_close c' /\ exists u, nth_error (us c') i = Some u /\ late op u) as [_ H]; [|exact H].
  revert ls c' R.
  refine (run_along c (fun c' => after_close c' /\ exists u, nth_error (us c') i = Some u /\ late op u) _ _).
  { split; [exact A|]. exists (UGo op). split; auto. cbn. auto. }
  intros ls a l b _ (Aa & u & Na & La) S. destruct (step_stepR _ _ _ S) as [C S'].
  split; [eapply after_close_step; eauto|].
  destruct (user_frame _ _ _ _ _ S Na) as [[ok ->]|[E _]]; [|eauto].
  destruct Aa as (So & Da & Ac).
  assert (NA : unlocked a = true -> state a <> Active).
  { intros U E. apply Ac in E. unfold unlocked in U. rewrite E in U. discriminate. }
  remember (LUser i ok) as la eqn:El.
  destruct S'; inversion El; subst; cb;
    try match goal with H : nth_error (us a) i = Some _ |- _ =>
      pose proof (eq_trans (eq_sym Na) H) as E; injection E as E; subst end;
    try (match goal with H : unlocked _ = true |- _ => pose proof (NA H) end); try congruence; try contradiction;
    try (eexists; split; [eapply upd_nth_same; eauto|]; cbn in La |- *; try apply La).
  - destruct op0; cbn in *; inversion H0; reflexivity.
  - reflexivity.
  - fields a. rewrite K15. eauto.
  - now rewrite So.
  - eauto.
  - eauto.
Qed.

(** ** Close without a packet in flight *)
Definition calm (c : conn) : Prop :=
  dead (hs c) /\ Forall (fun d => d = DDone) (ds c) /\ maxs c <> 0%N /\ ini c = false.
Definition closed_calmly (c : conn) : Prop :=
  calm c /\ sopen c = false /\ state c = Down /\ (mon c = MRead \/ mon c = MClose \/ mon c = MExit).
Lemma calm_nth_hs c i x k : calm c -> nth_error (hs c) i = Some (x :: k) -> False.
Proof. intros (H & _) N. apply (Forall_nth _ _ _ _ H) in N. discriminate. Qed.
Lemma calm_nth_ds c i d : calm c -> nth_error (ds c) i = Some d -> d = DDone.
Proof. intros (_ & H & _) N. exact (Forall_nth _ _ _ _ H N). Qed.
Lemma MarshalBinary_no_panic m p : m3_MarshalBinary m <> Panic p.
Proof. intros E. destruct (m3_MarshalTo_any m) as (m' & b & H & _). congruence. Qed.
Lemma wire_no_panic m p : wire m <> Panic p.
Proof. destruct (wire_total m) as [b ->]. discriminate. Qed.
Lemma closed_calmly_step c l c' : closed_calmly c -> crash c = None -> stepR c l c' -> closed_calmly c' /\ crash c' = None.
Proof.
  intros (Ca & So & St & M) C S.
  assert (Hh : forall i x k, nth_error (hs c) i = Some (x :: k) -> False) by (intros; eapply calm_nth_hs; eauto).
  assert (Hd : forall i d, nth_error (ds c) i = Some d -> d = DDone) by (intros; eapply calm_nth_ds; eauto).
  destruct Ca as (C1 & C2 & C3 & C4).
  assert (Mo : mon c <> MSelect /\ (forall o e, mon c <> MErr o e) /\ (forall s, mon c <> MUpd s) /\ (forall m, mon c <> MInit m) /\ mon c <> MEst).
  { destruct M as [->|[->| ->]]; repeat split; intros; discriminate. }
  destruct Mo as (M1 & M2 & M3 & M4 & M5).
  unfold closed_calmly, calm. destruct S; cb; try (exfalso; eauto; fail); try congruence;
    try (exfalso; match goal with H : nth_error (ds c) _ = Some _ |- _ => apply Hd in H; discriminate end);
    try solve [repeat split; auto].
  - fields c. bfields (closing c). cb. rewrite B13, K13, B14, K14, B3, K3, B12, K12, B6, B4, K4, B19, K19. repeat split; auto.
  - destruct (hba c); cb; repeat split; auto.
  - fields c. cb. rewrite K13, K14, K3, K12, K4, K19, K10. repeat split; auto.
  - exfalso. destruct H; try (eapply M2; eassumption); try congruence; eauto using wire_no_panic, MarshalBinary_no_panic;
      try (exfalso; match goal with H : nth_error (ds c) _ = Some _ |- _ => apply Hd in H; discriminate end).
    + eapply wire_no_panic; eauto.
    + destruct H1 as [[b ->]|[pd ->]]; unfold choose_stream in *; apply N.eqb_neq in C3; rewrite C3 in *;
        destruct (maxs c =? 1)%N; try discriminate; destruct (rnd <? maxs c)%N; discriminate.
    + eapply wire_no_panic; eauto.
    + eapply MarshalBinary_no_panic; eauto.
Qed.
Lemma closed_calmly_forever c ls c' : closed_calmly c -> crash c = None -> run c ls = Some c' -> closed_calmly c' /\ crash c' = None.
Proof.
  intros H C R. revert ls c' R.
  refine (run_along c (fun c' => closed_calmly c' /\ crash c' = None) _ _); [auto|].
  intros ls a l b _ (I1 & I2) S. destruct (step_stepR _ _ _ S) as [C' S']. eapply closed_calmly_step; eauto.
Qed.
(** a connection waiting for a packet, with all received data handed over: Close does not panic, and nothing after it *)
Lemma calm_close c i ok : reachable c -> crash c = None -> mon c = MRead -> Forall (fun d => d = DDone) (ds c) -> maxs c <> 0%N ->
  closed c = false \/ state c = Down -> nth_error (us c) i = Some (UGo OpClose) ->
  exists c1, step c (LUser i ok) = Some c1 /\ nth_error (us c1) i = Some (UDone (RClosed (sopen c))) /\
    forall ls c', run c1 ls = Some c' -> crash c' = None /\ state c' = Down.
Proof.
  intros R C M D Mx Cl N. exists (ugo i (UDone (RClosed (sopen c))) (closing c)).
  destruct (Inv_reachable c R C) as (_ & _ & h & _ & _ & _ & _ & _ & T).
  assert (calm c) as (C1 & C2 & C3 & C4).
  { unfold calm. destruct T as [? ? Id ?|? ? ? E ?|? ? ? ?|? ? ? ? ? ? ? Id ? ?|? ? Id]; try congruence;
      try (exfalso; unfold idle in Id; rewrite M in Id; exact Id). auto. }
  fields c. split; [apply stepR_step; auto; [apply S_uclose; auto; [unfold unlocked; now rewrite M|intuition]|cb; congruence]|].
  cb. split; [rewrite K15; eapply upd_nth_same; eauto|].
  intros ls c' Ru. destruct (closed_calmly_forever (ugo i (UDone (RClosed (sopen c))) (closing c)) ls c') as ((_ & _ & S & _) & Cr); auto.
  - unfold closed_calmly, calm. cb. rewrite K13, K14, K3, K12, K4, K10, M. repeat split; auto.
  - cb. congruence.
Qed.

(** ** Where panics come from *)
Lemma ProtocolData_no_panic q p : ProtocolData q <> Panic p.
Proof.
  rewrite ProtocolData_any. destruct (negb _); [discriminate|]. destruct (_ <? _); discriminate.
Qed.
Lemma Parse_no_panic b p : Parse b <> Panic p.
Proof. destruct (Parse_outcome b) as [[m ->]|(e & -> & _)]; discriminate. Qed.
(** while the connection has not been closed, only these three steps panic *)
Definition nil_beat_ack (c : conn) (i : nat) : Prop :=
  exists t k, nth_error (hs c) i = Some (IHandle t :: k) /\ m_kind t = KHeartbeatAck /\ fget FHeartbeatData (m_f t) = None /\
    state c = Active /\ unlocked c = true.
Definition nil_data (c : conn) (i : nat) : Prop :=
  exists t, nth_error (ds c) i = Some (DPd t) /\ m_kind t = KData /\ fget FProtocolData (m_f t) = None.
Definition no_stream (c : conn) (i : nat) : Prop :=
  maxs c = 0%N /\ exists rnd, (exists b, nth_error (us c) i = Some (UGo (OpWrite b rnd))) \/ (exists pd, nth_error (us c) i = Some (UGo (OpWritePD pd rnd))).

Lemma panic_sources c p : reachable c -> crash c = None -> closed c = false -> panics c p ->
  exists i, (p = PNil /\ nil_beat_ack c i) \/ (p = PNil /\ nil_data c i) \/ (p = PIntn /\ no_stream c i).
Proof.
  intros R C K P. destruct (Inv_reachable c R C) as (D & _ & h & Hi & St & _ & _ & _ & T).
  pose proof (proj1 (RInv_reachable c R)) as Rg.
  destruct P; try congruence; try (exfalso; eapply wire_no_panic; eauto; fail).
  - destruct (error_reply_total (cfg c) e) as [r E]. congruence.
  - exfalso; eapply Parse_no_panic; eauto.
  - exists i. left. destruct (token_hand _ _ _ _ _ T H) as (pre & raw & _ & _ & _ & _ & _ & _ & F).
    apply for_packet_inv in F as (V & Pl & _). destruct (plan_handle_kind _ _ _ Pl) as [ND SU].
    pose proof (handle_reacts (cfg c) (hbd c) (state c) m Rg ND SU) as Hr. rewrite H1 in Hr. destruct Hr as [Hk Hf].
    unfold handle in H1. rewrite Hk, Hf in H1. destruct (negb (st_eqb (state c) Active)) eqn:E; [discriminate|].
    injection H1 as <-. split; auto. exists m, k. repeat split; auto. apply negb_false_iff in E. now apply st_eqb_iff.
  - exists i. right. left. split; auto. exists m. repeat split; auto. exact (D _ _ H).
  - exfalso; eapply ProtocolData_no_panic; eauto.
  - exists i. right. right. unfold choose_stream in H1. destruct (maxs c =? 1)%N; [discriminate|].
    destruct (maxs c =? 0)%N eqn:E; [|destruct (rnd <? maxs c)%N; discriminate]. injection H1 as <-. split; auto.
    apply N.eqb_eq in E. split; auto. exists rnd. destruct H0 as [[b ->]|[pd ->]]; [left|right]; eauto.
  - exfalso; eapply MarshalBinary_no_panic; eauto.
Qed.
Lemma crash_sources c l c' p : reachable c -> closed c = false -> step c l = Some c' -> crash c' = Some p ->
  exists i, (p = PNil /\ nil_beat_ack c i) \/ (p = PNil /\ nil_data c i) \/ (p = PIntn /\ no_stream c i).
Proof.
  intros R K S C'. destruct (step_stepR _ _ _ S) as [C S']. 
  enough (panics c p) by now apply panic_sources.
  assert (N : crash c = Some p -> panics c p) by congruence.
  destruct S'; cb; try (apply N; exact C').
  - rewrite state_update_eq in C'. cb. auto.
  - bfields (set_dial DOk c). cb. apply N. congruence.
  - fields c. bfields (closing c). cb. apply N. congruence.
  - destruct (hba c); cb; auto.
  - fields c. cb. apply N. congruence.
  - congruence.
Qed.
Lemma nil_beat_ack_step c i ok : crash c = None -> nil_beat_ack c i -> exists c', step c (LHand i ok) = Some c' /\ crash c' = Some PNil.
Proof.
  intros C (t & k & N & K & F & S & U). unfold step, step_hand. rewrite C, N, U. unfold handle. rewrite K, F, S. cbn. eauto.
Qed.
Lemma nil_data_step c i : crash c = None -> nil_data c i -> exists c', step c (LData i) = Some c' /\ crash c' = Some PNil.
Proof. intros C (t & N & K & F). unfold step, step_data. rewrite C, N, F. eauto. Qed.

(** a packet is read and its goroutine reaches handleSignals' switch *)
Lemma receive c raw q m : reachable c -> crash c = None -> mon c = MRead -> sopen c = true -> ctxd c = false ->
  inq c = raw :: q -> length raw <= bufsize -> valid raw m ->
  let n := length (hs c) in
  run c [LMon true; LHand n true; LHand n true] =
    Some (set_ds (ds c ++ match fst (plan m) with Some t => [DCheck t] | None => [] end)
      (set_hs (hs c ++ [snd (plan m)]) (set_mon MSelect (emit (ERead raw) (set_inq q c))))).
Proof.
  intros R C M So Cx Q Ln [P V] n.
  assert (F1 : firstn bufsize raw = raw) by (apply firstn_all2; lia).
  assert (F2 : skipn bufsize raw = []) by (apply skipn_all2; lia).
  pose (c1 := set_mon MSelect (set_hs (hs c ++ [[IParse raw]]) (emit (ERead raw) (set_inq q c)))).
  assert (N1 : forall x, nth_error (hs c ++ [x]) n = Some x) by (intros; unfold n; rewrite nth_error_app2, Nat.sub_diag by lia; reflexivity).
  assert (U1 : forall x y, upd (hs c ++ [x]) n y = hs c ++ [y]) by (intros; apply upd_last).
  apply (go c (LMon true) c1); [exact C| |exact C|].
  { pose proof (S_read c raw q M So Q) as S. rewrite F1, F2 in S. exact S. }
  eapply go; [exact C|eapply S_parse with (raw := raw) (m := m); [apply N1|exact P]|exact C|].
  assert (N2 : nth_error (hs (hgo n [ISig m] c1)) n = Some [ISig m]) by (eapply hgo_nth; apply N1).
  assert (Hh : forall l, hgo n l (hgo n [ISig m] c1) = set_hs (hs c ++ [l]) c1).
  { intros. unfold hgo, c1. cb. now rewrite U1, U1. }
  destruct (plan m) as [[t|] l0] eqn:Pl; cbn [fst snd].
  - eapply go; [exact C|eapply S_sig_data; eauto|exact C|]. rewrite Hh. reflexivity.
  - eapply go; [exact C|eapply S_sig; eauto|exact C|]. rewrite Hh, app_nil_r. unfold c1. cb. reflexivity.
Qed.
Lemma run_crash c ls c1 l c2 : run c ls = Some c1 -> step c1 l = Some c2 -> run c (ls ++ [l]) = Some c2.
Proof. intros R S. rewrite run_app, R. cbn [run]. now rewrite S. Qed.
Lemma beat_ack_crashes c raw q t : reachable c -> crash c = None -> mon c = MRead -> sopen c = true -> ctxd c = false ->
  state c = Active -> inq c = raw :: q -> length raw <= bufsize -> valid raw (Typed t) ->
  m_kind t = KHeartbeatAck -> fget FHeartbeatData (m_f t) = None ->
  exists ls c', run c ls = Some c' /\ Forall smooth ls /\ crash c' = Some PNil.
Proof.
  intros R C M So Cx St Q Ln V K F.
  pose proof (receive c raw q (Typed t) R C M So Cx Q Ln V) as Ru.
  set (n := length (hs c)) in *. cbn zeta in Ru.
  destruct (nil_beat_ack_step (set_ds (ds c ++ match fst (plan (Typed t)) with Some t => [DCheck t] | None => [] end)
      (set_hs (hs c ++ [snd (plan (Typed t))]) (set_mon MSelect (emit (ERead raw) (set_inq q c))))) n true) as (c' & S & E); [exact C| |].
  { exists t, [IBeatAck; ICur]. unfold plan. rewrite K. cbn [snd]. cb. repeat split; auto.
    unfold n. rewrite nth_error_app2, Nat.sub_diag by lia. reflexivity. }
  exists ([LMon true; LHand n true; LHand n true] ++ [LHand n true]), c'.
  split; [eapply run_crash; eauto|]. split; [repeat constructor|exact E].
Qed.
Definition smooth_data (l : label) : Prop := smooth l \/ exists i, l = LData i.
Lemma data_crashes c raw q t : reachable c -> crash c = None -> mon c = MRead -> sopen c = true -> ctxd c = false ->
  state c = Active -> inq c = raw :: q -> length raw <= bufsize -> valid raw (Typed t) ->
  m_kind t = KData -> fget FProtocolData (m_f t) = None ->
  exists ls c', run c ls = Some c' /\ Forall smooth_data ls /\ crash c' = Some PNil.
Proof.
  intros R C M So Cx St Q Ln V K F.
  pose proof (receive c raw q (Typed t) R C M So Cx Q Ln V) as Ru.
  set (n := length (hs c)) in *. cbn zeta in Ru. assert (P : plan (Typed t) = (Some t, [ICur])) by (unfold plan; now rewrite K).
  rewrite P in Ru. cbn [fst snd] in Ru.
  set (c1 := set_ds (ds c ++ [DCheck t]) (set_hs (hs c ++ [[ICur]]) (set_mon MSelect (emit (ERead raw) (set_inq q c))))) in *.
  set (d := length (ds c)).
  assert (N : nth_error (ds c1) d = Some (DCheck t)) by (unfold c1, d; cb; rewrite nth_error_app2, Nat.sub_diag by lia; reflexivity).
  destruct (nil_data_step (dgo d (DPd t) c1) d) as (c' & S & E); [exact C| |].
  { exists t. split; auto. cb. eapply upd_nth_same; eauto. }
  exists ([LMon true; LHand n true; LHand n true] ++ [LData d; LData d]), c'.
  split; [|split; [|exact E]].
  - eapply run_trans; [exact Ru|]. eapply go; [exact C|eapply S_dcheck; eauto|exact C|]. cbn [run]. now rewrite S.
  - unfold smooth_data. cbn [app]. repeat (apply Forall_cons; [cbn; eauto|]). constructor.
Qed.

(** ** A silent peer *)
(** everything except: a packet arrives, the transport fails, Close is called *)
Definition unprovoked (l : label) : Prop :=
  match l with LArrive _ | LMon false | LCall OpClose => False | _ => True end.
Definition waiting (s : st) (c : conn) : Prop :=
  mon c = MRead /\ inq c = [] /\ sopen c = true /\ closed c = false /\ dial c <> DWait /\ state c = s /\
  Forall (fun u => u <> UGo OpClose) (us c).
Lemma waiting_step s c l c' : waiting s c -> unprovoked l -> crash c = None -> stepR c l c' -> waiting s c' /\ reads (log c') = reads (log c).
Proof.
  intros (M & Q & So & Cl & D & St & U) Ul C S.
  assert (Uu : forall (i : nat) u, u <> UGo OpClose -> Forall (fun u => u <> UGo OpClose) (upd (us c) i u)) by (intros; now apply Forall_upd).
  unfold waiting. destruct S; try congruence; cb; try contradiction; rewrite ?reads_app; cbn [reads flat_map app]; rewrite ?app_nil_r;
    try solve [repeat split; auto; try congruence; apply Uu; try discriminate; destruct buf; discriminate].
  - destruct ok; [|contradiction]. rewrite So in H0. discriminate.
  - destruct (hba c); cb; repeat split; auto.
  - repeat split; auto. apply Forall_app. split; auto. constructor; [|constructor]. destruct op; cbn in Ul; try discriminate. contradiction.
  - repeat split; auto. apply Uu. destruct op; cbn in H0; inversion H0; discriminate.
  - exfalso. apply (Forall_nth _ _ _ _ U) in H. congruence.
  - destruct H0 as [->|[->|(o & e & X & _)]]; try congruence; cbn; rewrite ?app_nil_r; repeat split; auto.
Qed.
Lemma waiting_forever s c ls c' : waiting s c -> Forall unprovoked ls -> run c ls = Some c' -> waiting s c' /\ reads (log c') = reads (log c).
Proof.
  intros W F R.
  refine (run_inv unprovoked (fun c' => waiting s c' /\ reads (log c') = reads (log c)) _ ls c c' (conj W eq_refl) F R).
  intros a l b (Wa & La) U C S. destruct (waiting_step _ _ _ _ Wa U C S) as [Wb Lb]. split; congruence || auto.
Qed.

(** ** A transport failure before establishment *)
Definition hopeless (c : conn) : Prop :=
  (mon c = MClose \/ mon c = MExit) /\ state c = Down /\ closed c = false /\ us c = [] /\ (dial c = DWait \/ dial c = DTimeout).
Lemma hopeless_step c l c' : hopeless c -> crash c = None -> stepR c l c' -> hopeless c'.
Proof.
  intros (M & St & Cl & U & D) C S.
  assert (Mo : mon c <> MSelect /\ (forall o e, mon c <> MErr o e) /\ (forall s, mon c <> MUpd s) /\ (forall m, mon c <> MInit m) /\ mon c <> MEst /\ mon c <> MRead).
  { destruct M as [->| ->]; repeat split; intros; discriminate. }
  destruct Mo as (M1 & M2 & M3 & M4 & M5 & M6).
  assert (Un : forall i u, nth_error (us c) i = Some u -> False) by (intros i u H; rewrite U in H; destruct i; discriminate).
  unfold hopeless. destruct S; cb; try congruence; try (exfalso; eauto; fail); try solve [repeat split; auto].
  - fields c. bfields (closing c). cb. rewrite B4, K4, B5, K5, St, B15, K15, B16, K16. cbn. repeat split; auto.
  - destruct (hba c); cb; repeat split; auto.
  - destruct D; congruence.
Qed.
Lemma hopeless_forever c ls c' : hopeless c -> run c ls = Some c' -> hopeless c'.
Proof. intros H R. exact (run_inv_all hopeless hopeless_step ls c c' H R). Qed.
(** while Dial/Accept waits, only the monitor's own exit closes the channels *)
Lemma waiting_closed c : reachable c -> dial c = DWait -> closed c = true -> mon c = MExit.
Proof.
  intros (m & g & o & ls & H). revert ls c H.
  refine (run_along (start m g o) (fun c => dial c = DWait -> closed c = true -> mon c = MExit) _ _); [discriminate|].
  intros ls c l c' R I S. assert (Rc : reachable c) by (exists m, g, o, ls; exact R).
  destruct (step_stepR _ _ _ S) as [C S'].
  destruct S'; cb; auto; intros Dw Cl; try (specialize (I Dw Cl); congruence); try congruence.
  - rewrite state_update_eq in Dw, Cl |- *. cb. specialize (I Dw Cl). congruence.
  - bfields (set_dial DOk c). cb. congruence.
  - destruct (hba c); cb; auto.
  - exfalso. fields c. cb. rewrite K16 in Dw. rewrite (users_dial c Rc) in Dw; [discriminate|]. intros E. rewrite E in H. destruct i; discriminate.
Qed.
Lemma hopeless_entered c c' : reachable c -> mon c = MRead -> state c = Down -> dial c = DWait -> step c (LMon false) = Some c' -> hopeless c'.
Proof.
  intros R M S D H. unfold step, step_mon in H. destruct (crash c); [discriminate|]. rewrite M in H. cbn [andb] in H. injection H as <-.
  unfold hopeless. cb. repeat split; auto.
  - destruct (closed c) eqn:E; auto. pose proof (waiting_closed c R D E). congruence.
  - destruct (us c) eqn:E; auto. rewrite (users_dial c R) in D; [discriminate|]. now rewrite E.
Qed.

(** ** A BEAT ACK when no heartbeat is running *)
Definition ack_plan (raw : list byte) (t : msg) (l : list instr) : Prop :=
  l = [IParse raw] \/ l = [ISig (Typed t)] \/ l = [IHandle t; IBeatAck; ICur] \/ (exists e, l = [IErr e; IBeatAck; ICur]) \/
  l = [IBeatAck; ICur] \/ l = [].
Definition ack_blocked (raw : list byte) (t : msg) (c : conn) : Prop :=
  ini c = false /\ idle (mon c) /\ exists pre l, hs c = pre ++ [l] /\ dead pre /\ ack_plan raw t l.
Lemma ack_blocked_step raw t c l c' : Parse raw = Ok (Typed t) -> b2n (Version (Typed t)) = 1%N -> m_kind t = KHeartbeatAck ->
  ack_blocked raw t c -> hb c <> BAck -> crash c = None -> stepR c l c' ->
  ack_blocked raw t c' /\ reads (log c') = reads (log c).
Proof.
  intros Pa Ve K (I & Id & pre & x & H & D & P) B C S.
  assert (Mo : (forall s, mon c <> MUpd s) /\ (forall m, mon c <> MInit m) /\ mon c <> MEst /\ mon c <> MRead).
  { repeat split; intros; intros E; rewrite E in Id; exact Id. }
  destruct Mo as (M3 & M4 & M5 & M6).
  assert (Live : forall i y k, nth_error (hs c) i = Some (y :: k) -> i = length pre /\ x = y :: k).
  { intros i y k E. rewrite H in E. destruct (dead_live _ _ _ _ D E) as [-> <-]; [discriminate|auto]. }
  assert (Go : forall k, hs (hgo (length pre) k c) = pre ++ [k]) by (intros k; cb; rewrite H; apply upd_last).
  assert (Pl : plan (Typed t) = (None, [IHandle t; IBeatAck; ICur])) by (unfold plan; now rewrite K).
  assert (Nx : forall k c2, ini c2 = false -> idle (mon c2) -> hs c2 = hs (hgo (length pre) k c) -> ack_plan raw t k -> log c2 = log c ->
    ack_blocked raw t c2 /\ reads (log c2) = reads (log c)).
  { intros k c2 E1 E2 E3 E4 E5. rewrite E5. split; auto. repeat split; auto. exists pre, k. rewrite E3, Go. auto. }
  assert (St : forall c2, ini c2 = ini c -> idle (mon c2) -> hs c2 = hs c -> reads (log c2) = reads (log c) -> ack_blocked raw t c2 /\ reads (log c2) = reads (log c)).
  { intros c2 E1 E2 E3 E4. split; auto. repeat split; auto; [congruence|]. exists pre, x. rewrite E3. auto. }
  destruct S; try congruence; try (exfalso; eauto; fail);
    try solve [apply St; cb; [auto|first [exact Logic.I|assumption]|auto|rewrite ?reads_app; cbn [reads flat_map app]; rewrite ?app_nil_r; reflexivity]];
    try (match goal with E : nth_error (hs c) ?i = Some (_ :: _) |- _ => destruct (Live _ _ _ E) as [-> ->] end);
    unfold ack_plan in P; try (destruct P as [P|[P|[P|[(e0 & P)|[P|P]]]]]; try discriminate P; injection P as -> -> || injection P as ->).
  - fields c. bfields (closing c). apply St; cb; [congruence|exact Logic.I|congruence|]. rewrite B20, K20, reads_app. apply app_nil_r.
  - assert (m = Typed t) as -> by congruence. eapply Nx; cb; eauto. unfold ack_plan; auto.
  - congruence.
  - eapply Nx; cb; eauto. unfold ack_plan; auto 10.
  - congruence.
  - assert (l = [IHandle t; IBeatAck; ICur]) as -> by congruence. eapply Nx; cb; eauto. unfold ack_plan; auto 10.
  - congruence.
  - eapply Nx; cb; eauto. unfold ack_plan; auto 10.
  - eapply Nx; cb; eauto. unfold ack_plan; eauto 10.
  - exfalso. unfold handle in H2. rewrite K in H2. destruct (negb _); [discriminate|]. destruct (fget _ _); [destruct (list_eq_dec _ _ _); discriminate|discriminate].
  - eapply Nx; cb; eauto; cbn; auto. unfold ack_plan; auto 10.
  - destruct (hba c); apply St; cb; auto.
  - fields c. apply St; cb; try congruence. rewrite K20, reads_app. cbn. apply app_nil_r.
  - apply St; cb; auto. rewrite reads_app. destruct H1 as [->|[->|(o & e & _ & ->)]]; cbn; apply app_nil_r.
Qed.
Lemma ack_blocked_forever raw t c ls c' : Parse raw = Ok (Typed t) -> b2n (Version (Typed t)) = 1%N -> m_kind t = KHeartbeatAck ->
  reachable c -> hb_on (cfg c) = false -> ack_blocked raw t c -> run c ls = Some c' ->
  ack_blocked raw t c' /\ reads (log c') = reads (log c).
Proof.
  intros Pa Ve K R Hb A Ru. revert ls c' Ru.
  refine (run_along c (fun c' => ack_blocked raw t c' /\ reads (log c') = reads (log c)) _ _); [auto|].
  intros ls a l b Ru (I1 & I2) S. destruct (step_stepR _ _ _ S) as [C S'].
  assert (Ra : reachable a) by (eapply reachable_run; eauto).
  destruct (Inv_reachable a Ra C) as (_ & B & _). pose proof (static_run _ _ _ Ru) as (_ & Ec & _).
  assert (hb a <> BAck) as Nb.
  { intros E. rewrite E in B. cbn in B. congruence. }
  destruct (ack_blocked_step raw t a l b Pa Ve K I1 Nb C S') as [J1 J2]. split; auto. congruence.
Qed.
Lemma ack_last c c1 raw t ls c' : reachable c -> hb_on (cfg c) = false -> mon c = MRead -> step c (LMon true) = Some c1 -> log c1 = log c ++ [ERead raw] ->
  valid raw (Typed t) -> m_kind t = KHeartbeatAck -> run c1 ls = Some c' ->
  reads (log c') = reads (log c1) /\ mon c' <> MRead.
Proof.
  intros R Hb M S L [Pa Ve] K Ru.
  pose proof (static_run c [LMon true] c1) as (_ & Ec & _); [cbn [run]; now rewrite S|].
  destruct (ack_blocked_forever raw t c1 ls c') as [(_ & Id & _) E]; auto.
  - eapply (reachable_run c [LMon true]); eauto. cbn [run]. now rewrite S.
  - congruence.
  - destruct (step_stepR _ _ _ S) as [C S'].
    destruct (Inv_reachable c R C) as (_ & _ & h & _ & _ & _ & _ & _ & T).
    unfold step, step_mon in S. rewrite C, M in S. destruct (sopen c); cbn [andb] in S; [|injection S as <-; cb; symmetry in L; now apply app1_neq in L].
    destruct (inq c) as [|p q]; [discriminate|]. injection S as <-. cb. apply app_inj_tail in L as [_ L]. injection L as <-.
    assert (ini c = false /\ dead (hs c)) as [I D].
    { destruct T as [? ? Id ?|? ? ? E ?|? ? ? ?|? ? ? ? ? ? ? Id ? ?|? ? Id]; try congruence;
      try (exfalso; unfold idle in Id; rewrite M in Id; exact Id). auto. }
    repeat split; cb; auto. exists (hs c), [IParse (firstn bufsize p)]. repeat split; auto. left. reflexivity.
  - split; auto. intros E2. rewrite E2 in Id. exact Id.
Qed.

(** ** Any BEAT ACK wakes the heartbeat *)
Lemma beat_ack_processed c raw q t : reachable c -> crash c = None -> mon c = MRead -> sopen c = true -> ctxd c = false -> closed c = false ->
  hb c = BAck -> inq c = raw :: q -> length raw <= bufsize -> valid raw (Typed t) -> m_kind t = KHeartbeatAck ->
  (state c = Active -> fget FHeartbeatData (m_f t) <> None) ->
  exists ls c', run c ls = Some c' /\ Forall smooth ls /\ hb c' = BSleep /\ mon c' = upd_mon (state c) c /\ state c' = state c /\ crash c' = None.
Proof.
  intros R C M So Cx Cl Hb Q Ln V K F.
  pose proof (receive c raw q (Typed t) R C M So Cx Q Ln V) as Ru.
  set (n := length (hs c)) in *. cbn zeta in Ru.
  assert (P : plan (Typed t) = (None, [IHandle t; IBeatAck; ICur])) by (unfold plan; now rewrite K).
  rewrite P in Ru. cbn [fst snd] in Ru. rewrite app_nil_r in Ru.
  set (c1 := set_ds (ds c) (set_hs (hs c ++ [[IHandle t; IBeatAck; ICur]]) (set_mon MSelect (emit (ERead raw) (set_inq q c))))) in *.
  assert (N : forall x, nth_error (hs c ++ [x]) n = Some x) by (intros; unfold n; rewrite nth_error_app2, Nat.sub_diag by lia; reflexivity).
  assert (U : forall x y, upd (hs c ++ [x]) n y = hs c ++ [y]) by (intros; apply upd_last).
  assert (A : exists ls c2, run c1 ls = Some c2 /\ Forall smooth ls /\ hs c2 = hs c ++ [[IBeatAck; ICur]] /\ mon c2 = MSelect /\ kept c1 c2 /\ state c2 = state c).
  { destruct (handle (cfg c) (hbd c) (state c) t) as [|e|r|p] eqn:H.
    - exists [LHand n true], (hgo n [IBeatAck; ICur] c1). split.
      { eapply go; [exact C|eapply S_handle_nil; [apply N|reflexivity|exact H]|exact C|reflexivity]. }
      split; [repeat constructor|]. unfold c1. cb. rewrite U. repeat split.
    - assert (e = EUnexpected (Typed t)) as ->.
      { unfold handle in H. rewrite K in H. destruct (negb _); [congruence|]. destruct (fget _ _); [destruct (list_eq_dec _ _ _)|]; congruence. }
      set (c2 := set_mon (MErr (OHand n) (EUnexpected (Typed t))) (hgo n [IBeatAck; ICur] (hgo n [IErr (EUnexpected (Typed t)); IBeatAck; ICur] c1))).
      destruct (answered c2 n (EUnexpected (Typed t))) as (r & b & _ & _ & Rr); [exact C|exact So|reflexivity|repeat split; intros; discriminate|].
      eexists [LHand n true; LHand n true; LMon true], _. split.
      { eapply go; [exact C|eapply S_handle_err; [apply N|reflexivity|exact H]|exact C|].
        eapply (go _ _ c2); [exact C|eapply S_herr; [eapply hgo_nth; apply N|reflexivity]|exact C|]. exact Rr. }
      split; [repeat constructor|]. unfold c2, c1. cb. rewrite !U. repeat split.
    - exfalso. unfold handle in H. rewrite K in H. destruct (negb _); [discriminate|]. destruct (fget _ _); [destruct (list_eq_dec _ _ _)|]; discriminate.
    - exfalso. unfold handle in H. rewrite K in H. destruct (negb _) eqn:E; [discriminate|]. destruct (fget _ _); [destruct (list_eq_dec _ _ _); discriminate|].
      apply F; auto. apply negb_false_iff in E. now apply st_eqb_iff. }
  destruct A as (ls & c2 & R2 & F2 & H2 & M2 & K2 & S2).
  destruct K2 as (Km & Kg & Kx & Kcl & Kso & Kct & Kdq & Khb & Kini & Kus & Kdi & Khd & Kha & Kcr).
  assert (N2 : nth_error (hs c2) n = Some [IBeatAck; ICur]) by (rewrite H2; apply N).
  set (c3 := set_hb BSleep (hgo n [ICur] c2)).
  assert (R3 : run c2 [LHand n true] = Some c3).
  { eapply go; [rewrite Kcr; exact C|eapply S_beatack; [exact N2|rewrite Kcl; exact Cl|rewrite Khb; exact Hb]|cb; rewrite Kcr; exact C|reflexivity]. }
  destruct (process_tail c3 n [ICur] (state c)) as (ls' & c4 & R4 & F4 & K4 & L4 & S4 & M4 & _).
  { unfold c3. cb. eapply upd_nth_same; eauto. }
  { right. split; auto. }
  { unfold c3; cb. rewrite Kcr. exact C. }
  { exact M2. }
  destruct K4 as (_ & _ & _ & _ & _ & _ & _ & Jhb & _ & _ & _ & _ & _ & Jcr).
  exists ([LMon true; LHand n true; LHand n true] ++ ls ++ [LHand n true] ++ ls'), c4.
  split; [eapply run_trans; [exact Ru|]; eapply run_trans; [exact R2|]; eapply run_trans; [exact R3|exact R4]|].
  split; [rewrite !Forall_app; repeat split; auto; repeat constructor|].
  rewrite Jhb, S4, M4, Jcr. repeat split.
  - unfold c3, upd_mon. cb. rewrite Km, Kg, S2. reflexivity.
  - unfold c3. cb. rewrite Kcr. exact C.
Qed.

(** ** The stored heartbeat data of a connection that shares its configuration with no other *)
Definition no_other (l : label) : Prop := match l with LOtherBeat _ => False | _ => True end.
(** the data of the last BEAT sent *)
Definition last_beat (l : list event) (d : list byte) : Prop :=
  exists l1 b l2, l = l1 ++ ESend OHb 0 (beat d) b :: l2 /\ Forall (fun e => match e with ESend OHb _ _ _ => False | _ => True end) l2.
Definition beats (c : conn) : Prop :=
  match hb c with BStore d => last_beat (log c) d | BAck => last_beat (log c) (hbd c) | _ => True end.
Lemma last_beat_app l d es : last_beat l d -> Forall (fun e => match e with ESend OHb _ _ _ => False | _ => True end) es -> last_beat (l ++ es) d.
Proof. intros (l1 & b & l2 & -> & F) G. exists l1, b, (l2 ++ es). rewrite <- app_assoc. split; auto. apply Forall_app; auto. Qed.
Lemma beats_ext c c' es : beats c -> hb c' = hb c -> hbd c' = hbd c -> log c' = log c ++ es ->
  Forall (fun e => match e with ESend OHb _ _ _ => False | _ => True end) es -> beats c'.
Proof. unfold beats. intros B -> -> -> F. destruct (hb c); auto using last_beat_app. Qed.
Lemma beats_step c l c' : beats c -> no_other l -> crash c = None -> stepR c l c' -> beats c'.
Proof.
  intros B O C S.
  assert (N0 : forall c', hb c' = hb c -> hbd c' = hbd c -> log c' = log c -> beats c').
  { intros x E1 E2 E3. apply (beats_ext c x []); auto. rewrite app_nil_r. auto. }
  assert (N1 : forall c' e, hb c' = hb c -> hbd c' = hbd c -> log c' = log c ++ [e] -> match e with ESend OHb _ _ _ => False | _ => True end -> beats c').
  { intros x e E1 E2 E3 E4. apply (beats_ext c x [e]); auto. }
  destruct S; try contradiction; try (apply N0; reflexivity); try (eapply N1; [reflexivity|reflexivity|reflexivity|exact Logic.I]);
    try solve [unfold beats; cb; auto].
  - eapply beats_ext with (es := [_; _]); [exact B|reflexivity|reflexivity|cb; rewrite <- app_assoc; reflexivity|repeat constructor].
  - rewrite state_update_eq. eapply N1; try reflexivity.
  - bfields (set_dial DOk c). unfold beats in *. cb. rewrite B11, B17, B20. destruct (hb c); auto.
  - fields c. bfields (closing c). unfold beats in *. cb. rewrite B11, K11, B17, K17, B20, K20. destruct (hb c); auto; apply last_beat_app; auto.
  - unfold beats. cb. destruct (hb_on (cfg c)); auto.
  - unfold beats. cb. exists (log c), b, []. split; auto.
  - unfold beats in *. cb. now rewrite H in B.
  - fields c. unfold beats in *. cb. rewrite K11, K17, K20. destruct (hb c); auto; apply last_beat_app; auto.
  - destruct H0 as [->|[->|(o & e & X & ->)]]; (eapply beats_ext with (c := c); [exact B|reflexivity|reflexivity|reflexivity|repeat constructor]).
Qed.
Lemma beats_run m g o ls c : run (start m g o) ls = Some c -> Forall no_other ls -> hb c = BAck -> last_beat (log c) (hbd c).
Proof.
  intros R F H. pose proof (run_inv no_other beats beats_step ls (start m g o) c) as P.
  assert (B : beats c) by (apply P; auto; exact Logic.I). unfold beats in B. now rewrite H in B.
Qed.

(** ** Calls made after Close can return *)
Lemma late_call_returns c i op : after_close c -> crash c = None -> unlocked c = true -> nth_error (us c) i = Some (UGo op) ->
  match op with OpRead _ | OpReadPD | OpWriteTo _ _ | OpWritePDTo _ _ => True | _ => False end ->
  exists c', step c (LUser i true) = Some c' /\ nth_error (us c') i = Some (UDone RNotEstablished).
Proof.
  intros (_ & _ & A) C U N Op.
  assert (state c <> Active) as S. { intros E. apply A in E. unfold unlocked in U. rewrite E in U. discriminate. }
  assert (exists u, checked_op c op = Some u) as [u E] by (destruct op; cbn in *; try contradiction; eauto).
  exists (ugo i (UDone RNotEstablished) c). split; [|cb; eapply upd_nth_same; eauto].
  apply stepR_step; auto. eapply S_check_no; eauto.
Qed.
