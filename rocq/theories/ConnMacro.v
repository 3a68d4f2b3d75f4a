(** Concrete schedules: the steps of ConnBase.v can be performed, and a packet can
    be processed to the end. *)
From Verif Require Import GoBase BaseProofs ParamsModel MessagesModel MessagesProofs MessagesProofs2 ConfigModel
  ConnModel ConnSpec ConnBase ConnInv ConnTrace ConnUser.
From Coq Require Import Arith Lia.
Open Scope nat_scope.

Lemma WriteSignal_ok o c m b : wire m = Ok b -> sopen c = true ->
  WriteSignal o c m true = WOk (emit (ESend o 0 m b) c) (m3_MarshalLen m + length b).
Proof.
  intros W S. unfold WriteSignal, can_write. rewrite W, S. cbn [andb].
  now destruct (b2n (MessageClass m) =? 1)%N.
Qed.
Lemma WriteSignal_fail o c m ok : (forall b, wire m = Ok b -> ok && sopen c = false) -> WriteSignal o c m ok = WErr.
Proof.
  intros H. destruct (wire_total m) as [b W]. unfold WriteSignal, can_write. rewrite W, (H b W). reflexivity.
Qed.
Lemma Close_ok c : (state c <> Down -> closed c = false) -> Close c = closing c.
Proof.
  intros H. unfold Close, closing. cbn [state emit set_log]. destruct (st_eqb (state c) Down) eqn:E; auto.
  apply st_eqb_neq in E. cbn [closed emit set_log]. now rewrite H.
Qed.

Lemma stepR_step c l c' : crash c = None -> stepR c l c' -> crash c' = None -> step c l = Some c'.
Proof.
  intros C S C'. unfold step. rewrite C. destruct S; try reflexivity;
    try (match goal with |- step_mon _ _ = _ => unfold step_mon end);
    try (match goal with |- step_hand _ _ _ = _ => unfold step_hand; match goal with H : nth_error (hs c) _ = _ |- _ => rewrite H end end);
    try (match goal with |- step_data _ _ = _ => unfold step_data; match goal with H : nth_error (ds c) _ = _ |- _ => rewrite H end end);
    try (match goal with |- step_user _ _ _ = _ => unfold step_user; match goal with H : nth_error (us c) _ = _ |- _ => rewrite H end end);
    try (match goal with |- step_hb _ _ = _ => unfold step_hb; match goal with H : hb c = _ |- _ => rewrite H end end);
    try (match goal with H : mon c = _ |- _ => rewrite H end).
  - now rewrite H.
  - cbn [cfg emit set_log]. rewrite H0. subst ok. rewrite (WriteSignal_ok OMon (emit (ERefused o e) c) m b); auto.
  - cbn [cfg emit set_log]. destruct (error_reply_total (cfg c) e) as [[m|] R]; rewrite R; [|reflexivity].
    rewrite WriteSignal_fail; [reflexivity|]. intros b W. cb. eauto.
  - reflexivity.
  - subst ok. rewrite (WriteSignal_ok OMon c m b); auto.
  - rewrite WriteSignal_fail; auto.
  - now rewrite H0, H1.
  - rewrite H0, H1. reflexivity.
  - now rewrite H0.
  - rewrite Close_ok by auto. destruct (closing_fields c) as (_ & _ & _ & _ & _ & _ & _ & _ & _ & _ & _ & _ & _ & _ & _ & _ & _ & _ & K & _).
    rewrite K, C. reflexivity.
  - now rewrite H0.
  - now rewrite H0.
  - now rewrite H0.
  - now rewrite H0.
  - rewrite H0. apply N.eqb_neq in H1. now rewrite H1.
  - rewrite H0, H1, H2. reflexivity.
  - rewrite H0, H1, H2. reflexivity.
  - rewrite H0, H1. reflexivity.
  - rewrite H0, H1. reflexivity.
  - rewrite H0, H1. reflexivity.
  - subst ok. rewrite (WriteSignal_ok (OHand i) c m b); auto.
  - rewrite WriteSignal_fail; auto.
  - unfold recv_err. cb. now rewrite H0.
  - rewrite H0, H1. reflexivity.
  - now rewrite H0.
  - reflexivity.
  - rewrite H0. apply st_eqb_iff in H1. now rewrite H1.
  - rewrite H0. apply st_eqb_neq in H1. now rewrite H1.
  - unfold recv_err. cb. now rewrite H0.
  - now rewrite H0, H1.
  - now rewrite H0, H1.
  - rewrite H0. apply N.ltb_lt in H1. now rewrite H1.
  - now rewrite H, H0.
  - reflexivity.
  - reflexivity.
  - reflexivity.
  - rewrite H. now rewrite (proj2 (Nat.eqb_eq _ _) H0).
  - subst ok. rewrite (WriteSignal_ok OHb c (beat d) b); auto.
  - rewrite WriteSignal_fail; auto.
  - reflexivity.
  - now rewrite H0.
  - unfold recv_err. cb. now rewrite H0.
  - now rewrite H.
  - now rewrite H.
  - destruct H as [-> | ->]; now rewrite H0.
  - now rewrite H, H0.
  - now rewrite H.
  - now rewrite H.
  - apply st_eqb_iff in H2. destruct op; cbn [checked_op] in H0; inversion H0; subst; rewrite H1, H2; reflexivity.
  - apply st_eqb_neq in H2. destruct op; cbn [checked_op] in H0; inversion H0; subst; rewrite H1, H2; reflexivity.
  - now rewrite H0.
  - now rewrite H0.
  - subst ok. rewrite (WriteSignal_ok (OUser i) c m b); auto.
  - rewrite WriteSignal_fail; auto.
  - rewrite H0, Close_ok by auto. destruct (closing_fields c) as (_ & _ & _ & _ & _ & _ & _ & _ & _ & _ & _ & _ & _ & _ & _ & _ & _ & _ & K & _).
    rewrite K, C. reflexivity.
  - now rewrite H0.
  - now rewrite H0.
  - now rewrite H0, H1.
  - rewrite H0. unfold can_write. rewrite H1, H2. reflexivity.
  - destruct (m3_MarshalTo_any m) as (m' & b & M & _). rewrite M. unfold can_write. now rewrite (H0 _ _ M).
  - cbn in C'. discriminate.
Qed.

(** a step that does not end in a panic *)
Lemma go c l c' ls c2 : crash c = None -> stepR c l c' -> crash c' = None -> run c' ls = Some c2 -> run c (l :: ls) = Some c2.
Proof. intros. rewrite (run_cons _ _ _ c'); auto. now apply stepR_step. Qed.
Lemma run_trans c l1 c1 l2 c2 : run c l1 = Some c1 -> run c1 l2 = Some c2 -> run c (l1 ++ l2) = Some c2.
Proof. intros A B. now rewrite run_app, A. Qed.

(** ** Processing a packet *)
Lemma kept_refl c : kept c c. Proof. repeat split. Qed.
Lemma kept_trans a b c : kept a b -> kept b c -> kept a c.
Proof.
  intros (A1 & A2 & A3 & A4 & A5 & A6 & A7 & A8 & A9 & A10 & A11 & A12 & A13 & A14)
         (B1 & B2 & B3 & B4 & B5 & B6 & B7 & B8 & B9 & B10 & B11 & B12 & B13 & B14).
  repeat split; etransitivity; eauto.
Qed.

Lemma hgo_nth c n l x : nth_error (hs c) n = Some x -> nth_error (hs (hgo n l c)) n = Some l.
Proof. intros H. cb. eapply upd_nth_same; eauto. Qed.
Lemma upd_upd {A} (l : list A) i x y : upd (upd l i x) i y = upd l i y.
Proof. revert i; induction l as [|z r IH]; intros [|i]; cbn; auto. now rewrite IH. Qed.
Lemma upd_same {A} (l : list A) i x : nth_error l i = Some x -> upd l i x = l.
Proof. revert i; induction l as [|z r IH]; intros [|i] H; cbn in *; try discriminate; [congruence|]. now rewrite IH. Qed.

Lemma process_tail c n k s : nth_error (hs c) n = Some k -> k = [ISt s] \/ (k = [ICur] /\ s = state c) ->
  crash c = None -> mon c = MSelect ->
  exists ls c', run c ls = Some c' /\ Forall smooth ls /\ kept c c' /\ log c' = log c ++ [EUpd s] /\ state c' = s /\
    mon c' = upd_mon s c /\ hs c' = upd (hs c) n [] /\ ds c' = ds c /\ inq c' = inq c.
Proof.
  intros N K C M.
  assert (A : forall c, nth_error (hs c) n = Some [ISt s] -> crash c = None -> mon c = MSelect ->
    exists c', run c [LHand n true; LMon true] = Some c' /\ kept c c' /\ log c' = log c ++ [EUpd s] /\ state c' = s /\
    mon c' = upd_mon s c /\ hs c' = upd (hs c) n [] /\ ds c' = ds c /\ inq c' = inq c).
  { clear. intros c N C M. eexists. split.
    - eapply go; [exact C|eapply S_st; eauto|reflexivity || exact C|].
      eapply go; [exact C|apply S_upd; reflexivity| |reflexivity]. rewrite state_update_eq. exact C.
    - rewrite state_update_eq. cb. repeat split. }
  destruct K as [->|[-> ->]].
  - destruct (A c N C M) as (c' & R & B). exists [LHand n true; LMon true], c'. split; [exact R|]. split; [|exact B].
    repeat constructor.
  - destruct (A (hgo n [ISt (state c)] c)) as (c' & R & B); cb; auto.
    { eapply upd_nth_same; eauto. }
    exists [LHand n true; LHand n true; LMon true], c'. split.
    + eapply go; [exact C|eapply S_cur; eauto; unfold unlocked; now rewrite M|exact C|exact R].
    + split; [repeat constructor|]. rewrite upd_upd in B. exact B.
Qed.

Lemma answered c n e : crash c = None -> sopen c = true -> mon c = MErr (OHand n) e ->
  (e <> EWriteSignal /\ e <> EHeartbeatExpired /\ e <> EFailedToPeelOff /\ e <> EFailedToWriteSignal /\ e <> ERand /\
   (forall i, e <> EInvalidStream i) /\ (forall m, e <> EUnsupportedClass m) /\ e <> EAspIDRequired) ->
  exists r b, answers (cfg c) e r /\ encodes r b /\
    run c [LMon true] = Some (set_mon MSelect (emit (ESend OMon 0 r b) (emit (ERefused (OHand n) e) c))).
Proof.
  intros C S M (E1 & E2 & E3 & E4 & E5 & E6 & E7 & E8).
  destruct (error_reply_total (cfg c) e) as [[r|] R].
  - destruct (wire_total r) as [b W]. exists r, b. split; [apply error_reply_answers; auto|]. split; [now apply wire_encodes|].
    eapply go; [exact C|eapply S_err_send; eauto|exact C|reflexivity].
  - destruct e; cbn in R; try congruence; destruct (first40_total m) as (b & _ & F); rewrite F in R; cbn in R; discriminate.
Qed.

Lemma reacts_refuse_answered g s m e : reacts g s m (Refuse e) ->
  (e <> EWriteSignal /\ e <> EHeartbeatExpired /\ e <> EFailedToPeelOff /\ e <> EFailedToWriteSignal /\ e <> ERand /\
   (forall i, e <> EInvalidStream i) /\ (forall m, e <> EUnsupportedClass m) /\ e <> EAspIDRequired).
Proof. intros H. inversion H; subst; repeat split; intros; discriminate. Qed.

(** the handling part: from the start of the plan to the state update *)
Lemma process_plan c n m : reachable c -> nth_error (hs c) n = Some (snd (plan m)) ->
  crash c = None -> mon c = MSelect -> sopen c = true ->
  (forall t, m = Typed t -> m_kind t <> KHeartbeatAck) ->
  exists rc ls c' evs k, reacts (cfg c) (state c) m rc /\ outcome (cfg c) n rc evs /\
    run c ls = Some c' /\ Forall smooth ls /\ kept c c' /\ log c' = log c ++ evs /\
    state c' = state c /\ mon c' = MSelect /\ hs c' = upd (hs c) n k /\ ds c' = ds c /\ inq c' = inq c /\
    (k = [ISt (next_state m (state c))] \/ (k = [ICur] /\ next_state m (state c) = state c)).
Proof.
  intros R N C M So NB. pose proof (proj1 (RInv_reachable c R)) as Rg.
  assert (U : unlocked c = true) by (unfold unlocked; now rewrite M).
  assert (Err : forall (e : cerr) k c0, nth_error (hs c0) n = Some (IErr e :: k) -> crash c0 = None -> mon c0 = MSelect -> sopen c0 = true ->
     forall s, reacts (cfg c0) s m (Refuse e) ->
     exists ls c' evs, outcome (cfg c0) n (Refuse e) evs /\ run c0 ls = Some c' /\ Forall smooth ls /\ kept c0 c' /\ log c' = log c0 ++ evs /\
    state c' = state c0 /\ mon c' = MSelect /\ hs c' = upd (hs c0) n k /\ ds c' = ds c0 /\ inq c' = inq c0).
  { clear. intros e k c N C M So s Re.
    destruct (answered (set_mon (MErr (OHand n) e) (hgo n k c)) n e) as (r & b & An & En & Ru); cb; auto.
    { eapply reacts_refuse_answered; eauto. }
    eexists [LHand n true; LMon true], _, _. split; [exists r, b; repeat split; eauto|]. split.
    - eapply go; [exact C|eapply S_herr; eauto|exact C|exact Ru].
    - cb. split; [repeat constructor|]. rewrite <- app_assoc. repeat split. }
  assert (Hd : forall t k, m = Typed t -> snd (plan m) = IHandle t :: k ->
     (k = [ISt (next_state m (state c))] \/ (k = [ICur] /\ next_state m (state c) = state c)) ->
     exists rc ls c' evs k, reacts (cfg c) (state c) m rc /\ outcome (cfg c) n rc evs /\
    run c ls = Some c' /\ Forall smooth ls /\ kept c c' /\ log c' = log c ++ evs /\
    state c' = state c /\ mon c' = MSelect /\ hs c' = upd (hs c) n k /\ ds c' = ds c /\ inq c' = inq c /\
    (k = [ISt (next_state m (state c))] \/ (k = [ICur] /\ next_state m (state c) = state c))).
  { intros t k -> Pl Hk. destruct (plan_handle_kind _ _ _ Pl) as [KD SU]. rewrite Pl in N.
    pose proof (handle_reacts (cfg c) (hbd c) (state c) t Rg KD SU) as Hr.
    destruct (handle (cfg c) (hbd c) (state c) t) as [|e|r|p] eqn:Ha.
    - exists Consume, [LHand n true], (hgo n k c), [], k. split; [exact Hr|]. split; [reflexivity|]. split.
      { eapply go; [exact C|eapply S_handle_nil; eauto|exact C|reflexivity]. }
      cb. rewrite app_nil_r. repeat split; auto. repeat constructor.
    - destruct (Err e k (hgo n (IErr e :: k) c)) with (s := state c) as (ls & c' & evs & O & Ru & F & Ke & L & B1 & B2 & B3 & B4 & B5); cb; auto.
      { eapply upd_nth_same; eauto. }
      exists (Refuse e), (LHand n true :: ls), c', evs, k. split; [exact Hr|]. split; [exact O|]. split.
      { eapply go; [exact C|eapply S_handle_err; eauto|exact C|exact Ru]. }
      split; [constructor; [exact I|exact F]|]. rewrite upd_upd in B3. repeat split; auto; apply Ke.
    - destruct (wire_total r) as [b W].
      exists (Reply r), [LHand n true; LHand n true], (hgo n k (emit (ESend (OHand n) 0 r b) (hgo n (IWrite r :: k) c))), [ESend (OHand n) 0 r b], k.
      split; [exact Hr|]. split; [exists b; split; auto; now apply wire_encodes|]. split.
      { eapply go; [exact C|eapply S_handle_reply; eauto|exact C|].
        eapply go; [exact C|eapply S_hwrite; [eapply hgo_nth; eauto|exact W|reflexivity|exact So]|exact C|reflexivity]. }
      cb. rewrite upd_upd. repeat split; auto. repeat constructor.
    - destruct Hr as [Hr _]. exfalso. eapply NB; eauto. }
  unfold next_state in *. shapes m.
  - subst m. assert (names (Typed t) = None) as Nm by (unfold names; now rewrite K).
    exists Consume, [], c, [], [ICur]. rewrite Nm.
    rewrite P in N. cbn [snd] in N. split; [constructor; unfold silent_table; rewrite K; destruct Rg as [->|[->| ->]]; cbn; auto|].
    split; [reflexivity|]. split; [reflexivity|]. split; [constructor|]. split; [apply kept_refl|].
    rewrite app_nil_r, upd_same by auto. repeat split; auto.
  - subst m. rewrite K in *. eapply Hd; [reflexivity|rewrite P; reflexivity|auto].
  - subst m. rewrite K in *. eapply Hd; [reflexivity|rewrite P; reflexivity|auto].
  - subst m. exfalso. eapply NB; eauto.
  - rewrite K in *. rewrite P in N. cbn [snd] in N.
    assert (Re : reacts (cfg c) (state c) m (Refuse (EUnsupportedMessage m))) by now constructor.
    destruct (Err _ _ c N C M So _ Re) as (ls & c' & evs & O & Ru & F & Ke & L & B1 & B2 & B3 & B4 & B5).
    exists (Refuse (EUnsupportedMessage m)), ls, c', evs, [ICur].
    split; [exact Re|]. split; [exact O|]. repeat split; auto; apply Ke.
Qed.

(** ** A packet can be processed to the end *)
Lemma process c raw q m : reachable c -> crash c = None -> mon c = MRead -> sopen c = true -> ctxd c = false ->
  inq c = raw :: q -> length raw <= bufsize -> valid raw m -> (forall t, m = Typed t -> m_kind t <> KHeartbeatAck) ->
  exists rc ls c' evs, reacts (cfg c) (state c) m rc /\ outcome (cfg c) (length (reads (log c))) rc evs /\
    run c ls = Some c' /\ Forall smooth ls /\ kept c c' /\
    log c' = log c ++ ERead raw :: evs ++ [EUpd (next_state m (state c))] /\
    state c' = next_state m (state c) /\ mon c' = upd_mon (next_state m (state c)) c /\ inq c' = q /\
    ds c' = ds c ++ match fst (plan m) with Some t => [DCheck t] | None => [] end /\
    hs c' = hs c ++ [[]].
Proof.
  intros R C M So Cx Q Ln [P V] NB.
  destruct (Inv_reachable c R C) as (_ & _ & h & Hi & St & Hn & _).
  assert (Hl : h_n h = length (reads (log c))) by (apply (history_n _ _ _ _ Hi)).
  rewrite <- Hl, Hn. set (n := length (hs c)).
  assert (F1 : firstn bufsize raw = raw) by (apply firstn_all2; lia).
  assert (F2 : skipn bufsize raw = []) by (apply skipn_all2; lia).
  pose (c1 := set_mon MSelect (set_hs (hs c ++ [[IParse raw]]) (emit (ERead raw) (set_inq q c)))).
  assert (R1 : run c [LMon true] = Some c1).
  { eapply go; [exact C|eapply S_read; eauto| |]; rewrite ?F1, ?F2; [exact C|reflexivity]. }
  assert (N1 : forall x, nth_error (hs c ++ [x]) n = Some x) by (intros; unfold n; rewrite nth_error_app2, Nat.sub_diag by lia; reflexivity).
  assert (U1 : forall x y, upd (hs c ++ [x]) n y = hs c ++ [y]).
  { intros. destruct (upd_split _ _ _ (N1 x)) as (l1 & l2 & E & L & U). rewrite U. apply app_inj_tail_iff || idtac.
    assert (l1 = hs c /\ l2 = []) as [-> ->]; [|reflexivity].
    assert (length (l1 ++ x :: l2) = length (hs c ++ [x])) by now rewrite E. rewrite !app_length in *. cbn in *.
    destruct l2; cbn in *; [|unfold n in L; lia]. change (l1 ++ [x]) with (l1 ++ [x]) in E. apply app_inj_tail in E. intuition. }
  set (l := snd (plan m)).
  pose (c3 := set_ds (ds c ++ match fst (plan m) with Some t => [DCheck t] | None => [] end) (set_hs (hs c ++ [l]) c1)).
  assert (R3 : run c1 [LHand n true; LHand n true] = Some c3).
  { eapply go; [exact C|eapply S_parse with (raw := raw) (m := m); [apply N1|exact P]|exact C|].
    assert (N2 : nth_error (hs (hgo n [ISig m] c1)) n = Some [ISig m]) by (eapply hgo_nth; apply N1).
    assert (Hh : hgo n l (hgo n [ISig m] c1) = set_hs (hs c ++ [l]) c1).
    { unfold hgo, c1. cb. now rewrite U1, U1. }
    unfold c3. destruct (plan m) as [[t|] l0] eqn:Pl; cbn [fst snd] in *; subst l.
    - eapply go; [exact C|eapply S_sig_data; eauto|exact C|]. rewrite Hh. reflexivity.
    - eapply go; [exact C|eapply S_sig; eauto|exact C|]. rewrite Hh, app_nil_r. unfold c1. cb. reflexivity. }
  assert (R03 : run c ([LMon true] ++ [LHand n true; LHand n true]) = Some c3) by (eapply run_trans; eauto).
  assert (Re3 : reachable c3) by (eapply reachable_run; eauto).
  destruct (process_plan c3 n m) as (rc & ls & c4 & evs & k & Rc & Oc & R4 & F4 & K4 & L4 & S4 & M4 & H4 & D4 & Q4 & Kk);
    auto; try (unfold c3, c1; cb; auto; fail); try (unfold c3; cb; apply N1).
  destruct (process_tail c4 n k (next_state m (state c))) as (ls' & c5 & R5 & F5 & K5 & L5 & S5 & M5 & H5 & D5 & Q5); auto.
  { rewrite H4. eapply upd_nth_same. unfold c3. cb. apply N1. }
  { rewrite S4. exact Kk || (destruct Kk as [Kk|[Kk1 Kk2]]; [left; exact Kk|right; split; [exact Kk1|exact Kk2]]). }
  { destruct K4 as (_ & _ & _ & _ & _ & _ & _ & _ & _ & _ & _ & _ & _ & ->). exact C. }
  exists rc, (([LMon true] ++ [LHand n true; LHand n true]) ++ ls ++ ls'), c5, evs.
  split; [exact Rc|]. split; [exact Oc|]. split; [eapply run_trans; [exact R03|eapply run_trans; eauto]|].
  split; [rewrite !Forall_app; repeat split; auto; repeat constructor|].
  split; [apply (kept_trans _ c3); [unfold c3, c1; repeat split|exact (kept_trans _ _ _ K4 K5)]|].
  rewrite L5, L4. split; [unfold c3, c1; cb; now rewrite <- !app_assoc|].
  split; [exact S5|]. split.
  { rewrite M5. unfold upd_mon. destruct K4 as (-> & -> & _). rewrite S4. reflexivity. }
  split; [rewrite Q5, Q4; reflexivity|]. split; [rewrite D5, D4; reflexivity|].
  rewrite H5, H4, upd_upd. unfold c3. cb. apply U1.
Qed.
