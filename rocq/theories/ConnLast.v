(** The end of a connection and the data received before it. *)
From Verif Require Import GoBase BaseProofs ParamsModel MessagesModel MessagesProofs MessagesProofs2 AccessorProofs ConfigModel
  ConnModel ConnSpec ConnBase ConnInv ConnTrace ConnUser ConnMacro ConnMore ConnStable ConnData LastSpec.
From Coq Require Import Arith Lia.
Open Scope nat_scope.

(** ** Counting the calls that wait *)
Lemma count_upd {A} (f : A -> bool) l : forall i a b, nth_error l i = Some a ->
  length (filter f (upd l i b)) + (if f a then 1 else 0) = length (filter f l) + (if f b then 1 else 0).
Proof.
  induction l as [|x l IH]; intros [|i] a b N; try discriminate N; cbn [nth_error] in N.
  - injection N as ->. cbn [upd filter]. destruct (f a), (f b); cbn [length]; lia.
  - specialize (IH i a b N). cbn [upd filter]. destruct (f x); cbn [length]; lia.
Qed.
Lemma count_app {A} (f : A -> bool) l a : length (filter f (l ++ [a])) = length (filter f l) + (if f a then 1 else 0).
Proof. rewrite filter_app, app_length. cbn [filter]. destruct (f a); reflexivity. Qed.

(** ** After the end *)
Definition tally (c0 c : conn) (j : nat) : Prop :=
  delivered (log c) = delivered (log c0) ++ firstn j (dq c0) /\ dq c = skipn j (dq c0) /\ j <= length (dq c0) /\
  blocked c + j <= blocked c0 /\ (blocked c + j < blocked c0 -> dq c = []).
Lemma skipn_next {A} (l : list A) j a r : skipn j l = a :: r -> firstn (Datatypes.S j) l = firstn j l ++ [a] /\ skipn (Datatypes.S j) l = r /\ Datatypes.S j <= length l.
Proof.
  revert l; induction j as [|j IH]; intros [|x l] E; try discriminate E; cbn [skipn] in E.
  - injection E as -> ->. cbn. repeat split; auto. lia.
  - destruct (IH l E) as (E1 & E2 & E3). split; [|split; [exact E2|cbn [length]; lia]].
    change (firstn (Datatypes.S (Datatypes.S j)) (x :: l)) with (x :: firstn (Datatypes.S j) l). rewrite E1. reflexivity.
Qed.
Lemma tally_same c0 c c' j : tally c0 c j -> delivered (log c') = delivered (log c) -> dq c' = dq c -> blocked c' = blocked c -> tally c0 c' j.
Proof. unfold tally. intros (A & B & C & D & E) -> -> ->. auto. Qed.
Lemma not_rule c i u u' : nth_error (us c) i = Some u -> blocked_read u = false -> blocked_read u' = false ->
  blocked (set_us (upd (us c) i u') c) = blocked c.
Proof. intros N H H'. unfold blocked. cbn [us set_us]. pose proof (count_upd blocked_read _ _ _ u' N). rewrite H, H' in H0. lia. Qed.

Lemma ended_step c0 j c l c' : ended c -> tally c0 c j -> crash c = None -> stepR c l c' -> crash c' = None ->
  ended c' /\ exists j', tally c0 c' j'.
Proof.
  intros [K So St Di In Hs M] T C S C'.
  assert (Hh : forall i x k, nth_error (hs c) i = Some (x :: k) -> False).
  { intros i x k N. rewrite Forall_forall in Hs. apply nth_error_In in N. apply Hs in N. discriminate. }
  assert (Mo : mon c <> MSelect /\ (forall o e, mon c <> MErr o e) /\ (forall s, mon c <> MUpd s) /\ (forall m, mon c <> MInit m) /\ mon c <> MEst).
  { destruct M as [->|[->| ->]]; repeat split; intros; discriminate. }
  destruct Mo as (M1 & M2 & M3 & M4 & M5).
  destruct S; cb; try (exfalso; eauto; fail); try congruence;
    try solve [split; [constructor; cb; auto; try congruence|exists j; eapply tally_same; [exact T| | |]; cb; rewrite ?delivered_app; cbn; rewrite ?app_nil_r; reflexivity]].
  - fields c. bfields (closing c). split.
    + constructor; cb; auto; try congruence; rewrite B5, K5, K; apply orb_true_r.
    + exists j. eapply tally_same; [exact T| | |]; cb.
      * rewrite B20, K20, delivered_app. apply app_nil_r.
      * congruence.
      * unfold blocked. cb. now rewrite B15, K15.
  - assert (X : us (if hba c then set_hbd d c else c) = us c /\ log (if hba c then set_hbd d c else c) = log c /\ dq (if hba c then set_hbd d c else c) = dq c)
      by (destruct (hba c); auto). destruct X as (X1 & X2 & X3).
    split; [destruct (hba c); constructor; cb; auto|]. exists j. eapply tally_same; [exact T| | |]; cb; [now rewrite X2|exact X3|unfold blocked; cb; now rewrite X1].
  - split; [constructor; cb; auto|]. exists j. eapply tally_same; [exact T|reflexivity|reflexivity|]. unfold blocked. cb. rewrite count_app. apply Nat.add_0_r.
  - split; [constructor; cb; auto|]. exists j. eapply tally_same; [exact T|reflexivity|reflexivity|]. eapply not_rule; [exact H|reflexivity|reflexivity].
  - split; [constructor; cb; auto|]. exists j. eapply tally_same; [exact T|reflexivity|reflexivity|]. eapply not_rule; [exact H|reflexivity|reflexivity].
  - split; [constructor; cb; auto|]. exists j. eapply tally_same; [exact T|reflexivity|reflexivity|]. eapply not_rule; [exact H|reflexivity|reflexivity].
  - split; [constructor; cb; auto|]. exists j. eapply tally_same; [exact T|reflexivity|reflexivity|]. eapply not_rule; [exact H|reflexivity|reflexivity].
  - fields c. split.
    + constructor; cb; auto; try congruence; rewrite K5, K; apply orb_true_r.
    + exists j. eapply tally_same; [exact T| | |]; cb.
      * rewrite K20, delivered_app. apply app_nil_r.
      * congruence.
      * unfold blocked. cb. rewrite K15. pose proof (count_upd blocked_read _ _ _ (UDone (RClosed (sopen c))) H) as X. cbn in X. lia.
  - split; [constructor; cb; auto|]. exists j. eapply tally_same; [exact T|reflexivity|reflexivity|]. eapply not_rule; [exact H|reflexivity|reflexivity].
  - split; [constructor; cb; auto|]. exists (Datatypes.S j). destruct T as (T1 & T2 & T3 & T4 & T5). rewrite H0 in T2. symmetry in T2.
    destruct (skipn_next _ _ _ _ T2) as (E1 & E2 & E3). pose proof (count_upd blocked_read _ _ _ (UDone (read_result buf pd)) H) as X. cbn [blocked_read] in X.
    unfold tally, blocked in *. cb. rewrite delivered_app, T1, E1, E2. cbn [delivered flat_map]. rewrite <- app_assoc, app_nil_r.
    split; [reflexivity|]. split; [reflexivity|]. split; [exact E3|]. split; [lia|]. intros Y. assert (Z : length (filter blocked_read (us c)) + j < length (filter blocked_read (us c0))) by lia.
    apply T5 in Z. congruence.
  - split; [constructor; cb; auto|]. exists j. destruct T as (T1 & T2 & T3 & T4 & T5). pose proof (count_upd blocked_read _ _ _ (UDone RNotEstablished) H) as X. cbn [blocked_read] in X.
    unfold tally, blocked in *. cb. repeat split; auto. lia.
  - split; [constructor; cb; auto|]. exists j. eapply tally_same; [exact T|reflexivity|reflexivity|]. eapply not_rule; [exact H|reflexivity|reflexivity].
Qed.

Lemma ended_run c ls c' : ended c -> crash c = None -> run c ls = Some c' -> crash c' = None -> ended c' /\ exists j, tally c c' j.
Proof.
  intros E C R. revert ls c' R.
  refine (run_along c (fun c' => crash c' = None -> ended c' /\ exists j, tally c c' j) _ _).
  - intros _. split; [exact E|]. exists 0. unfold tally. cbn [firstn skipn]. rewrite app_nil_r. repeat split; auto; lia.
  - intros ls a l b _ I S Cb. destruct (step_stepR _ _ _ S) as [Ca S']. destruct (I Ca) as (Ea & j & Tj). eapply ended_step; eauto.
Qed.
(** when no call waits any more *)
Lemma ended_rest c ls c' : ended c -> crash c = None -> run c ls = Some c' -> crash c' = None -> blocked c' = 0 ->
  delivered (log c') = delivered (log c) ++ firstn (blocked c) (dq c) /\ dq c' = skipn (blocked c) (dq c).
Proof.
  intros E C R C' B. destruct (ended_run c ls c' E C R C') as (_ & j & T1 & T2 & T3 & T4 & T5). rewrite B in *.
  destruct (Nat.eq_dec j (blocked c)) as [->|N]; [auto|]. assert (X : dq c' = []) by (apply T5; lia).
  rewrite X in T2. assert (J : length (dq c) <= j).
  { assert (length (skipn j (dq c)) = 0) by (rewrite <- T2; reflexivity). rewrite skipn_length in H. lia. }
  rewrite firstn_all2 in T1 by exact J. rewrite firstn_all2, skipn_all2 by lia. auto.
Qed.
(** and a call that waits can always return *)
Lemma ended_returns c i buf ok : ended c -> crash c = None -> nth_error (us c) i = Some (URecv buf) ->
  exists c' r, step c (LUser i ok) = Some c' /\ crash c' = None /\ ended c' /\ nth_error (us c') i = Some (UDone r) /\ Datatypes.S (blocked c') = blocked c /\
    r = match dq c with pd :: _ => read_result buf pd | [] => RNotEstablished end.
Proof.
  intros E C N. destruct E as [K So St Di In Hs M].
  pose proof (fun r => count_upd blocked_read _ _ _ (UDone r) N) as X. cbn [blocked_read] in X.
  destruct (dq c) as [|pd r] eqn:D.
  - exists (ugo i (UDone RNotEstablished) c), RNotEstablished. split; [apply stepR_step; auto; eapply S_recv_closed; eauto|]. split; [exact C|].
    split; [constructor; cb; auto|]. split; [cb; eapply upd_nth_same; eauto|]. split; [unfold blocked; cb; specialize (X RNotEstablished); lia|reflexivity].
  - exists (ugo i (UDone (read_result buf pd)) (emit (EDeliver pd) (set_dq r c))), (read_result buf pd).
    split; [apply stepR_step; auto; eapply S_recv; eauto|]. split; [exact C|].
    split; [constructor; cb; auto|]. split; [cb; eapply upd_nth_same; eauto|]. split; [unfold blocked; cb; specialize (X (read_result buf pd)); lia|reflexivity].
Qed.
Lemma blocked_ex c n : blocked c = Datatypes.S n -> exists i buf, nth_error (us c) i = Some (URecv buf).
Proof.
  unfold blocked. intros H. destruct (filter blocked_read (us c)) as [|u r] eqn:F; [discriminate|].
  assert (I : In u (filter blocked_read (us c))) by (rewrite F; now left). apply filter_In in I as [I B].
  apply In_nth_error in I as [i N]. destruct u; try discriminate. eauto.
Qed.
Lemma ended_drains c : ended c -> crash c = None -> exists ls c', run c ls = Some c' /\ length ls = blocked c /\
  Forall (fun l => exists i, l = LUser i true) ls /\ crash c' = None /\ blocked c' = 0.
Proof.
  remember (blocked c) as n eqn:B. revert c B. induction n as [|n IH]; intros c B E C.
  - exists [], c. repeat split; auto.
  - symmetry in B. destruct (blocked_ex c n B) as (i & buf & N).
    destruct (ended_returns c i buf true E C N) as (c1 & r & S & C1 & E1 & _ & B1 & _).
    destruct (IH c1 ltac:(lia) E1 C1) as (ls & c' & R & L & F & C' & B').
    exists (LUser i true :: ls), c'. cbn [run length]. rewrite S. repeat split; auto. constructor; eauto.
Qed.
(** calls made after the end *)
Lemma ended_late c op ls c' : ended c -> run c (LCall op :: ls) = Some c' ->
  exists u, nth_error (us c') (length (us c)) = Some u /\ late op u.
Proof.
  intros [K So St Di In Hs M] R. cbn [run] in R. destruct (step c (LCall op)) as [c1|] eqn:S; [|discriminate].
  destruct (step_stepR _ _ _ S) as [C S']. assert (A : after_close c) by (repeat split; auto; congruence).
  pose proof (after_close_step _ _ _ A C S') as A1.
  assert (N : nth_error (us c1) (length (us c)) = Some (UGo op)).
  { unfold step in S. rewrite C in S. destruct (dial c); try discriminate S. injection S as <-. cb. rewrite nth_error_app2, Nat.sub_diag by lia. reflexivity. }
  exact (late_calls c1 ls c' _ op A1 R N).
Qed.

(** ** How it ends *)
Lemma listening_calm c : reachable c -> listening c -> Forall (fun h => h = []) (hs c) /\ ini c = false.
Proof.
  intros R [C M St K D]. destruct (Inv_reachable c R C) as (_ & _ & h & _ & _ & _ & _ & _ & T).
  destruct T as [? ? Id ?|? ? ? E ?|? ? ? ?|? ? ? ? ? ? ? Id ? ?|? ? Id]; try congruence;
    try (exfalso; unfold idle in Id; rewrite M in Id; exact Id). auto.
Qed.
Lemma peer_ends c ok : reachable c -> listening c -> exists c', run c [LMon false; LMon ok] = Some c' /\
  ended c' /\ crash c' = None /\ mon c' = MExit /\ us c' = us c /\ dq c' = dq c /\ delivered (log c') = delivered (log c).
Proof.
  intros R L. destruct (listening_calm c R L) as [Hs In]. destruct L as [C M St K D].
  assert (S1 : step c (LMon false) = Some (set_mon MClose c)) by (unfold step, step_mon; rewrite C, M; reflexivity).
  fields (set_mon MClose c). bfields (closing (set_mon MClose c)). cb.
  assert (S2 : step (set_mon MClose c) (LMon ok) = Some (set_mon MExit (broadcast (closing (set_mon MClose c))))).
  { apply stepR_step; [exact C| |cb; congruence]. apply S_mclose; [reflexivity|]. cb. auto. }
  eexists. cbn [run]. rewrite S1, S2. split; [reflexivity|]. split; [|].
  - constructor; cb; auto; try congruence.
    rewrite B5, K5, K. destruct (state c); try reflexivity. congruence.
  - cb. split; [congruence|]. split; [reflexivity|]. split; [congruence|]. split; [congruence|].
    rewrite B20, K20, delivered_app. apply app_nil_r.
Qed.
Lemma user_ends c i ok : reachable c -> listening c -> nth_error (us c) i = Some (UGo OpClose) ->
  exists c', step c (LUser i ok) = Some c' /\
  ended c' /\ crash c' = None /\ nth_error (us c') i = Some (UDone (RClosed (sopen c))) /\ blocked c' = blocked c /\ dq c' = dq c /\
  delivered (log c') = delivered (log c).
Proof.
  intros R L N. destruct (listening_calm c R L) as [Hs In]. destruct L as [C M St K D].
  fields c. exists (ugo i (UDone (RClosed (sopen c))) (closing c)).
  split; [apply stepR_step; auto; [apply S_uclose; auto; unfold unlocked; now rewrite M|cb; congruence]|].
  split; [|cb; split; [congruence|split; [rewrite K15; eapply upd_nth_same; eauto|split; [|split; [congruence|]]]]].
  - constructor; cb; auto; try congruence.
    + rewrite K5, K. destruct (state c); try reflexivity. congruence.
    + rewrite K10. auto.
  - unfold blocked. cb. rewrite K15. pose proof (count_upd blocked_read _ _ _ (UDone (RClosed (sopen c))) N) as X. cbn in X. lia.
  - rewrite K20, delivered_app. apply app_nil_r.
Qed.
(** what had not yet been queued *)
Lemma late_data c i pd : ended c -> crash c = None -> nth_error (ds c) i = Some (DSend pd) ->
  exists c', step c (LData i) = Some c' /\ crash c' = Some PSendClosed.
Proof.
  intros [K So St Di In Hs M] C N. unfold step, step_data. rewrite C, N, K. eexists. split; reflexivity.
Qed.
