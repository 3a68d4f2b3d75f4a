From Verif Require Import GoBase BaseProofs ParamsModel MessagesModel ConfigModel ConnModel ConnSpec ConnBase ConnInv ConnUser ConnStable ProcProofs WorkSpec HangSpec.
From Coq Require Import Arith Lia.
Open Scope nat_scope.

Lemma ow_now i n c : returned c i \/ awaits c i \/ crash c <> None -> over_within i n c.
Proof. destruct n; left; assumption. Qed.
Lemma ow_step i n c l : (l = LUser i \/ l = LMon) -> (forall ok, exists c', step c (l ok) = Some c' /\ over_within i n c') -> over_within i (S n) c.
Proof. intros A B. right. exists l. auto. Qed.
Lemma ow_more i n : forall k c, over_within i n c -> n <= k -> over_within i k c.
Proof.
  induction n as [|n IH]; intros k c [H|H] L; try (now apply ow_now). destruct H as (l & Hl & H).
  destruct k as [|k]; [lia|]. apply (ow_step i k c l Hl). intros ok. destruct (H ok) as (c' & S & G). exists c'. split; [exact S|]. apply IH; [exact G|lia].
Qed.
(** one step of the call, everything else staying *)
Lemma user_step c i ok u : crash c = None -> nth_error (us c) i = Some u -> step c (LUser i ok) = step_user c i ok.
Proof. intros C _. unfold step. now rewrite C. Qed.
Lemma goto_done c i u r n : nth_error (us c) i = Some u -> over_within i n (set_us (upd (us c) i (UDone r)) c).
Proof. intros N. apply ow_now. left. exists r. change (nth_error (upd (us c) i (UDone r)) i = Some (UDone r)). apply nth_upd_same. apply nth_error_Some. congruence. Qed.
Lemma panics i n p c : over_within i n (panicking p c).
Proof. apply ow_now. right. right. discriminate. Qed.

Lemma recv_over c i b : crash c = None -> nth_error (us c) i = Some (URecv b) -> over_within i 1 c.
Proof.
  intros C N. destruct (dq c) as [|pd r] eqn:D.
  - destruct (closed c) eqn:K; [|apply ow_now; right; left; split; eauto].
    apply (ow_step i 0 c (LUser i)); [auto|]. intros ok. rewrite (user_step c i ok _ C N). unfold step_user. rewrite N, D, K. eexists. split; [reflexivity|]. exact (goto_done c i _ _ 0 N).
  - apply (ow_step i 0 c (LUser i)); [auto|]. intros ok. rewrite (user_step c i ok _ C N). unfold step_user. rewrite N, D. eexists. split; [reflexivity|].
    apply ow_now. left. eexists. apply nth_upd_same. apply (proj1 (nth_error_Some (us c) i)). congruence.
Qed.
Lemma send_over c i s m : crash c = None -> nth_error (us c) i = Some (USend s m) -> over_within i 1 c.
Proof.
  intros C N. apply (ow_step i 0 c (LUser i)); [auto|]. intros ok. rewrite (user_step c i ok _ C N). unfold step_user. rewrite N.
  assert (L : i < length (us c)) by (apply nth_error_Some; congruence).
  destruct (m3_MarshalBinary m) as [[n b]|e|p].
  - destruct (can_write c ok); (eexists; split; [reflexivity|]); apply ow_now; left; eexists; now apply nth_upd_same.
  - eexists; split; [reflexivity|]. exact (goto_done c i _ _ 0 N).
  - eexists; split; [reflexivity|]. apply panics.
Qed.
Definition needs_lock (op : uop) : bool := match op with OpWrite _ _ | OpWritePD _ _ | OpWriteSignal _ => false | _ => true end.
Lemma close_over c i : crash c = None -> unlocked c = true -> nth_error (us c) i = Some (UGo OpClose) -> over_within i 1 c.
Proof.
  intros C U N. assert (L : i < length (us c)) by (apply nth_error_Some; congruence).
  apply (ow_step i 0 c (LUser i)); [auto|]. intros ok. rewrite (user_step c i ok _ C N). unfold step_user. rewrite N, U.
  destruct (crash (Close c)) as [p|] eqn:K; (eexists; split; [reflexivity|]).
  + apply ow_now. right. right. rewrite K. discriminate.
  + apply ow_now. left. unfold returned. cbn [us set_us]. eexists.
    apply nth_upd_same. replace (us (Close c)) with (us c); [exact L|]. unfold Close. change (state (emit EClosed c)) with (state c). change (closed (emit EClosed c)) with (closed c).
    destruct (st_eqb (state c) Down); [reflexivity|]. destruct (closed c); reflexivity.
Qed.
(** with the lock free *)
Lemma go_over c i op : crash c = None -> unlocked c = true -> nth_error (us c) i = Some (UGo op) -> needs_lock op = true -> over_within i 2 c /\ (state c <> Active -> over_within i 1 c).
Proof.
  intros C U N F. assert (L : i < length (us c)) by (apply nth_error_Some; congruence).
  assert (At : forall x, nth_error (us (set_us (upd (us c) i x) c)) i = Some x) by (intros x; now apply nth_upd_same).
  split.
  2:{ intros Na. apply st_eqb_neq in Na. destruct op; try discriminate F.
      1,2,3,4: apply (ow_step i 0 c (LUser i)); [auto|]; intros ok; rewrite (user_step c i ok _ C N); unfold step_user; rewrite N, U, Na; (eexists; split; [reflexivity|]); exact (goto_done c i _ _ 0 N).
      - apply (close_over c i C U N).
      - apply (ow_step i 0 c (LUser i)); [auto|]. intros ok. rewrite (user_step c i ok _ C N). unfold step_user. rewrite N, U. eexists. split; [reflexivity|]. exact (goto_done c i _ _ 0 N). }
  destruct op; try discriminate F.
  1,2: apply (ow_step i 1 c (LUser i)); [auto|]; intros ok; rewrite (user_step c i ok _ C N); unfold step_user; rewrite N, U; (eexists; split; [reflexivity|]);
    destruct (st_eqb (state c) Active); [eapply recv_over; [exact C|apply At]|exact (goto_done c i _ _ 1 N)].
  1,2: apply (ow_step i 1 c (LUser i)); [auto|]; intros ok; rewrite (user_step c i ok _ C N); unfold step_user; rewrite N, U; (eexists; split; [reflexivity|]);
    destruct (st_eqb (state c) Active); [eapply send_over; [exact C|apply At]|exact (goto_done c i _ _ 1 N)].
  - eapply ow_more; [exact (close_over c i C U N)|lia].
  - eapply ow_more; [|exact (le_S 1 1 (le_n 1))]. apply (ow_step i 0 c (LUser i)); [auto|]. intros ok. rewrite (user_step c i ok _ C N). unfold step_user. rewrite N, U. eexists. split; [reflexivity|]. exact (goto_done c i _ _ 0 N).
Qed.
(** the monitor has the lock and is about to send: the connection is not Active *)
Lemma init_idle c m : reachable c -> mon c = MInit m -> state c <> Active.
Proof.
  intros (mo & g & o & ls & R). revert m. revert ls c R.
  refine (run_along (start mo g o) (fun c => forall m, mon c = MInit m -> state c <> Active) _ _); [intros m X; discriminate X|].
  intros _ c l c' _ I S m M. apply step_stepR in S as [C S].
  destruct S; cb; try (exact (I m M)); try discriminate M; try congruence.
  all: try (rewrite state_update_eq in *; cb; unfold upd_mon in M; destruct s; try discriminate M; try discriminate; destruct (st_eqb (state c) Active); discriminate M).
  - destruct (hba c); exact (I m M).
  - destruct (closing_fields c) as (_ & _ & _ & E & _). rewrite E. discriminate.
Qed.
(** when the monitor has the lock it gives it back in one step, unless it is jammed *)
Definition idle_init (c : conn) : Prop := forall m, mon c = MInit m -> state c <> Active.
Lemma lock_back c : idle_init c -> crash c = None -> unlocked c = false -> dial c = DOk ->
  jammed c \/ forall ok, exists c', step c (LMon ok) = Some c' /\ us c' = us c /\ (crash c' <> None \/ crash c' = None /\ unlocked c' = true /\ state c' <> Active).
Proof.
  intros I C U D. unfold unlocked in U. destruct (mon c) as [|o e|s|m| | | |] eqn:M; try discriminate U.
  - right. intros ok. assert (Na := I m M). unfold step, step_mon. rewrite C, M. unfold WriteSignal. destruct (wire m) as [b|e|p].
    + destruct (can_write c ok); (eexists; split; [reflexivity|]); (split; [reflexivity|]); right; repeat split; auto.
    + eexists; split; [reflexivity|]; (split; [reflexivity|]); right; repeat split; auto.
    + eexists; split; [reflexivity|]; (split; [reflexivity|]); left; discriminate.
  - destruct (closed c) eqn:K; [|left; repeat split; auto].
    right. intros ok. unfold step, step_mon. rewrite C, M, K. eexists; split; [reflexivity|]; (split; [reflexivity|]); left; discriminate.
Qed.
Lemma locked_over c i op : idle_init c -> crash c = None -> dial c = DOk -> nth_error (us c) i = Some (UGo op) -> needs_lock op = true -> ~ jammed c -> over_within i 2 c.
Proof.
  intros I C D N F J. destruct (unlocked c) eqn:U.
  - apply (go_over c i op C U N F).
  - destruct (lock_back c I C U D) as [X|H]; [contradiction|].
    apply (ow_step i _ c LMon); [auto|]. intros ok. destruct (H ok) as (c' & S & Eu & [K|(K & U' & Na)]); exists c'; (split; [exact S|]).
    + apply ow_now. auto.
    + apply (go_over c' i op K U'); auto. congruence.
Qed.
Lemma call_over c i op : idle_init c -> crash c = None -> dial c = DOk -> nth_error (us c) i = Some (UGo op) -> drawn c (UGo op) -> (exists m, op = OpWriteSignal m) \/ ~ jammed c -> over_within i (needed op) c.
Proof.
  intros I C D N W J. assert (L : i < length (us c)) by (apply nth_error_Some; congruence).
  destruct (needs_lock op) eqn:F.
  - destruct J as [[m ->]|J]; [discriminate|]. replace (needed op) with 2 by (destruct op; reflexivity || discriminate F). now apply (locked_over c i op).
  - assert (Draw : forall r, (1 < maxs c -> r < maxs c)%N -> (exists p, choose_stream (maxs c) r = Panic p) \/ exists s, choose_stream (maxs c) r = Ok (Some s)).
    { intros r H. unfold choose_stream. destruct (maxs c =? 1)%N eqn:E1; [right; eauto|]. destruct (maxs c =? 0)%N eqn:E0; [left; eauto|].
      apply N.eqb_neq in E1, E0. right. assert (G : (r <? maxs c)%N = true) by (apply N.ltb_lt; apply H; lia). rewrite G. eauto. }
    destruct op; try discriminate F; cbn [drawn] in W.
    + assert (Jn : ~ jammed c) by (destruct J as [[m X]|J]; [discriminate|exact J]). apply (ow_step i 2 c (LUser i)); [auto|]. intros ok. rewrite (user_step c i ok _ C N). unfold step_user. rewrite N.
      destruct (Draw _ W) as [[p E]|[s E]]; rewrite E; (eexists; split; [reflexivity|]); [apply panics|].
      apply (locked_over _ i (OpWriteTo b s)); auto. change (nth_error (upd (us c) i (UGo (OpWriteTo b s))) i = Some (UGo (OpWriteTo b s))). now apply nth_upd_same.
    + assert (Jn : ~ jammed c) by (destruct J as [[m X]|J]; [discriminate|exact J]). apply (ow_step i 2 c (LUser i)); [auto|]. intros ok. rewrite (user_step c i ok _ C N). unfold step_user. rewrite N.
      destruct (Draw _ W) as [[p E]|[s E]]; rewrite E; (eexists; split; [reflexivity|]); [apply panics|].
      apply (locked_over _ i (OpWritePDTo pd s)); auto. change (nth_error (upd (us c) i (UGo (OpWritePDTo pd s))) i = Some (UGo (OpWritePDTo pd s))). now apply nth_upd_same.
    + cbn [needed]. apply (ow_step i 0 c (LUser i)); [auto|]. intros ok. rewrite (user_step c i ok _ C N). unfold step_user. rewrite N. unfold WriteSignal. destruct (wire m) as [b|e|p].
      * destruct (can_write c ok); (eexists; split; [reflexivity|]); apply ow_now; left; eexists; now apply nth_upd_same.
      * eexists; split; [reflexivity|]. exact (goto_done c i _ _ 0 N).
      * eexists; split; [reflexivity|]. apply panics.
Qed.

Definition left_of (u : upc) : nat := match u with UGo op => needed op | UDone _ => 0 | _ => 1 end.
Lemma calls_over c i u : reachable c -> crash c = None -> nth_error (us c) i = Some u -> drawn c u -> over_within i (left_of u) c \/ exists op, u = UGo op /\ jammed c /\ forall m, op <> OpWriteSignal m.
Proof.
  intros R C N W. assert (Ii : idle_init c) by (intros m M; exact (init_idle c m R M)). assert (D : dial c = DOk) by (apply users_dial; auto; intros X; rewrite X in N; destruct i; discriminate N).
  destruct u as [op|b|s m|r].
  - assert (Sg : (exists m, op = OpWriteSignal m) \/ forall m, op <> OpWriteSignal m) by (destruct op; try (right; intros; discriminate); left; eauto).
    assert (Jd : jammed c \/ ~ jammed c).
    { unfold jammed. destruct (mon c); try (right; intros (X & _); discriminate). destruct (closed c); [right; intros (_ & _ & X); discriminate|auto]. }
    destruct Sg as [G|G]; [left; apply call_over; auto|]. destruct Jd as [J|J]; [right; eauto|left; apply call_over; auto].
  - left. now apply (recv_over c i b).
  - left. now apply (send_over c i s m).
  - left. apply ow_now. left. exists r. exact N.
Qed.
Lemma rest_over c i n : at_rest c -> over_within i n c -> returned c i \/ awaits c i \/ crash c <> None.
Proof.
  intros A H. destruct n as [|n]; destruct H as [H|H]; auto; try contradiction. destruct H as (l & [->| ->] & H); destruct (H true) as (c' & S & _).
  - rewrite (A (LUser i true) eq_refl eq_refl) in S. discriminate.
  - rewrite (A (LMon true) eq_refl eq_refl) in S. discriminate.
Qed.
Lemma rest_calls c i u : reachable c -> crash c = None -> at_rest c -> nth_error (us c) i = Some u -> drawn c u ->
  returned c i \/ awaits c i \/ exists op, u = UGo op /\ jammed c /\ forall m, op <> OpWriteSignal m.
Proof.
  intros R C A N W. destruct (calls_over c i u R C N W) as [H|H]; [|auto]. destruct (rest_over c i _ A H) as [X|[X|X]]; auto. contradiction.
Qed.

(** what ends the wait of a Read *)
Lemma closed_step c l c' : step c l = Some c' -> closed c = true -> closed c' = true.
Proof.
  intros S K. apply step_stepR in S as [C S]. destruct S; auto.
  - rewrite state_update_eq. auto.
  - destruct (broadcast_fields (set_dial DOk c)) as (_ & _ & _ & _ & E & _). cb. congruence.
  - destruct (broadcast_fields (closing c)) as (_ & _ & _ & _ & E & _). cb. rewrite E. unfold closing. rewrite ?K. destruct (st_eqb (state c) Down); cb; auto.
  - destruct (hba c); auto.
  - unfold closing. cb. destruct (st_eqb (state c) Down); cb; auto.
Qed.
Definition woken (b : option (list byte)) (c : conn) (u : upc) : Prop :=
  u = URecv b \/ (exists pd, u = UDone (read_result b pd) /\ In (EDeliver pd) (log c)) \/ (u = UDone RNotEstablished /\ closed c = true).
Lemma recv_step c i ok b c' : nth_error (us c) i = Some (URecv b) -> step c (LUser i ok) = Some c' -> exists u, nth_error (us c') i = Some u /\ woken b c' u.
Proof.
  intros N S. assert (C : crash c = None) by (unfold step in S; destruct (crash c); [discriminate|reflexivity]). unfold step, step_user in S. rewrite C, N in S.
  assert (L : i < length (us c)) by (apply nth_error_Some; congruence).
  destruct (dq c) as [|pd r]; [destruct (closed c) eqn:K; [|discriminate]|]; injection S as <-; (eexists; split; [apply nth_upd_same; exact L|]).
  - right. right. auto.
  - right. left. exists pd. split; [reflexivity|]. cbn [log set_us emit set_log set_dq]. apply in_or_app. right. left. reflexivity.
Qed.
Lemma wait_ends c ls c' i b : run c ls = Some c' -> nth_error (us c) i = Some (URecv b) -> exists u, nth_error (us c') i = Some u /\ woken b c' u.
Proof.
  intros R N. revert ls c' R. refine (run_along c (fun c' => exists u, nth_error (us c') i = Some u /\ woken b c' u) _ _).
  - exists (URecv b). split; [exact N|left; reflexivity].
  - intros _ a l d _ (u & Na & W) S. destruct (user_frame _ _ _ _ _ S Na) as [[ok ->]|[E _]].
    + destruct W as [->|[(pd & -> & _)|(-> & _)]]; [exact (recv_step a i ok b d Na S)| |];
        exfalso; assert (C : crash a = None) by (unfold step in S; destruct (crash a); [discriminate|reflexivity]); unfold step, step_user in S; rewrite C, Na in S; discriminate.
    + exists u. split; [exact E|]. destruct W as [->|[(pd & -> & I)|(-> & K)]]; [left; reflexivity| |].
      * right. left. exists pd. split; [reflexivity|]. destruct (log_grows _ _ _ S) as [es ->]. apply in_or_app. auto.
      * right. right. split; [reflexivity|]. exact (closed_step _ _ _ S K).
Qed.
