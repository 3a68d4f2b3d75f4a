(** Received data that nobody reads. *)
From Verif Require Import GoBase ParamsModel MessagesModel ConfigModel ConnModel ConnSpec ConnBase ConnInv ConnData ConnTrace ConnUser ConnStable ConnPieces WorkSpec ServeSpec ConnServe FullSpec.
From Coq Require Import Arith Lia Permutation.
Open Scope nat_scope.

Lemma some_inj {A} (x y : A) : Some x = Some y -> x = y.
Proof. congruence. Qed.
Lemma dq_step c l c' : step c l = Some c' ->
  dq c' = dq c \/ ((N.of_nat (length (dq c)) < data_cap)%N /\ exists pd, dq c' = dq c ++ [pd]) \/ exists pd, dq c = pd :: dq c'.
Proof.
  intros S. apply step_stepR in S as [C S]. destruct S; try (left; reflexivity).
  - left. now rewrite state_update_eq.
  - left. bfields (set_dial DOk c). cb. congruence.
  - left. bfields (closing c). fields c. cb. congruence.
  - right. left. split; [assumption|]. eexists. reflexivity.
  - left. destruct (hba c); reflexivity.
  - left. fields c. cb. congruence.
  - right. right. exists pd. assumption.
Qed.
Lemma queue_cap c : reachable c -> (N.of_nat (length (dq c)) <= 65535)%N.
Proof.
  intros (m & g & o & ls & R). revert c R. induction ls as [|l ls IH] using rev_ind; intros c R; [injection R as <-; cbn; lia|].
  rewrite run_app in R. destruct (run (start m g o) ls) as [c1|]; [|discriminate]. cbn [run] in R. destruct (step c1 l) as [c2|] eqn:S; [|discriminate]. apply some_inj in R. subst c2.
  specialize (IH c1 eq_refl). destruct (dq_step _ _ _ S) as [E|[[L [pd E]]|[pd E]]]; rewrite E in *; [exact IH| |]; [rewrite app_length|]; cbn [length] in *; unfold data_cap in *; lia.
Qed.
(** without calls nothing is delivered *)
Lemma upd_calls l i x : Forall (fun u => exists r, u = UDone r) l -> nth_error l i = Some x -> exists r, x = UDone r.
Proof. intros F N. exact (Forall_nth _ _ _ _ F N). Qed.
Lemma idle_user c i ok : no_calls c -> step_user c i ok = None.
Proof. intros F. unfold step_user. destruct (nth_error (us c) i) as [x|] eqn:N; [|reflexivity]. destruct (upd_calls _ _ _ F N) as [r ->]. reflexivity. Qed.
Lemma quiet_step c l c' : no_calls c -> (forall op, l <> LCall op) -> step c l = Some c' -> us c' = us c /\ delivered (log c') = delivered (log c).
Proof.
  intros F Nc S. assert (Nu : forall i ok, l <> LUser i ok).
  { intros i ok ->. unfold step in S. rewrite (idle_user c i ok F) in S. destruct (crash c); discriminate. }
  apply step_stepR in S as [C S].
  destruct S; try (destruct (Nc op eq_refl)); try (match type of Nu with forall a b, LUser ?x ?y <> _ => destruct (Nu x y eq_refl) end);
    try (split; [reflexivity|first [reflexivity | cb; rewrite ?delivered_app; cbn [delivered flat_map]; rewrite ?app_nil_r; reflexivity]]).
  - rewrite state_update_eq. split; [reflexivity|]. cb. rewrite delivered_app. cbn [delivered flat_map]. now rewrite app_nil_r.
  - bfields (set_dial DOk c). cb. split; congruence.
  - bfields (closing c). fields c. cb. split; [congruence|]. match goal with H : log (broadcast _) = _ |- _ => rewrite H end. match goal with H : log (closing _) = _ |- _ => rewrite H end.
    rewrite delivered_app. cbn [delivered flat_map]. now rewrite app_nil_r.
  - destruct (hba c); split; reflexivity.
  - split; [reflexivity|]. cb. rewrite delivered_app. destruct H0 as [->|[->|(o & e & _ & ->)]]; cbn [delivered flat_map]; now rewrite app_nil_r.
Qed.
Lemma quiet_run ls : forall c c', no_calls c -> Forall (fun l => forall op, l <> LCall op) ls -> run c ls = Some c' -> no_calls c' /\ delivered (log c') = delivered (log c).
Proof.
  induction ls as [|l ls IH]; intros c c' F Fl R; [injection R as <-; auto|]. cbn [run] in R. destruct (step c l) as [c1|] eqn:S; [|discriminate].
  inversion Fl as [|? ? H Fl']; subst. destruct (quiet_step _ _ _ F H S) as [Eu Ed]. destruct (IH c1 c') as [F' E]; auto; [unfold no_calls; now rewrite Eu|]. split; [exact F'|congruence].
Qed.
Lemma waiting_stuck c : length (waiting (ds c)) = stuck_data c.
Proof.
  unfold waiting, stuck_data. induction (ds c) as [|d l IH]; [reflexivity|]. cbn [flat_map filter]. rewrite app_length, IH. destruct d; reflexivity.
Qed.
Lemma data_traffic raw : carries_data raw -> traffic raw /\ length (payload raw) = 1.
Proof.
  intros (L & t & q & pd & [P V] & K & F & D). split.
  - split; [exact L|]. exists (Typed t). split; [split; assumption|]. unfold traffic_msg. rewrite K. eauto.
  - unfold payload, sig_payload, msg_payload. rewrite P, K, F, D, V. reflexivity.
Qed.
Lemma payloads rs : Forall carries_data rs -> length (flat_map payload rs) = length rs.
Proof. induction 1 as [|raw rs H F IH]; [reflexivity|]. cbn [flat_map]. rewrite app_length, IH. destruct (data_traffic _ H) as [_ ->]. reflexivity. Qed.
(** at rest the unread payloads are in the queue or each in a goroutine of its own *)
Lemma done_stuck c rs c' ls : no_calls c -> Forall (fun l => forall op, l <> LCall op) ls -> run c ls = Some c' -> all_done c rs c' -> Forall carries_data rs ->
  length (dq c') + stuck_data c' = length (dq c) + length rs.
Proof.
  intros N F R [_ _ (new & E & Pm & _)] Fr. destruct (quiet_run _ _ _ N F R) as [_ Ed]. rewrite Ed in E.
  assert (new = []) as -> by (destruct new; [reflexivity|]; apply (f_equal (@length _)) in E; rewrite app_length in E; cbn in E; lia).
  apply Permutation_length in Pm. cbn [app] in Pm. rewrite !app_length, waiting_stuck, payloads in Pm by exact Fr. lia.
Qed.
Lemma arrive_run c rs : crash c = None -> exists c', run c (map LArrive rs) = Some c' /\ crash c' = None.
Proof.
  revert c. induction rs as [|r rs IH]; intros c C; [exists c; auto|]. cbn [map run]. unfold step. rewrite C. apply IH. exact C.
Qed.
Lemma inner_nocall ls : forallb inner ls = true -> Forall (fun l => forall op, l <> LCall op) ls.
Proof. intros F. apply Forall_forall. intros l I op ->. rewrite forallb_forall in F. specialize (F _ I). discriminate. Qed.
Lemma arrivals_map rs : arrivals (map LArrive rs) = rs.
Proof. induction rs as [|r rs IH]; [reflexivity|]. cbn. now f_equal. Qed.
Lemma pile_up c rs : reachable c -> serving c -> no_calls c -> Forall carries_data rs ->
  exists ls c', run c (map LArrive rs ++ ls) = Some c' /\ forallb inner ls = true /\ Forall peaceful ls /\ crash c' = None /\ state c' = Active /\
    reads (log c') = reads (log c) ++ rs /\ length (dq c') + stuck_data c' = length (dq c) + length rs.
Proof.
  intros R V N F. destruct (arrive_run c rs (sv_crash _ V)) as (c1 & R1 & C1).
  assert (P1 : Forall peaceful (map LArrive rs)).
  { apply Forall_forall. intros l I. apply in_map_iff in I as (raw & <- & I). rewrite Forall_forall in F. apply (data_traffic raw (F _ I)). }
  destruct (gets_served c _ c1 R V R1 P1 C1) as (ls & c2 & R2 & Fi & P2 & C2 & Ad). rewrite arrivals_map in Ad.
  assert (R3 : run c (map LArrive rs ++ ls) = Some c2) by (rewrite run_app, R1; exact R2).
  exists ls, c2. split; [exact R3|]. split; [exact Fi|]. split; [exact P2|]. split; [exact C2|].
  split; [apply (stays_up c _ c2 R V R3); [apply Forall_app; auto|exact C2]|]. split; [exact (ad_read _ _ _ Ad)|].
  apply (done_stuck c rs c2 (map LArrive rs ++ ls)); auto. apply Forall_app. split; [|now apply inner_nocall]. apply Forall_forall. intros l I op ->. apply in_map_iff in I as (? & E & _). discriminate.
Qed.

(** ** Close *)
(** the waiting goroutine panics, and can do nothing else *)
Lemma send_closed c i pd : crash c = None -> closed c = true -> nth_error (ds c) i = Some (DSend pd) -> exists c', step c (LData i) = Some c' /\ crash c' = Some PSendClosed.
Proof. intros C K N. unfold step. rewrite C. unfold step_data. rewrite N, K. eexists. split; reflexivity. Qed.
Definition doomed (c : conn) (i : nat) (pd : pdpayload) : Prop := closed c = true /\ ctxd c = false /\ nth_error (ds c) i = Some (DSend pd).
Lemma doomed_step c l c' i pd : doomed c i pd -> l <> LCancel -> step c l = Some c' -> crash c' = None -> doomed c' i pd.
Proof.
  intros (K & X & N) Nl S C'. apply step_stepR in S as [C S].
  assert (Up : forall j d x, nth_error (ds c) j = Some d -> d <> DSend pd -> nth_error (upd (ds c) j x) i = Some (DSend pd)).
  { intros j d x Nj Hd. rewrite upd_nth_other; [exact N|]. intros ->. congruence. }
  unfold doomed. destruct S; try congruence; try (cb; auto; fail); try (cb; split; [exact K|]; split; [exact X|]; eapply Up; eauto; congruence).
  - rewrite state_update_eq. cb. auto.
  - bfields (closing c). fields c. cb. rewrite K, Bool.orb_true_r in *. repeat split; congruence.
  - cb. rewrite nth_error_app1 by (apply nth_error_Some; congruence). auto.
  - destruct (hba c); cb; auto.
  - fields c. cb. rewrite K, Bool.orb_true_r in *. repeat split; congruence.
Qed.
Lemma doomed_run ls : forall c c' i pd, doomed c i pd -> ~ In LCancel ls -> run c ls = Some c' -> crash c' = None -> doomed c' i pd.
Proof.
  induction ls as [|l ls IH]; intros c c' i pd D Ni R C'; [injection R as <-; exact D|]. cbn [run] in R. destruct (step c l) as [c1|] eqn:S; [|discriminate].
  assert (C1 : crash c1 = None).
  { destruct (crash c1) eqn:E; [|reflexivity]. destruct ls as [|l2 ls]; [injection R as <-; congruence|]. cbn [run] in R. unfold step in R. rewrite E in R. discriminate. }
  eapply IH; [eapply doomed_step; eauto|..]; eauto; intros H; apply Ni; cbn; auto.
Qed.
Lemma close_dooms c i pd : crash c = None -> dial c = DOk -> unlocked c = true -> state c = Active -> closed c = false -> ctxd c = false -> nth_error (ds c) i = Some (DSend pd) ->
  exists c1, run c [LCall OpClose; LUser (length (us c)) true] = Some c1 /\ crash c1 = None /\ doomed c1 i pd.
Proof.
  intros C D U A K X N.
  assert (Ec : Close (set_us (us c ++ [UGo OpClose]) c) = set_sopen false (set_state Down (set_closed true (emit EClosed (set_us (us c ++ [UGo OpClose]) c))))).
  { unfold Close. cb. now rewrite A, K. }
  eexists. split; [|split].
  - cbn [run]. unfold step at 1. rewrite C, D. unfold step. cb. rewrite C. unfold step_user. cb. rewrite nth_error_app2, Nat.sub_diag by lia. cbn [nth_error].
    unfold unlocked in *. cb. rewrite U, Ec. cb. rewrite C. reflexivity.
  - cb. exact C.
  - repeat split; cb; assumption.
Qed.
