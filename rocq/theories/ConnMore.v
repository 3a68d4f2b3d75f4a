(** Further consequences of the main invariant. *)
From Verif Require Import GoBase BaseProofs ParamsModel MessagesModel MessagesProofs MessagesProofs2 ConfigModel
  ConnModel ConnSpec ConnBase ConnInv ConnTrace ConnUser CfgSpec ConnCodec ConnMacro.
From Coq Require Import Arith Lia.
Open Scope nat_scope.

(** every message has a reaction in every state a connection can be in *)
Lemma reacts_total g s m : ranged s -> exists rc, reacts g s m rc.
Proof.
  intros R. destruct (supported m) eqn:S; [|eexists; now constructor].
  destruct m as [t|x]; [|discriminate].
  destruct (In_dec st_dec s (silent_table t)) as [I|I]; [eexists; now apply RC_silent|].
  destruct (reply_table g t) as [[l r]|] eqn:T.
  - destruct (In_dec st_dec s l) as [J|J]; [eexists; eapply RC_reply; eauto|].
    eexists. apply RC_unexpected; auto. intros l' r' E. rewrite T in E. inversion E; subst. auto.
  - eexists. apply RC_unexpected; auto. intros l' r' E. congruence.
Qed.

(** ** At most one packet goroutine is running *)
Lemma one_packet c : reachable c -> crash c = None ->
  (forall i j x k y k', nth_error (hs c) i = Some (x :: k) -> nth_error (hs c) j = Some (y :: k') -> i = j /\ S i = length (hs c)) /\
  (forall i x k, nth_error (hs c) i = Some (x :: k) -> forall s m, mon c <> MRead /\ mon c <> MEst /\ mon c <> MUpd s /\ mon c <> MInit m).
Proof.
  intros R C. destruct (Inv_reachable c R C) as (_ & _ & h & _ & _ & Hn & _ & _ & T).
  assert (Dd : forall i x k l, dead l -> nth_error l i = Some (x :: k) -> False).
  { intros i x k l D N. apply (Forall_nth _ _ _ _ D) in N. discriminate. }
  assert (Lst : forall i x k pre l, dead pre -> nth_error (pre ++ [l]) i = Some (x :: k) -> S i = length (pre ++ [l])).
  { intros i x k pre l D N. rewrite app_length. cbn. destruct (lt_eq_lt_dec i (length pre)) as [[L|L]|L].
    - rewrite nth_error_app1 in N by lia. exfalso. eapply Dd; eauto.
    - lia.
    - assert (nth_error (pre ++ [l]) i <> None) as K by congruence. apply nth_error_Some in K. rewrite app_length in K. cbn in K. lia. }
  destruct T as [? D ?|s ? D ?|? D ?|pre l raw ? E D ? Id ? ?|? D ?];
    try solve [split; intros; exfalso; eapply Dd; eauto].
  split.
  - intros i j x k y k' Ni Nj. rewrite E in *. apply Lst in Ni; auto. apply Lst in Nj; auto. lia.
  - intros i x k _ s m. unfold idle in Id. repeat split; intros Y; rewrite Y in Id; exact Id.
Qed.

(** ** Every error that the monitor handled is answered, or the connection is going down *)
Definition answered_at (c : conn) (e : cerr) (l2 : list event) : Prop :=
  (exists r b l3, l2 = ESend OMon 0 r b :: l3 /\ answers (cfg c) e r /\ encodes r b) \/
  (ending c /\ reads l2 = [] /\ updates l2 = []).
Lemma app_split {A} (l es l1 l2 : list A) x : l ++ es = l1 ++ x :: l2 ->
  (exists l2', l = l1 ++ x :: l2' /\ l2 = l2' ++ es) \/ (exists e1, es = e1 ++ x :: l2).
Proof.
  revert l1. induction l as [|y r IH]; intros l1 H; cbn [app] in H.
  - right. now exists l1.
  - destruct l1 as [|z l1]; cbn [app] in H; inversion H; subst.
    + left. now exists r.
    + destruct (IH _ H2) as [(l2' & -> & ->)|(e1 & ->)]; [left; exists l2'; auto|right; eauto].
Qed.
Lemma step_events c l c' : reachable c -> crash c = None -> stepR c l c' -> reachable c' -> exists es, log c' = log c ++ es /\
  (ending c -> ending c' /\ reads es = [] /\ updates es = []) /\
  (forall o e e1 e2, es = e1 ++ ERefused o e :: e2 -> answered_at c' e e2).
Proof.
  intros R C S R'.
  assert (No : forall c' e0, (forall o e, e0 <> ERefused o e) -> forall o e e1 e2, [e0] = e1 ++ ERefused o e :: e2 -> answered_at c' e e2).
  { intros c1 e0 Ne o e e1 e2 E. destruct e1 as [|? [|]]; inversion E; subst. exfalso. eapply Ne; eauto. }
  assert (No0 : forall c' o e e1 e2, [] = e1 ++ ERefused o e :: e2 -> answered_at c' e e2).
  { intros ? ? ? [|] ? E; discriminate. }
  assert (En : forall c', ending c -> mon c' = mon c -> ending c').
  { intros c1 [M|[M|M]] E; unfold ending; rewrite E; auto; congruence. }
  destruct S; try (cb; first
    [ exists []; rewrite app_nil_r; split; [reflexivity|]; split; [|apply No0]
    | eexists; split; [reflexivity|]; split; [|apply No; intros ? ?; discriminate] ];
    (intros Ed; (split; [ first [apply (En _ Ed); reflexivity | exfalso; destruct Ed as [M|[M|M]]; congruence ] | split; first [reflexivity|exfalso; destruct Ed as [M|[M|M]]; congruence] ])); fail).
  - (* err send *)
    exists [ERefused o e; ESend OMon 0 m b]. cb. rewrite <- app_assoc. split; [reflexivity|]. split.
    + intros [M|[M|M]]; congruence.
    + intros o' e' e1 e2 E. destruct e1 as [|? [|? [|]]]; inversion E; subst. left. exists m, b, []. split; [reflexivity|].
      split; [|now apply wire_encodes]. cb.
      destruct (refused_kinds _ o' e' R') as (K1 & K2 & K3).
      { cb. rewrite <- app_assoc. apply in_or_app. right. cbn. auto. }
      now apply error_reply_answers.
  - (* err close *)
    exists [ERefused o e]. cb. split; [reflexivity|]. split.
    + intros [M|[M|M]]; congruence.
    + intros o' e' e1 e2 E. destruct e1 as [|? [|]]; inversion E; subst. right. unfold ending. cb. auto.
  - rewrite state_update_eq. cb. eexists; split; [reflexivity|]; split; [|apply No; intros ? ?; discriminate].
    intros Ed; exfalso; destruct Ed as [M|[M|M]]; congruence.
  - destruct (broadcast_fields (set_dial DOk c)) as (_ & _ & _ & _ & _ & _ & _ & _ & _ & B10 & _ & _ & _ & _ & _ & _ & _ & _ & _ & B20).
    cb. rewrite B20. exists []. rewrite app_nil_r. split; [reflexivity|]. split; [|apply No0].
    intros Ed; exfalso; destruct Ed as [M|[M|M]]; congruence.
  - destruct (broadcast_fields (closing c)) as (_ & _ & _ & _ & _ & _ & _ & _ & _ & B10 & _ & _ & _ & _ & _ & _ & _ & _ & _ & B20).
    destruct (closing_fields c) as (_ & _ & _ & _ & _ & _ & _ & _ & _ & _ & _ & _ & _ & _ & _ & _ & _ & _ & _ & K20).
    cb. rewrite B20, K20. exists [EClosed]. split; [reflexivity|]. split; [|apply No; intros; discriminate].
    intros _. split; [unfold ending; cb; auto|]. split; reflexivity.
  - destruct (hba c); cb; exists []; rewrite app_nil_r; (split; [reflexivity|]; split; [|apply No0]);
    intros Ed; split; auto; apply (En _ Ed); reflexivity.
  - destruct (closing_fields c) as (_ & _ & _ & _ & _ & _ & _ & _ & _ & K10 & _ & _ & _ & _ & _ & _ & _ & _ & _ & K20).
    exists [EClosed]. cb. rewrite K20. split; [reflexivity|]. split; [|apply No; intros; discriminate].
    intros Ed. split; [apply (En _ Ed); cb; auto|]. split; reflexivity.
  - cb. exists es. split; [reflexivity|]. split.
    + intros Ed. split; [unfold ending; cb; right; right; discriminate|]. destruct H0 as [->|[->|(o & e & _ & ->)]]; split; reflexivity.
    + intros o e e1 e2 E. right. unfold ending. cb. split; [right; right; discriminate|].
      destruct H0 as [->|[->|(o' & e' & _ & ->)]]; destruct e1 as [|? [|]]; inversion E; subst; split; reflexivity.
Qed.
Lemma reads_app' a b : reads (a ++ b) = reads a ++ reads b. Proof. apply reads_app. Qed.
Lemma refused_answered c : reachable c -> forall l1 o e l2, log c = l1 ++ ERefused o e :: l2 -> answered_at c e l2.
Proof.
  intros (m & g & o0 & ls & H). revert c H.
  apply (run_along (start m g o0) (fun c => forall l1 o e l2, log c = l1 ++ ERefused o e :: l2 -> answered_at c e l2)).
  - intros [|] ? ? ? E; discriminate.
  - intros ls0 c l c' Ru IH S l1 o e l2 E.
    assert (R : reachable c) by (exists m, g, o0, ls0; exact Ru).
    assert (R' : reachable c') by (eapply reachable_run; [exact R|apply run_one; exact S]).
    pose proof (static_step _ _ _ S) as (_ & Cf & _).
    destruct (step_stepR _ _ _ S) as [C SR].
    destruct (step_events _ _ _ R C SR R') as (es & L & En & Nw). rewrite L in E.
    apply app_split in E. destruct E as [(l2' & E & ->)|(e1 & E)]; [|eauto].
    destruct (IH _ _ _ _ E) as [(r & b & l3 & -> & A & B)|(Ed & A & B)].
    + left. exists r, b, (l3 ++ es). rewrite Cf. auto.
    + right. destruct (En Ed) as (En1 & En2 & En3). split; [exact En1|]. rewrite reads_app, updates_app, A, B, En2, En3. auto.
Qed.

(** ** User calls *)
Lemma write_stream c i op m ls c' s b : reachable c -> nth_error (us c) i = Some (UGo op) -> carries (cfg c) op m ->
  (exists x rnd, op = OpWrite x rnd) \/ (exists pd rnd, op = OpWritePD pd rnd) ->
  run c ls = Some c' -> (exists r, nth_error (us c') i = Some (UDone r)) ->
  usends i (log c') = usends i (log c) ++ [(s, m, b)] -> (1 <= s <= maxs c)%N.
Proof.
  intros R N Ca Op Ru [r D] U.
  destruct (write_outcome c i op m ls c' r R N Ca Ru D) as [(_ & E & _)|[(_ & E & _)|(s' & b' & _ & _ & St & E & _)]].
  - rewrite E in U. apply (f_equal (@length _)) in U. rewrite app_length in U. cbn in U. lia.
  - rewrite E in U. apply (f_equal (@length _)) in U. rewrite app_length in U. cbn in U. lia.
  - rewrite E in U. apply app_inv_head in U. inversion U; subst. destruct Op as [(x & rnd & ->)|(x & rnd & ->)]; exact St.
Qed.
Lemma streams_of_start m g o ls c : run (start m g o) ls = Some c -> (1 <= o <= 65535)%N -> maxs c = (o - 1)%N.
Proof.
  intros H O. destruct (static_run _ _ _ H) as (_ & _ & ->). cbn [start maxs]. unfold u16.
  replace (o + 65535)%N with ((o - 1) + 1 * 65536)%N by lia. rewrite N.mod_add by lia. apply N.mod_small. lia.
Qed.
Lemma stream_draw max s : (1 <= s <= max)%N -> (max < 65536)%N -> exists rnd, choose_stream max rnd = Ok (Some s).
Proof.
  intros H M. unfold choose_stream. destruct (max =? 1)%N eqn:E1.
  - apply N.eqb_eq in E1. exists 0%N. do 2 f_equal. lia.
  - apply N.eqb_neq in E1. destruct (max =? 0)%N eqn:E0; [apply N.eqb_eq in E0; lia|].
    exists (s - 1)%N. replace (s - 1 <? max)%N with true by (symmetry; apply N.ltb_lt; lia).
    unfold u16. rewrite (N.mod_small (s - 1)) by lia. do 2 f_equal. rewrite N.mod_small; lia.
Qed.
(** no call ever returns the number of octets it was given *)
Lemma write_count g op m b : carries g op m -> encodes m b ->
  match op with
  | OpWrite x _ | OpWriteTo x _ => length x < length b
  | OpWritePD (Some p) _ | OpWritePDTo (Some p) _ => length (p_data p) < length b
  | _ => True
  end.
Proof.
  intros C E. destruct C; try (destruct pd as [p|]; [|exact I]; pose proof (NewData_len _ _ _ _ _ E) as L; cbn [slot_size] in L; lia);
    pose proof (user_data_len g _ _ E) as L; unfold data_overhead in L; lia.
Qed.

Lemma nth_error_eq {A} (a b : list A) : (forall j, nth_error a j = nth_error b j) -> a = b.
Proof.
  revert b; induction a as [|x r IH]; intros [|y t] H; auto.
  - specialize (H 0). discriminate.
  - specialize (H 0). discriminate.
  - pose proof (H 0) as H0. cbn in H0. inversion H0; subst. f_equal. apply IH. intros j. apply (H (S j)).
Qed.
Lemma firstn_nth {A} n (l : list A) j : nth_error (firstn n l) j = if j <? n then nth_error l j else None.
Proof.
  revert l j; induction n as [|n IH]; intros l j.
  - cbn. now destruct j.
  - destruct l as [|x r]; [rewrite firstn_nil; assert (nth_error (@nil A) j = None) as -> by (now destruct j); match goal with |- context [if ?x then _ else _] => now destruct x end|]. destruct j as [|j]; [reflexivity|]. cbn [firstn nth_error]. rewrite IH. reflexivity.
Qed.
Lemma read_short buf p r : read_as (Some buf) p r -> length buf < length (pd_data p) ->
  r = RRead (length (pd_data p)) (firstn (length buf) (pd_data p)).
Proof.
  intros (b' & -> & L & H) Ln. f_equal. apply nth_error_eq. intros j. rewrite H, firstn_nth.
  destruct (Nat.ltb_spec j (length buf)); [|reflexivity]. destruct (Nat.ltb_spec j (length (pd_data p))); [reflexivity|lia].
Qed.
Lemma read_fits buf p r : read_as (Some buf) p r -> length (pd_data p) <= length buf ->
  r = RRead (length (pd_data p)) (pd_data p ++ skipn (length (pd_data p)) buf).
Proof.
  intros (b' & -> & L & H) Ln. f_equal. apply nth_error_eq. intros j. rewrite H.
  destruct (Nat.ltb_spec j (length (pd_data p))) as [J|J].
  - rewrite nth_error_app1 by lia. destruct (Nat.ltb_spec j (length buf)); [reflexivity|lia].
  - rewrite nth_error_app2 by lia. rewrite <- (firstn_skipn (length (pd_data p)) buf) at 2.
    rewrite nth_error_app2; rewrite firstn_length_le by lia; [|lia].
    destruct (Nat.ltb_spec j (length buf)); [reflexivity|]. symmetry. apply nth_error_None. rewrite skipn_length. lia.
Qed.
(** a waiting Read takes the oldest queued payload *)
Lemma read_next c i ok buf p q : crash c = None -> nth_error (us c) i = Some (URecv buf) -> dq c = p :: q ->
  exists c' r, step c (LUser i ok) = Some c' /\ nth_error (us c') i = Some (UDone r) /\ read_as buf p r /\ dq c' = q /\ log c' = log c ++ [EDeliver p].
Proof.
  intros C N Q. exists (ugo i (UDone (read_result buf p)) (emit (EDeliver p) (set_dq q c))), (read_result buf p).
  split; [apply stepR_step; auto; eapply S_recv; eauto|]. cb.
  split; [eapply upd_nth_same; eauto|]. split; [apply read_result_as|auto].
Qed.
