(** The connections of a process, one by one. *)
From Verif Require Import GoBase ParamsModel BaseProofs MessagesModel ConfigModel ConnModel ConnSpec ConnBase ConnInv ConnTrace ConnUser ConnStable ProcModel ProcSpec.
From Coq Require Import Arith Lia.
Open Scope nat_scope.

Ltac bfields0 :=
  repeat match goal with
  | |- context [hbd (broadcast ?c)] => let H := fresh in destruct (broadcast_fields c) as (_&_&_&_&_&_&_&_&_&_&_&_&_&_&_&_&H&_); rewrite H; clear H
  | |- context [hba (broadcast ?c)] => let H := fresh in destruct (broadcast_fields c) as (_&_&_&_&_&_&_&_&_&_&_&_&_&_&_&_&_&H&_); rewrite H; clear H
  | |- context [hbd (closing ?c)] => let H := fresh in destruct (closing_fields c) as (_&_&_&_&_&_&_&_&_&_&_&_&_&_&_&_&H&_); rewrite H; clear H
  | |- context [hba (closing ?c)] => let H := fresh in destruct (closing_fields c) as (_&_&_&_&_&_&_&_&_&_&_&_&_&_&_&_&_&H&_); rewrite H; clear H
  end.

Lemma hb_change c l c' : own l = true -> step c l = Some c' -> (hbd c' = hbd c /\ hba c' = hba c) \/ hba c' = true.
Proof.
  intros O S. apply step_stepR in S as [_ S]. destruct S; try discriminate; try (left; split; reflexivity).
  - rewrite state_update_eq. left; split; reflexivity.
  - left. cb. bfields0. split; reflexivity.
  - left. cb. bfields0. cb. bfields0. split; reflexivity.
  - destruct (hba c) eqn:A; [right; exact A|left; split; [reflexivity|exact A]].
  - right. reflexivity.
  - left. cb. bfields0. split; reflexivity.
Qed.
Lemma hb_quiet c l c' : reachable c -> hb_on (cfg c) = false -> own l = true -> step c l = Some c' -> hbd c' = hbd c /\ hba c' = hba c.
Proof.
  intros R F O S. apply step_stepR in S as [C S].
  destruct (Inv_reachable c R C) as (_ & B & _).
  destruct S; try discriminate; try (split; reflexivity).
  - rewrite state_update_eq. split; reflexivity.
  - cb. bfields0. split; reflexivity.
  - cb. bfields0. cb. bfields0. split; reflexivity.
  - rewrite H in B. cbn [bok] in B. congruence.
  - rewrite H in B. cbn [bok] in B. congruence.
  - cb. bfields0. split; reflexivity.
Qed.

(** lists *)
Lemma nth_upd_same {A} (l : list A) i x : i < length l -> nth_error (upd l i x) i = Some x.
Proof. revert i. induction l as [|y l IH]; intros [|i] H; cbn in *; try lia; auto. apply IH. lia. Qed.
Lemma nth_upd_other {A} (l : list A) i j x : j <> i -> nth_error (upd l i x) j = nth_error l j.
Proof. revert i j. induction l as [|y l IH]; intros [|i] [|j] H; cbn; auto; try congruence. Qed.
Lemma upd_len {A} (l : list A) i x : length (upd l i x) = length l.
Proof. revert i. induction l as [|y l IH]; intros [|i]; cbn; auto. Qed.

Lemma run_snoc c ls l c' : run c ls = Some c' -> run c (ls ++ [l]) = step c' l.
Proof. intros R. rewrite run_app, R. cbn. destruct (step c' l); auto. Qed.
Lemma proc_run_app p xs ys : proc_run p (xs ++ ys) = match proc_run p xs with Some p' => proc_run p' ys | None => None end.
Proof. revert p. induction xs as [|x xs IH]; intros p; cbn [proc_run app]; auto. destruct (proc_step p x); auto. Qed.
Lemma opens_app xs ys : opens (xs ++ ys) = opens xs ++ opens ys.
Proof. unfold opens. apply flat_map_app. Qed.
Lemma labels_app i xs ys : labels_of i (xs ++ ys) = labels_of i xs ++ labels_of i ys.
Proof. unfold labels_of. apply flat_map_app. Qed.
Lemma filter_own_app ls l : own l = true -> filter own (ls ++ [l]) = filter own ls ++ [l].
Proof. intros O. rewrite filter_app. cbn. now rewrite O. Qed.

(** a connection as an interleaving of its own steps and of changes of the shared data *)
Definition solo (g : config) (xs : list plabel) (i : nat) (c : conn) : Prop :=
  exists m o ls, nth_error (opens xs) i = Some (m, o) /\ run (start m g o) ls = Some c /\ filter own ls = labels_of i xs /\
    (hb_on g = false -> ls = labels_of i xs).
Definition pinv (g : config) (xs : list plabel) (p : proc) : Prop :=
  p_cfg p = g /\ length (p_conns p) = length (opens xs) /\
  (forall j, p_owner p = Some j -> j < length (p_conns p)) /\
  (hb_on g = false -> p_owner p = None /\ p_data p = match cf_hb g with Some h => hb_data h | None => [] end) /\
  (forall i, length (opens xs) <= i -> labels_of i xs = []) /\
  (forall i c, conn_at p i = Some c -> solo g xs i c).

Lemma alive_at p i c : alive p = true -> conn_at p i = Some c -> crash c = None.
Proof.
  unfold alive, conn_at. intros A E. destruct (nth_error (p_conns p) i) as [c0|] eqn:N; [|discriminate]. inversion E; subst.
  rewrite forallb_forall in A. specialize (A c0 (nth_error_In _ _ N)). destruct c0. unfold view. cb. destruct crash; [discriminate|reflexivity].
Qed.
Lemma view_other p d j c : set_hba false (set_hbd d (view p j c)) = set_hba false (set_hbd d c).
Proof. destruct c. reflexivity. Qed.
Lemma conn_at_len p i c : conn_at p i = Some c -> i < length (p_conns p).
Proof. unfold conn_at. destruct (nth_error (p_conns p) i) eqn:N; [|discriminate]. intros _. apply nth_error_Some. congruence. Qed.

Lemma proc_do p i l p' : proc_step p (PDo i l) = Some p' ->
  alive p = true /\ own l = true /\ exists c c', conn_at p i = Some c /\ step c l = Some c' /\
  p' = mkProc (p_cfg p) (hbd c') (if hba c' then Some i else p_owner p) (upd (p_conns p) i c').
Proof.
  unfold proc_step. destruct (alive p); [|discriminate]. destruct (own l); [|discriminate].
  destruct (conn_at p i) as [c|] eqn:E; [|discriminate]. destruct (step c l) as [c'|] eqn:S; [|discriminate].
  intros H. inversion H. repeat split; auto. eauto.
Qed.
Lemma at_hb p i c : conn_at p i = Some c -> hbd c = p_data p /\ hba c = owns p i.
Proof. unfold conn_at. destruct (nth_error (p_conns p) i); [|discriminate]. intros H. inversion H. split; reflexivity. Qed.

(** what a step of connection i does to the connections *)
Lemma do_self p i l p' c c' : conn_at p i = Some c -> own l = true -> step c l = Some c' ->
  p' = mkProc (p_cfg p) (hbd c') (if hba c' then Some i else p_owner p) (upd (p_conns p) i c') -> conn_at p' i = Some c'.
Proof.
  intros E O S ->. unfold conn_at. cbn [p_conns]. rewrite nth_upd_same by eauto using conn_at_len. cbn [option_map]. f_equal.
  destruct (at_hb p i c E) as [D A]. unfold view, owns. cbn [p_data p_owner].
  replace (match (if hba c' then Some i else p_owner p) with Some j => i =? j | None => false end) with (hba c'); [destruct c'; reflexivity|].
  destruct (hb_change c l c' O S) as [[_ H]|H].
  - destruct (hba c') eqn:H'; [now rewrite Nat.eqb_refl|]. unfold owns in A. congruence.
  - rewrite H. now rewrite Nat.eqb_refl.
Qed.
Lemma do_other p i l p' c c' j : conn_at p i = Some c -> own l = true -> step c l = Some c' ->
  p' = mkProc (p_cfg p) (hbd c') (if hba c' then Some i else p_owner p) (upd (p_conns p) i c') -> j <> i ->
  (hbd c' = hbd c /\ hba c' = hba c /\ conn_at p' j = conn_at p j) \/
  (hba c' = true /\ conn_at p' j = option_map (fun x => set_hba false (set_hbd (hbd c') x)) (conn_at p j)).
Proof.
  intros E O S -> NE. destruct (at_hb p i c E) as [D A]. unfold conn_at. cbn [p_conns]. rewrite nth_upd_other by auto.
  destruct (hb_change c l c' O S) as [[D' A']|A'].
  - left. split; [exact D'|split; [exact A'|]]. destruct (nth_error (p_conns p) j) as [cj|]; [|reflexivity]. cbn [option_map]. f_equal.
    unfold view, owns. cbn [p_data p_owner]. rewrite D', D, A', A. unfold owns. destruct (p_owner p) as [k|] eqn:Ow; [|reflexivity].
    destruct (i =? k) eqn:K; [apply Nat.eqb_eq in K; subst k|]; reflexivity.
  - right. split; [exact A'|]. destruct (nth_error (p_conns p) j) as [cj|]; [|reflexivity]. cbn [option_map]. f_equal.
    unfold view at 1. unfold owns. cbn [p_data p_owner]. rewrite A'. apply Nat.eqb_neq in NE. rewrite NE. destruct cj. reflexivity.
Qed.
Lemma other_step c d : crash c = None -> step c (LOtherBeat d) = Some (set_hba false (set_hbd d c)).
Proof. intros C. unfold step. rewrite C. reflexivity. Qed.

Lemma start_hbd m g o : hbd (start m g o) = match cf_hb g with Some h => hb_data h | None => [] end /\ hba (start m g o) = false /\
  crash (start m g o) = None /\ cfg (start m g o) = g.
Proof. repeat split. Qed.
Lemma pinv_init g : pinv g [] (pinit g).
Proof.
  repeat split; cbn; auto; try lia; try discriminate.
  intros i c H. unfold conn_at in H. cbn in H. destruct i; discriminate.
Qed.
Lemma solo_reachable g xs i c : solo g xs i c -> reachable c /\ cfg c = g.
Proof.
  intros (m & o & ls & _ & R & _). split; [exists m, g, o, ls; exact R|]. apply static_run in R as (_ & -> & _). reflexivity.
Qed.
Lemma pinv_step g xs p x p' : pinv g xs p -> proc_step p x = Some p' -> pinv g (xs ++ [x]) p'.
Proof.
  intros (G & L & Ow & Off & Un & At) S. destruct x as [m o|i l].
  - unfold proc_step in S. destruct (alive p) eqn:A; [|discriminate]. inversion S; subst p'; clear S.
    unfold pinv. cbn [p_cfg p_conns p_owner p_data]. rewrite opens_app. cbn [opens flat_map]. rewrite !app_length. cbn [length].
    split; [exact G|]. split; [lia|]. split; [intros j H; specialize (Ow j H); lia|]. split; [exact Off|].
    split. { intros i H. rewrite labels_app, Un by lia. reflexivity. }
    intros i c H. unfold conn_at in H. cbn [p_conns] in H.
    destruct (lt_dec i (length (p_conns p))) as [I|I].
    + rewrite nth_error_app1 in H by exact I.
      assert (H' : conn_at p i = Some c). { unfold conn_at. rewrite <- H. destruct (nth_error (p_conns p) i); reflexivity. }
      destruct (At i c H') as (m' & o' & ls & N & R & F & Q). exists m', o', ls.
      rewrite opens_app, nth_error_app1 by lia. rewrite labels_app. cbn [labels_of flat_map]. rewrite app_nil_r. auto.
    + rewrite nth_error_app2 in H by lia. destruct (i - length (p_conns p)) as [|k] eqn:K; [|destruct k; discriminate].
      assert (i = length (p_conns p)) by lia. subst i. cbn [nth_error option_map] in H.
      assert (E : c = set_hba false (set_hbd (p_data p) (start m g o))).
      { inversion H. unfold view. cbn [p_data]. rewrite G. unfold owns. cbn [p_owner]. destruct (p_owner p) as [j|] eqn:J; [|reflexivity].
        specialize (Ow j eq_refl). replace (length (p_conns p) =? j) with false; [reflexivity|]. symmetry. apply Nat.eqb_neq. lia. }
      exists m, o. rewrite opens_app, nth_error_app2 by lia. rewrite L, Nat.sub_diag. cbn [opens flat_map nth_error app].
      rewrite labels_app, Un by lia. cbn [labels_of flat_map app].
      destruct (hb_on g) eqn:Hon.
      * exists [LOtherBeat (p_data p)]. split; [reflexivity|]. split; [|split; [reflexivity|discriminate]].
        cbn [run]. rewrite other_step by reflexivity. now rewrite E.
      * exists []. split; [reflexivity|]. split; [|split; reflexivity]. cbn [run]. rewrite E. destruct (Off eq_refl) as [_ ->]. reflexivity.
  - apply proc_do in S as (A & O & c & c' & E & S & P). pose proof (At i c E) as SO. destruct (solo_reachable g xs i c SO) as [RC CG].
    assert (HQ : hb_on g = false -> hbd c' = hbd c /\ hba c' = hba c). { intros H. apply (hb_quiet c l c' RC); auto. now rewrite CG. }
    destruct (at_hb p i c E) as [D HA].
    unfold pinv. rewrite opens_app. cbn [opens flat_map]. rewrite app_nil_r.
    split. { rewrite P. exact G. } split. { rewrite P. cbn [p_conns]. now rewrite upd_len. }
    split. { rewrite P. cbn [p_owner p_conns]. rewrite upd_len. intros j. destruct (hba c'); [intros H; inversion H; subst; eauto using conn_at_len|auto]. }
    split. { intros H. destruct (Off H) as [O1 O2]. destruct (HQ H) as [Q1 Q2]. rewrite P. cbn [p_owner p_data].
      rewrite Q2, HA. unfold owns. rewrite O1. split; [reflexivity|congruence]. }
    split. { intros j H. rewrite labels_app, Un by lia. cbn. destruct (j =? i) eqn:J; [|reflexivity]. apply Nat.eqb_eq in J. subst j.
      apply conn_at_len in E. lia. }
    intros j cj H. destruct (Nat.eq_dec j i) as [->|NE].
    + rewrite (do_self p i l p' c c' E O S P) in H. inversion H; subst cj; clear H.
      destruct SO as (m & o & ls & N & R & F & Q). exists m, o, (ls ++ [l]).
      rewrite opens_app. cbn [opens flat_map]. rewrite app_nil_r. split; [exact N|].
      split; [rewrite (run_snoc _ _ _ _ R); exact S|].
      rewrite filter_own_app, labels_app by exact O. cbn [labels_of flat_map]. rewrite Nat.eqb_refl. cbn [app]. split; [now rewrite F|].
      intros H. now rewrite (Q H).
    + assert (X : labels_of j (xs ++ [PDo i l]) = labels_of j xs).
      { rewrite labels_app. cbn. apply Nat.eqb_neq in NE. rewrite NE. apply app_nil_r. }
      assert (Y : opens (xs ++ [PDo i l]) = opens xs). { rewrite opens_app. apply app_nil_r. }
      destruct (do_other p i l p' c c' j E O S P NE) as [(_ & _ & V)|(V1 & V)].
      * rewrite V in H. destruct (At j cj H) as (m & o & ls & Z). exists m, o, ls. rewrite X, Y. exact Z.
      * rewrite V in H. destruct (conn_at p j) as [c0|] eqn:E0; [|discriminate]. cbn [option_map] in H. inversion H as [H']; clear H.
        destruct (At j c0 E0) as (m & o & ls & N & R & F & Q).
        destruct (hb_on g) eqn:Hon.
        { exists m, o, (ls ++ [LOtherBeat (hbd c')]). rewrite X, Y. split; [exact N|].
          split; [rewrite (run_snoc _ _ _ _ R); apply other_step; eapply alive_at; eauto|].
          split; [rewrite filter_app; cbn; now rewrite app_nil_r|congruence]. }
        { destruct (HQ eq_refl) as [Q1 Q2]. destruct (Off eq_refl) as [O1 O2]. unfold owns in HA. rewrite O1 in HA. congruence. }
Qed.
Lemma pinv_run g xs p : proc_run (pinit g) xs = Some p -> pinv g xs p.
Proof.
  revert p. induction xs as [|x xs IH] using rev_ind; intros p H.
  - inversion H. apply pinv_init.
  - rewrite proc_run_app in H. destruct (proc_run (pinit g) xs) as [p0|] eqn:E; [|discriminate].
    cbn in H. destruct (proc_step p0 x) as [p1|] eqn:S; [|discriminate]. inversion H; subst p1. eapply pinv_step; eauto.
Qed.

(** a connection of a process is one that ConnModel describes *)
Lemma proc_refines g xs p i c : proc_run (pinit g) xs = Some p -> conn_at p i = Some c ->
  exists m o ls, nth_error (opens xs) i = Some (m, o) /\ run (start m g o) ls = Some c /\ filter own ls = labels_of i xs.
Proof. intros R E. destruct (pinv_run g xs p R) as (_ & _ & _ & _ & _ & At). destruct (At i c E) as (m & o & ls & A & B & C & _). eauto 6. Qed.
(** without heartbeats it is on its own *)
Lemma proc_alone g xs p i c : hb_on g = false -> proc_run (pinit g) xs = Some p -> conn_at p i = Some c ->
  exists m o, nth_error (opens xs) i = Some (m, o) /\ run (start m g o) (labels_of i xs) = Some c.
Proof.
  intros F R E. destruct (pinv_run g xs p R) as (_ & _ & _ & _ & _ & At). destruct (At i c E) as (m & o & ls & A & B & _ & D).
  rewrite (D F) in B. eauto.
Qed.
Lemma proc_len g xs p : proc_run (pinit g) xs = Some p -> length (p_conns p) = length (opens xs).
Proof. intros R. now destruct (pinv_run g xs p R) as (_ & L & _). Qed.
Lemma conn_at_some p i : i < length (p_conns p) -> exists c, conn_at p i = Some c.
Proof. intros L. unfold conn_at. destruct (nth_error (p_conns p) i) as [c|] eqn:E; [cbn; eauto|]. apply nth_error_None in E. lia. Qed.
Lemma alive_intro p : (forall i c, conn_at p i = Some c -> crash c = None) -> alive p = true.
Proof.
  intros H. unfold alive. apply forallb_forall. intros c I. apply In_nth_error in I as [i N].
  specialize (H i (view p i c)). unfold conn_at in H. rewrite N in H. specialize (H eq_refl). destruct c. unfold view in H. cb. now rewrite H.
Qed.

Lemma in_order_app xs x : in_order (xs ++ [x]) -> in_order xs.
Proof. intros H xs1 i l xs2 ->. apply (H xs1 i l (xs2 ++ [x])). rewrite <- app_assoc. reflexivity. Qed.
(** and whatever each does by itself they do side by side *)
Lemma proc_combines g xs : hb_on g = false -> in_order xs ->
  (forall i m o, nth_error (opens xs) i = Some (m, o) -> exists c, run (start m g o) (labels_of i xs) = Some c /\ crash c = None) ->
  exists p, proc_run (pinit g) xs = Some p /\ alive p = true /\
    forall i m o, nth_error (opens xs) i = Some (m, o) -> conn_at p i = run (start m g o) (labels_of i xs).
Proof.
  intros F. induction xs as [|x xs IH] using rev_ind; intros W H.
  - exists (pinit g). split; [reflexivity|]. split; [reflexivity|]. intros [|i] m o N; discriminate.
  - assert (H0 : forall i m o, nth_error (opens xs) i = Some (m, o) -> exists c, run (start m g o) (labels_of i xs) = Some c /\ crash c = None).
    { intros i m o N. assert (N' : nth_error (opens (xs ++ [x])) i = Some (m, o)).
      { rewrite opens_app, nth_error_app1; auto. apply nth_error_Some. congruence. }
      destruct (H i m o N') as (c & R & C). rewrite labels_app, run_app in R.
      destruct (run (start m g o) (labels_of i xs)) as [c0|] eqn:R0; [|discriminate]. exists c0. split; [reflexivity|].
      destruct (labels_of i [x]) as [|l k]; cbn [run] in R; [congruence|]. destruct (step c0 l) eqn:S; [|discriminate].
      now apply step_stepR in S as [C0 _]. }
    destruct (IH (in_order_app _ _ W) H0) as (p & R & A & At).
    assert (X : exists p', proc_step p x = Some p').
    { destruct x as [m o|i l].
      - unfold proc_step. rewrite A. eauto.
      - destruct (W xs i l [] eq_refl) as [O I].
        destruct (nth_error (opens xs) i) as [[m o]|] eqn:N; [|apply nth_error_None in N; lia].
        assert (N' : nth_error (opens (xs ++ [PDo i l])) i = Some (m, o)). { rewrite opens_app, nth_error_app1; auto. }
        destruct (H i m o N') as (c & Rc & C). rewrite labels_app, run_app in Rc. cbn [labels_of flat_map] in Rc. rewrite Nat.eqb_refl in Rc.
        rewrite <- (At i m o N) in Rc. destruct (conn_at p i) as [c0|] eqn:E; [|discriminate]. cbn [app run] in Rc.
        destruct (step c0 l) as [c1|] eqn:S; [|discriminate]. unfold proc_step. rewrite A, O, E, S. eauto. }
    destruct X as [p' S]. assert (R' : proc_run (pinit g) (xs ++ [x]) = Some p'). { rewrite proc_run_app, R. cbn [proc_run]. now rewrite S. }
    assert (At' : forall i m o, nth_error (opens (xs ++ [x])) i = Some (m, o) -> conn_at p' i = run (start m g o) (labels_of i (xs ++ [x]))).
    { intros i m o N. assert (I : i < length (p_conns p')). { rewrite (proc_len _ _ _ R'). apply nth_error_Some. congruence. }
      destruct (conn_at_some p' i I) as [c E]. rewrite E. destruct (proc_alone g _ p' i c F R' E) as (m' & o' & N' & Rc).
      rewrite N in N'. inversion N'; subst. now rewrite Rc. }
    exists p'. split; [exact R'|]. split; [|exact At'].
    apply alive_intro. intros i c E. destruct (proc_alone g _ p' i c F R' E) as (m & o & N & Rc).
    destruct (H i m o N) as (c0 & Rc0 & C0). congruence.
Qed.
(** a step of one connection is not seen in another *)
Lemma proc_apart g xs p i l p' j : hb_on g = false -> proc_run (pinit g) xs = Some p -> proc_step p (PDo i l) = Some p' -> j <> i ->
  conn_at p' j = conn_at p j.
Proof.
  intros F R S NE. pose proof (pinv_run g xs p R) as (_ & _ & _ & Off & _ & At).
  apply proc_do in S as (A & O & c & c' & E & S & P). destruct (solo_reachable g xs i c (At i c E)) as [RC CG].
  destruct (do_other p i l p' c c' j E O S P NE) as [(_ & _ & V)|(V1 & _)]; [exact V|].
  destruct (hb_quiet c l c' RC) as [_ Q]; auto. { now rewrite CG. } destruct (at_hb p i c E) as [_ HA]. destruct (Off F) as [O1 _].
  unfold owns in HA. rewrite O1 in HA. congruence.
Qed.

(** steps of one connection, as steps of the process *)
Lemma proc_drive p i c ls c' : alive p = true -> conn_at p i = Some c -> Forall (fun l => own l = true) ls -> run c ls = Some c' ->
  exists p', proc_run p (map (PDo i) ls) = Some p' /\ conn_at p' i = Some c'.
Proof.
  revert p c. induction ls as [|l ls IH]; intros p c A E O R.
  - inversion R; subst. exists p. split; [reflexivity|exact E].
  - cbn [run] in R. destruct (step c l) as [c1|] eqn:S; [|discriminate]. inversion O as [|? ? O1 O2]; subst.
    cbn [map proc_run]. unfold proc_step. rewrite A, O1, E, S.
    set (p1 := mkProc _ _ _ _).
    assert (E1 : conn_at p1 i = Some c1) by (apply (do_self p i l p1 c c1 E O1 S eq_refl)).
    destruct ls as [|l2 ls].
    + cbn [run] in R. inversion R; subst. exists p1. split; [reflexivity|exact E1].
    + assert (C1 : crash c1 = None). { cbn [run] in R. destruct (step c1 l2) eqn:S2; [|discriminate]. now apply step_stepR in S2 as [? _]. }
      assert (A1 : alive p1 = true).
      { apply alive_intro. intros j cj Ej. destruct (Nat.eq_dec j i) as [->|NE]; [congruence|].
        destruct (do_other p i l p1 c c1 j E O1 S eq_refl NE) as [(_ & _ & V)|(_ & V)].
        - rewrite V in Ej. eapply alive_at; eauto.
        - rewrite V in Ej. destruct (conn_at p j) as [c0|] eqn:E0; [|discriminate]. inversion Ej. apply (alive_at p j c0 A E0). }
      apply (IH p1 c1 A1 E1 O2 R).
Qed.
Lemma dead_stops p i c e : conn_at p i = Some c -> crash c = Some e -> alive p = false /\ forall x, proc_step p x = None.
Proof.
  intros E C. destruct (alive p) eqn:A; [rewrite (alive_at p i c A E) in C; discriminate|]. split; [reflexivity|].
  intros x. unfold proc_step. now rewrite A.
Qed.

(** all connections compare BEAT ACKs with the same data *)
Lemma same_data p i j ci cj : conn_at p i = Some ci -> conn_at p j = Some cj -> hbd ci = hbd cj.
Proof. intros A B. apply at_hb in A as [-> _]. apply at_hb in B as [-> _]. reflexivity. Qed.
Lemma ack_accepted c i ok t q k : reachable c -> crash c = None -> nth_error (hs c) i = Some (IHandle t :: k) -> m_kind t = KHeartbeatAck ->
  fget FHeartbeatData (m_f t) = Some q -> step c (LHand i ok) = Some (hgo i k c) -> HeartbeatData q = hbd c.
Proof.
  intros R C N K F S. unfold step, step_hand in S. rewrite C, N in S. unfold handle in S. rewrite K in S.
  destruct (unlocked c); [|discriminate]. rewrite F in S.
  assert (X : forall e, Some (hgo i (IErr e :: k) c) = Some (hgo i k c) -> False).
  { intros e H. apply (f_equal (option_map (fun x => nth_error (hs x) i))) in H. cbn [option_map] in H. unfold hgo in H. cb.
    rewrite !nth_upd_same in H by (apply nth_error_Some; congruence). inversion H as [Y]. apply (f_equal (@length _)) in Y. cbn in Y. lia. }
  destruct (negb (st_eqb (state c) Active)); [exfalso; eapply X; exact S|].
  destruct (list_eq_dec _ _ _) as [E|E]; [exact E|exfalso; eapply X; exact S].
Qed.
Lemma one_ack p i j ci cj a b oka okb ti tj qi qj ki kj : alive p = true -> reachable ci -> reachable cj ->
  conn_at p i = Some ci -> conn_at p j = Some cj ->
  nth_error (hs ci) a = Some (IHandle ti :: ki) -> m_kind ti = KHeartbeatAck -> fget FHeartbeatData (m_f ti) = Some qi ->
  nth_error (hs cj) b = Some (IHandle tj :: kj) -> m_kind tj = KHeartbeatAck -> fget FHeartbeatData (m_f tj) = Some qj ->
  step ci (LHand a oka) = Some (hgo a ki ci) -> step cj (LHand b okb) = Some (hgo b kj cj) -> HeartbeatData qi = HeartbeatData qj.
Proof.
  intros A Ri Rj Ei Ej Ni Ki Fi Nj Kj Fj Si Sj.
  rewrite (ack_accepted ci a oka ti qi ki Ri (alive_at p i ci A Ei) Ni Ki Fi Si).
  rewrite (ack_accepted cj b okb tj qj kj Rj (alive_at p j cj A Ej) Nj Kj Fj Sj). exact (same_data p i j ci cj Ei Ej).
Qed.
Lemma proc_reachable g xs p i c : proc_run (pinit g) xs = Some p -> conn_at p i = Some c -> reachable c.
Proof. intros R E. destruct (proc_refines g xs p i c R E) as (m & o & ls & _ & X & _). exists m, g, o, ls. exact X. Qed.

(** one packet on one connection ends them all *)
Lemma smooth_own ls : Forall smooth_data ls -> Forall (fun l => own l = true) ls.
Proof. intros F. eapply Forall_impl; [|exact F]. intros l [S|[i ->]]; [|reflexivity]. destruct l; try contradiction; reflexivity. Qed.
Lemma ends_all g xs p i c raw q t : proc_run (pinit g) xs = Some p -> alive p = true -> conn_at p i = Some c ->
  mon c = MRead -> sopen c = true -> ctxd c = false -> state c = Active -> inq c = raw :: q -> length raw <= bufsize -> valid raw (Typed t) ->
  (m_kind t = KHeartbeatAck /\ fget FHeartbeatData (m_f t) = None) \/ (m_kind t = KData /\ fget FProtocolData (m_f t) = None) ->
  exists ls p', proc_run p (map (PDo i) ls) = Some p' /\ Forall smooth_data ls /\ alive p' = false /\ forall x, proc_step p' x = None.
Proof.
  intros R A E M So Cx St Q L V T. pose proof (proc_reachable g xs p i c R E) as Rc. pose proof (alive_at p i c A E) as C.
  assert (X : exists ls c', run c ls = Some c' /\ Forall smooth_data ls /\ crash c' = Some PNil).
  { destruct T as [[K F]|[K F]].
    - destruct (beat_ack_crashes c raw q t Rc C M So Cx St Q L V K F) as (ls & c' & X & Y & Z). exists ls, c'. split; [exact X|split; [|exact Z]].
      eapply Forall_impl; [|exact Y]. intros l H. left. exact H.
    - exact (data_crashes c raw q t Rc C M So Cx St Q L V K F). }
  destruct X as (ls & c' & X & Y & Z). destruct (proc_drive p i c ls c' A E (smooth_own ls Y) X) as (p' & P & E').
  exists ls, p'. split; [exact P|]. split; [exact Y|]. eapply dead_stops; eauto.
Qed.
