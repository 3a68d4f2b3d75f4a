(** User calls: Read, ReadPD, Write, WriteToStream, WritePD, WritePDToStream. *)
From Verif Require Import GoBase BaseProofs ParamsModel MessagesModel MessagesProofs MessagesProofs2 ConfigModel
  ConnModel ConnSpec ConnBase ConnInv ConnTrace.
From Coq Require Import Arith Lia.
Open Scope nat_scope.

Lemma usends_app i a b : usends i (a ++ b) = usends i a ++ usends i b.
Proof. apply flat_map_app. Qed.

(** induction along a run *)
Lemma run_snoc c ls l c' : run c (ls ++ [l]) = Some c' -> exists c1, run c ls = Some c1 /\ step c1 l = Some c'.
Proof.
  rewrite run_app. destruct (run c ls) as [c1|]; [|discriminate]. cbn. destruct (step c1 l) eqn:E; [|discriminate].
  intros H; inversion H; subst. eauto.
Qed.
Lemma run_one c l c' : step c l = Some c' -> run c [l] = Some c'.
Proof. intros H. cbn. now rewrite H. Qed.
Lemma run_along (c0 : conn) (I : conn -> Prop) : I c0 ->
  (forall ls c l c', run c0 ls = Some c -> I c -> step c l = Some c' -> I c') ->
  forall ls c, run c0 ls = Some c -> I c.
Proof.
  intros I0 P ls. induction ls as [|l ls IH] using rev_ind; intros c R.
  - inversion R; subst; auto.
  - apply run_snoc in R as (c1 & R1 & S). eapply P; eauto.
Qed.

(** a goroutine other than the user call leaves it alone *)
Lemma user_frame c l c' i u : step c l = Some c' -> nth_error (us c) i = Some u ->
  (exists ok, l = LUser i ok) \/ (nth_error (us c') i = Some u /\ usends i (log c') = usends i (log c)).
Proof.
  intros S N. apply step_stepR in S as [C S].
  assert (F : forall es, us c' = us c -> log c' = log c ++ es -> usends i es = [] ->
    nth_error (us c') i = Some u /\ usends i (log c') = usends i (log c)).
  { intros es E1 E2 E3. rewrite E1, E2, usends_app, E3, app_nil_r. auto. }
  assert (G : forall j ok v es, l = LUser j ok -> us c' = upd (us c) j v -> log c' = log c ++ es ->
     (i <> j -> usends i es = []) ->
    (exists ok, l = LUser i ok) \/ (nth_error (us c') i = Some u /\ usends i (log c') = usends i (log c))).
  { intros j ok v es E1 E2 E3 E4. destruct (Nat.eq_dec i j) as [->|D]; [left; eauto|right].
    rewrite E2, E3, upd_nth_other, usends_app, E4, app_nil_r by auto. auto. }
  assert (E0 : log c = log c ++ []) by now rewrite app_nil_r.
  destruct S; try (right; eapply F with (es := []); [reflexivity|exact E0|reflexivity]; fail);
    try (right; eapply F; [reflexivity|cb; rewrite <- ?app_assoc; reflexivity|reflexivity]; fail);
    try (eapply G with (es := []); [reflexivity|cb; reflexivity|exact E0|reflexivity]; fail);
    try (eapply G; [reflexivity|cb; reflexivity|cb; reflexivity|intros D; cbn; rewrite ?(proj2 (Nat.eqb_neq _ _) D); reflexivity]; fail).
  - right. rewrite state_update_eq in *. eapply F with (es := [EUpd s]); reflexivity.
  - right. destruct (broadcast_fields (set_dial DOk c)) as (_ & _ & _ & _ & _ & _ & _ & _ & _ & _ & _ & _ & _ & _ & E1 & _ & _ & _ & _ & L).
    eapply F with (es := []); cb; try reflexivity; congruence.
  - right. destruct (broadcast_fields (closing c)) as (_ & _ & _ & _ & _ & _ & _ & _ & _ & _ & _ & _ & _ & _ & E1 & _ & _ & _ & _ & L).
    destruct (closing_fields c) as (_ & _ & _ & _ & _ & _ & _ & _ & _ & _ & _ & _ & _ & _ & E1' & _ & _ & _ & _ & L').
    eapply F with (es := [EClosed]); cb; try reflexivity; congruence.
  - right. destruct (hba c); (eapply F with (es := []); [reflexivity|exact E0|reflexivity]).
  - right. cb. split; [|auto]. rewrite nth_error_app1; auto. apply nth_error_Some. congruence.
  - destruct (closing_fields c) as (_ & _ & _ & _ & _ & _ & _ & _ & _ & _ & _ & _ & _ & _ & E1' & _ & _ & _ & _ & L').
    eapply (G i0 ok (UDone (RClosed (sopen c))) [EClosed]); cb; try reflexivity; congruence.
  - right. destruct H0 as [->|[->|(o & e & _ & ->)]]; (eapply F; [reflexivity|reflexivity|reflexivity]).
Qed.

Lemma static_step c l c' : step c l = Some c' -> mode c' = mode c /\ cfg c' = cfg c /\ maxs c' = maxs c.
Proof.
  intros S. apply step_stepR in S as [C S]. destruct S; auto.
  - rewrite state_update_eq. auto.
  - destruct (broadcast_fields (set_dial DOk c)) as (? & ? & ? & _). cb. repeat split; congruence.
  - destruct (broadcast_fields (closing c)) as (? & ? & ? & _). destruct (closing_fields c) as (? & ? & ? & _). cb. repeat split; congruence.
  - destruct (hba c); auto.
  - destruct (closing_fields c) as (? & ? & ? & _). cb. repeat split; congruence.
Qed.
Lemma static_run c ls c' : run c ls = Some c' -> mode c' = mode c /\ cfg c' = cfg c /\ maxs c' = maxs c.
Proof.
  intros R. refine (run_along c (fun x => mode x = mode c /\ cfg x = cfg c /\ maxs x = maxs c) _ _ ls c' R); auto.
  intros ls0 x l x' _ (A & B & D) S. apply static_step in S as (A' & B' & D'). repeat split; congruence.
Qed.
Lemma reachable_static c : reachable c -> exists o, maxs c = u16 (o + 65535).
Proof. intros (m & g & o & ls & R). exists o. now apply static_run in R as (_ & _ & ->). Qed.
Lemma reachable_run c ls c' : reachable c -> run c ls = Some c' -> reachable c'.
Proof. intros (m & g & o & l0 & R) R'. exists m, g, o, (l0 ++ ls). now rewrite run_app, R. Qed.
Lemma reachable_start m g o : reachable (start m g o).
Proof. exists m, g, o, []. reflexivity. Qed.

(** ** Streams *)
Lemma choose_stream_range max rnd s : (max < 65536)%N -> choose_stream max rnd = Ok (Some s) -> (1 <= s <= max)%N.
Proof.
  unfold choose_stream. intros L. destruct (max =? 1)%N eqn:E1; [apply N.eqb_eq in E1; intros H; inversion H; lia|].
  destruct (max =? 0)%N eqn:E0; [discriminate|]. destruct (rnd <? max)%N eqn:E; [|discriminate].
  intros H; inversion H. apply N.ltb_lt in E. unfold u16. rewrite (N.mod_small rnd) by lia.
  rewrite N.mod_small by lia. lia.
Qed.

Lemma via_start (P : conn -> Prop) c ls c1 c' : run c ls = Some c1 -> P c1 -> run c1 [] = Some c' -> via P c c'.
Proof. intros A B D. exists ls, c1, []. auto. Qed.
Lemma via_step P c c1 l c2 : via P c c1 -> step c1 l = Some c2 -> via P c c2.
Proof.
  intros (l1 & x & l2 & A & B & D) S. exists l1, x, (l2 ++ [l]). repeat split; auto. rewrite run_app, D. now apply run_one.
Qed.

(** ** Writes *)
Definition wphase (c0 : conn) (i : nat) (op : uop) (m : m3ua) (c : conn) : Prop :=
  exists u, nth_error (us c) i = Some u /\
  match u with
  | UGo op' => usends i (log c) = usends i (log c0) /\ (op' = op \/
      (exists b rnd s, op = OpWrite b rnd /\ op' = OpWriteTo b s /\ (1 <= s <= maxs c0)%N) \/
      (exists pd rnd s, op = OpWritePD pd rnd /\ op' = OpWritePDTo pd s /\ (1 <= s <= maxs c0)%N))
  | USend s m' => usends i (log c) = usends i (log c0) /\ m' = m /\ stream_for (maxs c0) op s /\ via (fun x => state x = Active) c0 c
  | URecv _ => False
  | UDone r =>
      (r = RNotEstablished /\ usends i (log c) = usends i (log c0) /\ via (fun x => state x <> Active) c0 c) \/
      (r = RWriteError /\ usends i (log c) = usends i (log c0) /\ via (fun x => state x = Active) c0 c) \/
      exists s b, r = RWrote (length b + length b) /\ encodes m b /\ stream_for (maxs c0) op s /\
        usends i (log c) = usends i (log c0) ++ [(s, m, b)] /\ via (fun x => state x = Active) c0 c
  end.
Lemma wphase_same c0 i op m c l c' : step c l = Some c' -> wphase c0 i op m c ->
  (exists u, nth_error (us c) i = Some u /\ nth_error (us c') i = Some u /\ usends i (log c') = usends i (log c)) ->
  wphase c0 i op m c'.
Proof.
  intros S (u & U & P) (u' & U1 & U2 & L). rewrite U in U1. inversion U1; subst u'. exists u. split; auto.
  destruct u; rewrite ?L; auto.
  - destruct P as (A & B & D & E). repeat split; auto. eapply via_step; eauto.
  - destruct P as [(A & B & D)|[(A & B & D)|(s & b & A & B & D & E & F)]].
    + left. repeat split; auto. eapply via_step; eauto.
    + right; left. repeat split; auto. eapply via_step; eauto.
    + right; right. exists s, b. repeat split; auto; try apply B. eapply via_step; eauto.
Qed.
Lemma wphase_run c0 i op m : (maxs c0 < 65536)%N -> nth_error (us c0) i = Some (UGo op) -> carries (cfg c0) op m ->
  forall ls c, run c0 ls = Some c -> wphase c0 i op m c.
Proof.
  intros Mx U0 Ca ls c R. refine (run_along c0 (wphase c0 i op m) _ _ ls c R).
  { exists (UGo op). auto. }
  clear ls c R. intros ls c l c' R P S.
  destruct (static_run _ _ _ R) as (_ & Eg & Em).
  pose proof P as (u & U & Q). destruct (user_frame _ _ _ _ _ S U) as [[ok ->]|[K1 K2]].
  2:{ eapply wphase_same; eauto. }
  assert (R1 : run c0 (ls ++ [LUser i ok]) = Some c') by (rewrite run_app, R; now apply run_one).
  assert (V : forall (P : conn -> Prop), P c -> via P c0 c').
  { intros P0 HP. exists ls, c, [LUser i ok]. repeat split; auto. now apply run_one. }
  pose proof S as S0. apply step_stepR in S0 as [C S0].
  assert (Pan : forall p es, panics c p -> c' = set_crash (Some p) (set_log (log c ++ es) c) ->
    (es = [] \/ es = [EClosed] \/ exists o e, mon c = MErr o e /\ es = [ERefused o e]) -> wphase c0 i op m c').
  { intros p es _ -> Es. eapply wphase_same; eauto. exists u. cb. repeat split; auto.
    rewrite usends_app. destruct Es as [->|[->|(o & e & _ & ->)]]; cbn; now rewrite app_nil_r. }
  inversion S0; subst; try (eapply Pan; eauto; fail);
    match goal with N : nth_error (us c) i = Some ?v |- _ => rewrite N in U; inversion U; subst; clear U; rename N into U end.
  - (* check, active *)
    destruct Q as [Q1 Q2]. exists u0. cb. rewrite (upd_nth_same _ _ _ _ U). split; auto.
    destruct Q2 as [->|[(b & rnd & s & -> & -> & L)|(pd & rnd & s & -> & -> & L)]].
    + inversion Ca; subst; match goal with K : checked_op _ _ = Some _ |- _ => cbn [checked_op] in K; inversion K; subst end;
        (repeat split; auto; unfold data_msg, pd_msg; now rewrite Eg).
    + inversion Ca; subst; match goal with K : checked_op _ _ = Some _ |- _ => cbn [checked_op] in K; inversion K; subst end;
        (repeat split; auto; try lia; unfold data_msg, pd_msg; now rewrite Eg).
    + inversion Ca; subst; match goal with K : checked_op _ _ = Some _ |- _ => cbn [checked_op] in K; inversion K; subst end;
        (repeat split; auto; try lia; unfold data_msg, pd_msg; now rewrite Eg).
  - destruct Q as [Q1 Q2]. exists (UDone RNotEstablished). cb. rewrite (upd_nth_same _ _ _ _ U). split; auto.
  - destruct Q as [Q1 Q2]. exists (UGo (OpWriteTo b s)). cb. rewrite (upd_nth_same _ _ _ _ U). split; auto. split; auto.
    right; left. destruct Q2 as [Q2|[(? & ? & ? & ? & ? & ?)|(? & ? & ? & ? & ? & ?)]]; try discriminate; subst op.
    exists b, rnd, s. split; [reflexivity|]. split; [reflexivity|]. rewrite Em in *. eapply choose_stream_range; eauto.
  - destruct Q as [Q1 Q2]. exists (UGo (OpWritePDTo pd s)). cb. rewrite (upd_nth_same _ _ _ _ U). split; auto. split; auto.
    right; right. destruct Q2 as [Q2|[(? & ? & ? & ? & ? & ?)|(? & ? & ? & ? & ? & ?)]]; try discriminate; subst op.
    exists pd, rnd, s. split; [reflexivity|]. split; [reflexivity|]. rewrite Em in *. eapply choose_stream_range; eauto.
  - exfalso. destruct Q as [_ [E|[(? & ? & ? & _ & E & _)|(? & ? & ? & _ & E & _)]]]; try discriminate. subst op. inversion Ca.
  - exfalso. destruct Q as [_ [E|[(? & ? & ? & _ & E & _)|(? & ? & ? & _ & E & _)]]]; try discriminate. subst op. inversion Ca.
  - exfalso. destruct Q as [_ [E|[(? & ? & ? & _ & E & _)|(? & ? & ? & _ & E & _)]]]; try discriminate. subst op. inversion Ca.
  - exfalso. destruct Q as [_ [E|[(? & ? & ? & _ & E & _)|(? & ? & ? & _ & E & _)]]]; try discriminate. subst op. inversion Ca.
  - destruct Q.
  - destruct Q.
  - (* sent *) destruct Q as (Q1 & -> & Q3 & Q4). exists (UDone (RWrote (length b + length b))). cb.
    rewrite (upd_nth_same _ _ _ _ U). split; auto. right; right. exists s, b. repeat split; auto.
    + eexists; eauto. + rewrite usends_app, Q1. cbn. now rewrite Nat.eqb_refl. + eapply via_step; eauto.
  - destruct Q as (Q1 & -> & Q3 & Q4). exists (UDone RWriteError). cb.
    rewrite (upd_nth_same _ _ _ _ U). split; auto. right; left. repeat split; auto. eapply via_step; eauto.
Qed.

Lemma maxs_small c : reachable c -> (maxs c < 65536)%N.
Proof. intros R. destruct (reachable_static c R) as [o ->]. unfold u16. apply N.mod_lt. discriminate. Qed.

Lemma write_outcome c i op m ls c' r : reachable c -> nth_error (us c) i = Some (UGo op) -> carries (cfg c) op m ->
  run c ls = Some c' -> nth_error (us c') i = Some (UDone r) ->
  (r = RNotEstablished /\ usends i (log c') = usends i (log c) /\ via (fun x => state x <> Active) c c') \/
  (r = RWriteError /\ usends i (log c') = usends i (log c) /\ via (fun x => state x = Active) c c') \/
  exists s b, r = RWrote (2 * length b) /\ encodes m b /\ stream_for (maxs c) op s /\
    usends i (log c') = usends i (log c) ++ [(s, m, b)] /\ via (fun x => state x = Active) c c'.
Proof.
  intros R U Ca Rn D. destruct (wphase_run c i op m (maxs_small c R) U Ca ls c' Rn) as (u & U' & Q).
  rewrite D in U'. inversion U'; subst u. destruct Q as [Q|[Q|(s & b & -> & Q)]]; auto. right; right. exists s, b.
  split; auto. f_equal. lia.
Qed.

(** a write with a single outbound stream never completes: it panics *)
Lemma write_panics c i op : nth_error (us c) i = Some (UGo op) ->
  (exists b rnd, op = OpWrite b rnd) \/ (exists pd rnd, op = OpWritePD pd rnd) -> maxs c = 0%N ->
  (crash c = None -> forall ok, exists c', step c (LUser i ok) = Some c' /\ crash c' = Some PIntn) /\
  (forall ls c', run c ls = Some c' -> nth_error (us c') i = Some (UGo op) /\ usends i (log c') = usends i (log c)).
Proof.
  intros U Op M. split.
  - intros C ok. unfold step. rewrite C. unfold step_user. rewrite U.
    destruct Op as [(b & rnd & ->)|(pd & rnd & ->)]; rewrite M; cbn; eexists; split; reflexivity.
  - intros ls c' R. refine (run_along c (fun x => nth_error (us x) i = Some (UGo op) /\ usends i (log x) = usends i (log c)) _ _ ls c' R); auto.
    clear ls c' R. intros ls x l x' Rx (A & B) S. destruct (user_frame _ _ _ _ _ S A) as [[ok ->]|[K1 K2]].
    2:{ split; congruence. }
    apply static_run in Rx as (_ & _ & Mx). rewrite M in Mx. unfold step in S. destruct (crash x); [discriminate|].
    unfold step_user in S. rewrite A in S.
    destruct Op as [(b & rnd & ->)|(pd & rnd & ->)]; rewrite Mx in S; cbn in S; inversion S; subst; cb; auto.
Qed.

(** ** Reads *)
Definition rphase (c0 : conn) (i : nat) (op : uop) (buf : option (list byte)) (c : conn) : Prop :=
  exists u, nth_error (us c) i = Some u /\ usends i (log c) = usends i (log c0) /\
    (exists es, log c = log c0 ++ es /\
  match u with
  | UGo op' => op' = op
  | URecv buf' => buf' = buf
  | USend _ _ => False
  | UDone r => r = RNotEstablished \/ exists pd, In (EDeliver pd) es /\ read_as buf pd r
  end).
Lemma log_grows c l c' : step c l = Some c' -> exists es, log c' = log c ++ es.
Proof.
  intros S. apply step_stepR in S as [C S].
  assert (E0 : log c = log c ++ []) by now rewrite app_nil_r.
  destruct S; try (exists []; exact E0); try (eexists; cb; rewrite <- ?app_assoc; reflexivity).
  - rewrite state_update_eq. eexists; cb; reflexivity.
  - destruct (broadcast_fields (set_dial DOk c)) as (_ & _ & _ & _ & _ & _ & _ & _ & _ & _ & _ & _ & _ & _ & _ & _ & _ & _ & _ & L).
    exists []. cb. congruence.
  - destruct (broadcast_fields (closing c)) as (_ & _ & _ & _ & _ & _ & _ & _ & _ & _ & _ & _ & _ & _ & _ & _ & _ & _ & _ & L).
    destruct (closing_fields c) as (_ & _ & _ & _ & _ & _ & _ & _ & _ & _ & _ & _ & _ & _ & _ & _ & _ & _ & _ & L').
    exists [EClosed]. cb. congruence.
  - exists []. destruct (hba c); exact E0.
  - destruct (closing_fields c) as (_ & _ & _ & _ & _ & _ & _ & _ & _ & _ & _ & _ & _ & _ & _ & _ & _ & _ & _ & L').
    exists [EClosed]. cb. congruence.
Qed.
Lemma log_prefix c ls c' : run c ls = Some c' -> exists es, log c' = log c ++ es.
Proof.
  intros R. refine (run_along c (fun x => exists es, log x = log c ++ es) _ _ ls c' R).
  - exists []. now rewrite app_nil_r.
  - intros l0 x l x' _ [es E] S. apply log_grows in S as [es' E']. exists (es ++ es'). rewrite E', E, app_assoc. reflexivity.
Qed.
Lemma read_result_as buf pd : read_as buf pd (read_result buf pd).
Proof.
  unfold read_as, read_result. destruct buf as [b|]; auto. eexists. split; [reflexivity|]. split.
  - rewrite app_length, firstn_length, skipn_length. lia.
  - intros j. destruct (j <? length b) eqn:E.
    + apply Nat.ltb_lt in E. destruct (j <? length (pd_data pd)) eqn:F.
      * apply Nat.ltb_lt in F. rewrite nth_error_app1 by (rewrite firstn_length; lia).
        clear F. revert b E. generalize (pd_data pd). intros d. revert j. induction d as [|x d IH]; intros [|j] [|y b] E; cbn in *; auto; try lia.
        apply IH. lia.
      * apply Nat.ltb_ge in F. rewrite nth_error_app2 by (rewrite firstn_length; lia). rewrite firstn_length.
        rewrite Nat.min_r by lia. clear E. revert j b F. generalize (pd_data pd). intros d. induction d as [|x d IH]; intros j b F; cbn.
        -- now rewrite Nat.sub_0_r.
        -- destruct j as [|j]; [cbn in F; lia|]. cbn in F. destruct b as [|y b].
           ++ cbn. now destruct (j - length d).
           ++ cbn. apply IH. lia.
    + apply Nat.ltb_ge in E. apply nth_error_None. rewrite app_length, firstn_length, skipn_length. lia.
Qed.
Lemma rphase_run c0 i op buf : nth_error (us c0) i = Some (UGo op) ->
  (exists b, op = OpRead b /\ buf = Some b) \/ (op = OpReadPD /\ buf = None) ->
  forall ls c, run c0 ls = Some c -> rphase c0 i op buf c.
Proof.
  intros U0 Op ls c R. refine (run_along c0 (rphase c0 i op buf) _ _ ls c R).
  { exists (UGo op). repeat split; auto. exists []. now rewrite app_nil_r. }
  clear ls c R. intros ls c l c' R P S.
  pose proof P as (u & U & B & es & E & Q). destruct (log_grows _ _ _ S) as [es' E'].
  destruct (user_frame _ _ _ _ _ S U) as [[ok ->]|[K1 K2]].
  2:{ exists u. rewrite K1, K2. repeat split; auto. exists (es ++ es'). rewrite E', E, <- app_assoc. split; auto.
      destruct u; auto. destruct Q as [Q|(pd & Q1 & Q2)]; auto. right. exists pd. split; auto. apply in_or_app; auto. }
  pose proof S as S0. apply step_stepR in S0 as [C S0].
  inversion S0; subst;
    try (match goal with N : nth_error (us c) i = Some ?v |- _ => rewrite N in U; inversion U; subst; clear U; rename N into U end).
  - exists u0. cb. rewrite (upd_nth_same _ _ _ _ U). repeat split; auto. exists es. split; auto.
    destruct Op as [(b & Q1 & Q2)|(Q1 & Q2)]; subst; match goal with K : checked_op _ _ = Some _ |- _ => inversion K; subst end; reflexivity.
  - exists (UDone RNotEstablished). cb. rewrite (upd_nth_same _ _ _ _ U). repeat split; auto. exists es. split; auto.
  - exfalso; destruct Op as [(? & Q' & _)|(Q' & _)]; congruence.
  - exfalso; destruct Op as [(? & Q' & _)|(Q' & _)]; congruence.
  - exfalso; destruct Op as [(? & Q' & _)|(Q' & _)]; congruence.
  - exfalso; destruct Op as [(? & Q' & _)|(Q' & _)]; congruence.
  - exfalso; destruct Op as [(? & Q' & _)|(Q' & _)]; congruence.
  - exfalso; destruct Op as [(? & Q' & _)|(Q' & _)]; congruence.
  - exists (UDone (read_result buf0 pd)). cb. rewrite (upd_nth_same _ _ _ _ U). repeat split; auto.
    + rewrite usends_app, B. cbn. apply app_nil_r.
    + exists (es ++ [EDeliver pd]). rewrite E, <- app_assoc. split; auto. right. exists pd.
      split; [apply in_or_app; cbn; auto|]. rewrite Q. apply read_result_as.
  - exists (UDone RNotEstablished). cb. rewrite (upd_nth_same _ _ _ _ U). repeat split; auto. exists es. split; auto.
  - destruct Q.
  - destruct Q.
  - exists u. cb. repeat split; auto.
    + rewrite usends_app, B. match goal with X : _ \/ _ \/ _ |- _ => destruct X as [->|[->|(o & e & _ & ->)]] end; cbn; apply app_nil_r.
    + eexists. split; [rewrite E, <- app_assoc; reflexivity|]. destruct u; auto.
      destruct Q as [Q|(pd & Q1 & Q2)]; auto. right. exists pd. split; auto. apply in_or_app; auto.
Qed.
Lemma read_outcome c i op buf ls c' r : nth_error (us c) i = Some (UGo op) ->
  (exists b, op = OpRead b /\ buf = Some b) \/ (op = OpReadPD /\ buf = None) ->
  run c ls = Some c' -> nth_error (us c') i = Some (UDone r) ->
  usends i (log c') = usends i (log c) /\
  (r = RNotEstablished \/ exists es pd, log c' = log c ++ es /\ In (EDeliver pd) es /\ read_as buf pd r).
Proof.
  intros U Op R D. destruct (rphase_run c i op buf U Op ls c' R) as (u & U' & B & es & E & Q).
  rewrite D in U'. inversion U'; subst u. split; auto. destruct Q as [Q|(pd & Q1 & Q2)]; eauto 8.
Qed.
