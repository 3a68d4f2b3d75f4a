(** An established connection serves the traffic of its peer. *)
From Verif Require Import GoBase BaseProofs ParamsModel MessagesModel MessagesProofs MessagesProofs2 AccessorProofs ConfigModel
  ConnModel ConnSpec ConnBase ConnInv ConnTrace ConnUser ConnMacro ConnMore ConnStable ConnData ConnLive ConnPieces WorkSpec ConnWork ServeSpec.
From Coq Require Import Arith Lia Permutation.
Open Scope nat_scope.

(** ** What is still to be sent *)
Definition outb (m : m3ua) : list (list byte) := match wire m with Ok b => [b] | _ => [] end.
Definition errb (g : config) (e : cerr) : list (list byte) := match error_reply g e with Ok (Some m) => outb m | _ => [] end.
Definition todo_msg (g : config) (m : m3ua) : list (list byte) :=
  if supported m then match m with Typed t => match m_kind t with KHeartbeat => outb (beat_ack_of t) | _ => [] end | Gen _ => [] end
  else errb g (EUnsupportedMessage m).
Definition todo_raw (g : config) (raw : list byte) : list (list byte) := match Parse raw with Ok m => todo_msg g m | _ => [] end.
Definition todo1 (g : config) (x : instr) : list (list byte) :=
  match x with
  | IParse raw => todo_raw g raw
  | ISig m => todo_msg g m
  | IHandle t => match m_kind t with KHeartbeat => outb (beat_ack_of t) | _ => [] end
  | IWrite r => outb r
  | IErr e => errb g e
  | _ => []
  end.
Definition todo (g : config) (l : list instr) : list (list byte) := flat_map (todo1 g) l.
Definition tom (g : config) (m : mpc) : list (list byte) := match m with MErr _ e => errb g e | _ => [] end.

(** ** The invariant *)
Inductive tl : list instr -> Prop :=
| tl_nil : tl []
| tl_parse raw : traffic raw -> tl [IParse raw]
| tl_sig m : b2n (Version m) = 1%N -> traffic_msg m -> tl [ISig m]
| tl_cur : tl [ICur]
| tl_st : tl [ISt Active]
| tl_handle t : In (m_kind t) [KHeartbeat; KNotify; KError] -> tl [IHandle t; ICur]
| tl_write r : tl [IWrite r; ICur]
| tl_err m : tl [IErr (EUnsupportedMessage m); ICur].
Definition td (d : dpc) : Prop := match d with DErr _ => False | _ => True end.
Definition tm (m : mpc) : Prop :=
  match m with MSelect | MRead => True | MUpd s => s = Active | MErr (OHand _) (EUnsupportedMessage _) => True | _ => False end.

Record Sv (c0 : conn) (rs : list (list byte)) (c : conn) : Prop := {
  i_G : G c; i_cfg : cfg c = cfg c0; i_ini : ini c = false; i_dial : dial c = DOk; i_state : state c = Active; i_mon : tm (mon c);
  i_hs : Forall tl (hs c); i_ds : Forall td (ds c); i_inq : Forall traffic (inq c);
  i_read : exists rd, reads (log c) = reads (log c0) ++ rd /\ rd ++ inq c = rs /\
    own (log c) ++ tom (cfg c0) (mon c) ++ flat_map (todo (cfg c0)) (hs c) = own (log c0) ++ flat_map (todo_raw (cfg c0)) rd;
  i_busy : forall o e, mon c = MErr o e -> flat_map (todo (cfg c0)) (hs c) = [];
  i_ref : refused_data (log c) = refused_data (log c0) }.

Lemma traffic_good raw : traffic raw -> good_packet raw.
Proof.
  intros [L (m & V & T)]. split; [exact L|]. exists m. split; [exact V|]. destruct m as [t|g]; [|exact Logic.I]. cbn in T |- *. unfold decodable.
  destruct (m_kind t) eqn:K; split; try discriminate; intros; try discriminate; auto.
  all: unfold supported in T; rewrite K in T; discriminate.
Qed.
Lemma peaceful_good l : peaceful l -> good l.
Proof. destruct l; cbn; auto using traffic_good; destruct ok; auto. Qed.
Lemma own_app a b : own (a ++ b) = own a ++ own b. Proof. apply flat_map_app. Qed.

Lemma active c i x k : reachable c -> crash c = None -> nth_error (hs c) i = Some (x :: k) ->
  exists pre, hs c = pre ++ [x :: k] /\ dead pre /\ (forall l, upd (hs c) i l = pre ++ [l]) /\ idle (mon c).
Proof.
  intros R C N. destruct (Inv_reachable c R C) as (_ & _ & h & _ & _ & _ & _ & _ & T).
  assert (Dd : forall l, dead l -> nth_error l i = Some (x :: k) -> False).
  { intros l D E. apply (Forall_nth _ _ _ _ D) in E. discriminate. }
  destruct T as [? D ?|s ? D ?|? D ?|pre l raw ? E D ? Id ? ?|? D ?]; try solve [exfalso; eapply Dd; eauto].
  rewrite E in N. assert (i = length pre) as ->.
  { destruct (lt_eq_lt_dec i (length pre)) as [[L|L]|L]; auto; exfalso.
    - rewrite nth_error_app1 in N by lia. eapply Dd; eauto.
    - rewrite nth_error_app2 in N by lia. destruct (i - length pre) as [|[|]] eqn:F; [lia| |]; discriminate N. }
  rewrite nth_error_app2, Nat.sub_diag in N by lia. injection N as ->. exists pre. split; [exact E|]. split; [exact D|]. split; [|exact Id].
  intros l. rewrite E. apply upd_last.
Qed.
Lemma dead_todo g l : dead l -> flat_map (todo g) l = [].
Proof. induction 1 as [|x l -> _ IH]; [reflexivity|exact IH]. Qed.
Lemma read_dead c : reachable c -> crash c = None -> (mon c = MRead \/ exists s, mon c = MUpd s) -> dead (hs c) /\ ini c = false.
Proof.
  intros R C M. destruct (Inv_reachable c R C) as (_ & _ & h & _ & _ & _ & _ & _ & T).
  assert (Ni : ~ idle (mon c)) by (destruct M as [->|(s & ->)]; auto).
  destruct T; auto; contradiction.
Qed.
Lemma outb_ok m b : wire m = Ok b -> outb m = [b]. Proof. unfold outb. now intros ->. Qed.
Lemma own_hand i s m b : own [ESend (OHand i) s m b] = [b]. Proof. reflexivity. Qed.

(** steps that change neither the monitor nor the goroutines of packets *)
Lemma Sv_same c0 rs c c' es : Sv c0 rs c -> G c' -> cfg c' = cfg c -> ini c' = ini c -> dial c' = dial c -> state c' = state c ->
  mon c' = mon c -> hs c' = hs c -> Forall td (ds c') -> inq c' = inq c -> log c' = log c ++ es -> reads es = [] -> own es = [] ->
  refused_data es = [] -> Sv c0 rs c'.
Proof.
  intros [I1 I2 I3 I4 I5 I6 I7 I8 I9 (rd & I10 & I11 & I12) I13 I14] Gc E1 E2 E3 E4 E5 E6 E7 E8 E9 E10 E11 E12.
  constructor; try congruence.
  - exists rd. rewrite E9, reads_app, own_app, E10, E11, E8, E5, E6, !app_nil_r. auto.
  - rewrite E6, E5. exact I13.
  - rewrite E9, refused_app, E12, app_nil_r. exact I14.
Qed.
(** steps of the goroutine of a packet that send nothing *)
Lemma Sv_hand c0 rs c c' i x k l2 : reachable c -> crash c = None -> Sv c0 rs c -> G c' -> nth_error (hs c) i = Some (x :: k) ->
  cfg c' = cfg c -> ini c' = ini c -> dial c' = dial c -> state c' = state c ->
  mon c' = mon c -> hs c' = upd (hs c) i l2 -> Forall td (ds c') -> inq c' = inq c -> log c' = log c -> tl l2 ->
  todo (cfg c0) l2 = todo (cfg c0) (x :: k) -> Sv c0 rs c'.
Proof.
  intros R C [I1 I2 I3 I4 I5 I6 I7 I8 I9 (rd & I10 & I11 & I12) I13 I14] Gc N E1 E2 E3 E4 E5 E6 E7 E8 E9 T E10.
  destruct (active c i x k R C N) as (pre & Eh & D & U & Id). rewrite U in E6.
  assert (Em : flat_map (todo (cfg c0)) (hs c') = flat_map (todo (cfg c0)) (hs c)).
  { rewrite E6, Eh, !flat_map_app. cbn [flat_map]. now rewrite E10. }
  constructor; try congruence.
  - rewrite E6. rewrite Eh in I7. apply Forall_app in I7 as [I7 _]. apply Forall_app. auto.
  - exists rd. rewrite E9, E5, E8, Em. auto.
  - rewrite Em, E5. exact I13.
Qed.
Lemma tl_inv x k : tl (x :: k) ->
  match x with
  | IParse raw => k = [] /\ traffic raw
  | ISig m => k = [] /\ b2n (Version m) = 1%N /\ traffic_msg m
  | IHandle t => k = [ICur] /\ In (m_kind t) [KHeartbeat; KNotify; KError]
  | IWrite _ => k = [ICur]
  | IErr e => k = [ICur] /\ exists m, e = EUnsupportedMessage m
  | IBeatAck => False
  | ICur => k = []
  | ISt s => k = [] /\ s = Active
  end.
Proof. intros H. inversion H; subst; eauto. Qed.
Lemma tl_plan g m : traffic_msg m -> tl (snd (plan m)) /\ todo g (snd (plan m)) = todo g [ISig m].
Proof.
  intros T. destruct m as [t|h].
  - cbn in T. unfold plan, todo, todo1, todo_msg, supported in *. destruct (m_kind t) eqn:K; cbn [snd flat_map]; rewrite ?K, ?app_nil_r;
      try discriminate; (split; [|reflexivity]); try apply tl_cur; try apply tl_err; apply tl_handle; rewrite K; cbn; auto.
  - cbn [plan snd]. split; [apply tl_err|]. reflexivity.
Qed.
Lemma own_user es : (forall e, In e es -> match e with ESend (OUser _) _ _ _ | EDeliver _ => True | _ => False end) ->
  own es = [] /\ reads es = [] /\ refused_data es = [].
Proof.
  induction es as [|e es IH]; intros H; [auto|]. destruct IH as (A & B & D); [intros; apply H; now right|].
  specialize (H e (or_introl eq_refl)). unfold own, reads, refused_data in *. cbn [flat_map].
  destruct e as [| |o ? ? ?| | |]; try contradiction; [destruct o; try contradiction|]; cbn [app]; auto.
Qed.

Lemma Sv_step c0 rs c l c' : reachable c -> Sv c0 rs c -> peaceful l -> crash c = None -> stepR c l c' -> crash c' = None ->
  Sv c0 (rs ++ match l with LArrive p => [p] | _ => [] end) c'.
Proof.
  intros R I P C S C'. pose proof I as [I1 I2 I3 I4 I5 I6 I7 I8 I9 (rd & I10 & I11 & I12) I13 I14].
  assert (Gc : G c').
  { eapply G_step; eauto using peaceful_good. intros s E. rewrite E in I6. cbn in I6. subst s. unfold ranged; auto. }
  pose proof I1 as (So & Cx & Cl & Hb & Us & Q & H & M & D & A).
  assert (Hn : forall i x k, nth_error (hs c) i = Some (x :: k) -> tl (x :: k)) by (intros; eapply Forall_nth; eauto).
  assert (Wt : forall m ok, ok = true -> (forall b, wire m = Ok b -> ok && sopen c = false) -> False).
  { intros m ok -> E. destruct (wire_total m) as [b W]. specialize (E b W). rewrite So in E. discriminate. }
  assert (Dn : forall i d, td d -> Forall td (upd (ds c) i d)) by (intros; now apply Forall_upd).
  assert (Hh : forall i x k l2 c2, nth_error (hs c) i = Some (x :: k) -> G c2 ->
    cfg c2 = cfg c -> ini c2 = ini c -> dial c2 = dial c -> state c2 = state c ->
    mon c2 = mon c -> hs c2 = upd (hs c) i l2 -> Forall td (ds c2) -> inq c2 = inq c -> log c2 = log c -> tl l2 ->
    todo (cfg c0) l2 = todo (cfg c0) (x :: k) -> Sv c0 rs c2) by (intros; eapply Sv_hand; eauto).
  destruct S; cbn [app]; rewrite ?app_nil_r;
    try solve [exfalso; cbn in P; congruence || contradiction];
    try solve [eapply Sv_same with (es := []); eauto; cb; rewrite ?app_nil_r; auto];
    try solve [eapply Sv_same with (es := [ESend (OUser i) _ _ _]); eauto; cb; auto].
  - (* S_arrive *) constructor; cb; auto.
    + apply Forall_app. auto.
    + exists rd. rewrite app_assoc, I11. auto.
  - (* S_err_send *) rewrite H0 in *. cbn [tm] in I6. destruct o, e; try contradiction.
    pose proof (I13 _ _ eq_refl) as Z. rewrite Z, app_nil_r in I12. cbn [tom] in I12. unfold errb in I12. rewrite <- I2, H1, (outb_ok _ _ H2), I2 in I12.
    constructor; cb; auto; try exact Logic.I.
    + exists rd. rewrite !reads_app, !own_app. cbn [reads flat_map own app]. rewrite !app_nil_r, Z. cbn [tom app]. rewrite !app_nil_r. auto.
    + rewrite !refused_app. cbn. now rewrite !app_nil_r.
  - (* S_err_close *) exfalso. rewrite H0 in *. cbn [tm] in I6. destruct o, e; try contradiction.
    destruct (first40_total m) as (b & _ & F). destruct ok; [|contradiction P].
    assert (exists r, error_reply (cfg c) (EUnsupportedMessage m) = Ok (Some r)) as [r Er] by (cbn; rewrite F; cbn; eauto).
    destruct (wire_total r) as [w W]. specialize (H1 r w Er W). rewrite So in H1. discriminate.
  - (* S_upd *) rewrite H0 in *. cbn [tm] in I6. subst s. rewrite state_update_eq in *. unfold upd_mon in *. rewrite I5 in *. cbn [st_eqb] in *.
    constructor; cb; auto; try exact Logic.I.
    + exists rd. rewrite reads_app, own_app. cbn [reads own flat_map app]. rewrite !app_nil_r. auto.
    + discriminate.
    + rewrite refused_app. cbn. now rewrite app_nil_r.
  - rewrite H0 in I6. contradiction.
  - rewrite H0 in I6. contradiction.
  - (* S_read *) rewrite H2 in *. inversion I9 as [|? ? Tp Tq]; subst. destruct (firstn_good p (traffic_good p Tp)) as [Ef Es]. rewrite Ef, Es in *.
    destruct (read_dead c R C (or_introl H0)) as [Dd _].
    constructor; cb; auto; try exact Logic.I.
    + apply Forall_app. split; auto. constructor; [now apply tl_parse|constructor].
    + exists (rd ++ [p]). rewrite reads_app, I10, own_app, <- !app_assoc. cbn [reads own flat_map app tom]. split; [reflexivity|]. split; [reflexivity|].
      rewrite flat_map_app, (dead_todo _ _ Dd) in *. rewrite H0 in I12. cbn [tom app] in I12. rewrite app_nil_r in I12. rewrite I12.
      rewrite flat_map_app, <- app_assoc. cbn [flat_map app todo todo1]. now rewrite !app_nil_r.
    + discriminate.
    + rewrite refused_app. cbn. now rewrite app_nil_r.
  - (* S_read_fail *) exfalso. destruct ok; [|contradiction P]. rewrite So in H1. discriminate.
  - rewrite H0 in I6. contradiction.
  - (* S_parse *) destruct (tl_inv _ _ (Hn _ _ _ H0)) as (-> & L & m' & [Pa V] & T). assert (m' = m) as -> by congruence.
    refine (Hh _ _ _ ([ISig m]) _ H0 Gc eq_refl eq_refl eq_refl eq_refl eq_refl eq_refl I8 eq_refl eq_refl _ _); [now apply tl_sig|]. unfold todo, todo1, todo_raw. cbn [flat_map]. now rewrite H1.
  - exfalso. destruct (tl_inv _ _ (Hn _ _ _ H0)) as (-> & L & m' & [Pa V] & T). congruence.
  - exfalso. destruct (tl_inv _ _ (Hn _ _ _ H0)) as (-> & V & T). congruence.
  - destruct (tl_inv _ _ (Hn _ _ _ H0)) as (-> & V & T). destruct (tl_plan (cfg c0) m T) as [P1 P2]. rewrite H3 in *. cbn [snd] in *. refine (Hh _ _ _ (l) _ H0 Gc eq_refl eq_refl eq_refl eq_refl eq_refl eq_refl I8 eq_refl eq_refl _ _); auto.
  - destruct (tl_inv _ _ (Hn _ _ _ H0)) as (-> & V & T). destruct (tl_plan (cfg c0) m T) as [P1 P2]. rewrite H3 in *. cbn [snd] in *. refine (Hh _ _ _ (l) _ H0 Gc eq_refl eq_refl eq_refl eq_refl eq_refl eq_refl _ eq_refl eq_refl _ _); auto.
    cb. apply Forall_app. split; auto. repeat constructor.
  - (* S_handle_nil *) destruct (tl_inv _ _ (Hn _ _ _ H0)) as (-> & K). refine (Hh _ _ _ ([ICur]) _ H0 Gc eq_refl eq_refl eq_refl eq_refl eq_refl eq_refl I8 eq_refl eq_refl _ _); [apply tl_cur|].
    unfold handle in H2. rewrite I5 in H2. unfold todo, todo1. cbn [flat_map]. destruct K as [K|[K|[K|[]]]]; rewrite <- K in *; [discriminate| |]; reflexivity.
  - exfalso. destruct (tl_inv _ _ (Hn _ _ _ H0)) as (-> & K). unfold handle in H2. rewrite I5 in H2. destruct K as [K|[K|[K|[]]]]; rewrite <- K in *; discriminate.
  - destruct (tl_inv _ _ (Hn _ _ _ H0)) as (-> & K). refine (Hh _ _ _ ([IWrite r; ICur]) _ H0 Gc eq_refl eq_refl eq_refl eq_refl eq_refl eq_refl I8 eq_refl eq_refl _ _); [apply tl_write|].
    unfold handle in H2. rewrite I5 in H2. unfold todo, todo1. cbn [flat_map]. destruct K as [K|[K|[K|[]]]]; rewrite <- K in *; try discriminate.
    cbn in H2. now injection H2 as <-.
  - (* S_hwrite *) pose proof (tl_inv _ _ (Hn _ _ _ H0)) as K. cbn in K. subst k. destruct (active c i _ _ R C H0) as (pre & Eh & Dd & U & Id).
    assert (Nm : forall o e, mon c <> MErr o e).
    { intros o e E. apply I13 in E. rewrite Eh, flat_map_app in E. apply app_eq_nil in E as [_ E]. cbn in E. rewrite (outb_ok _ _ H1) in E. discriminate. }
    assert (Tm : tom (cfg c0) (mon c) = []) by (destruct (mon c); try reflexivity; exfalso; eapply Nm; reflexivity).
    constructor; cb; auto.
    + rewrite U. rewrite Eh in I7. apply Forall_app in I7 as [I7 _]. apply Forall_app. split; auto. repeat constructor.
    + exists rd. rewrite reads_app, own_app, U, Tm. rewrite Tm, Eh in I12. rewrite !flat_map_app, (dead_todo _ _ Dd) in *.
      cbn [reads own todo todo1 flat_map app] in *. rewrite (outb_ok _ _ H1) in I12. cbn [app] in I12. rewrite !app_nil_r. auto.
    + intros o e E. exfalso. eapply Nm; eauto.
    + rewrite refused_app. cbn. now rewrite app_nil_r.
  - exfalso. destruct ok; [|contradiction P]. apply (Wt _ true eq_refl H1).
  - (* S_herr *) destruct (tl_inv _ _ (Hn _ _ _ H0)) as (-> & m & ->). destruct (active c i _ _ R C H0) as (pre & Eh & Dd & U & Id).
    constructor; cb; auto; try exact Logic.I.
    + rewrite U. rewrite Eh in I7. apply Forall_app in I7 as [I7 _]. apply Forall_app. split; auto. repeat constructor.
    + exists rd. rewrite U. rewrite H1, Eh in I12. rewrite !flat_map_app, (dead_todo _ _ Dd) in *. cbn [tom todo todo1 flat_map app] in *.
      rewrite !app_nil_r in *. auto.
    + intros o e _. rewrite U, flat_map_app, (dead_todo _ _ Dd). reflexivity.
  - exfalso. exact (tl_inv _ _ (Hn _ _ _ H0)).
  - (* S_cur *) pose proof (tl_inv _ _ (Hn _ _ _ H0)) as K. cbn in K. subst k. refine (Hh _ _ _ ([ISt (state c)]) _ H0 Gc eq_refl eq_refl eq_refl eq_refl eq_refl eq_refl I8 eq_refl eq_refl _ _); [rewrite I5; apply tl_st|reflexivity].
  - (* S_st *) destruct (tl_inv _ _ (Hn _ _ _ H0)) as (-> & ->). destruct (active c i _ _ R C H0) as (pre & Eh & Dd & U & Id).
    constructor; cb; auto; try exact Logic.I; try reflexivity.
    + rewrite U. rewrite Eh in I7. apply Forall_app in I7 as [I7 _]. apply Forall_app. split; auto. repeat constructor.
    + exists rd. rewrite U. rewrite H1, Eh in I12. rewrite !flat_map_app, (dead_todo _ _ Dd) in *. cbn [tom todo todo1 flat_map app] in *. auto.
    + discriminate.
  - exfalso. apply (Forall_nth _ _ _ _ I8) in H0. exact H0.
  - exfalso. pose proof (Forall_nth _ _ _ _ D H0) as (q' & pd & E1 & E2). congruence.
  - (* S_hb_rand *) eapply Sv_same with (es := []); eauto; destruct (hba c); cb; rewrite ?app_nil_r; auto.
  - eapply Sv_same with (es := [ESend OHb 0 (beat d) b]); eauto; cb; auto.
  - exfalso. apply (Forall_nth _ _ _ _ Us) in H0. congruence.
  - eapply Sv_same with (es := [EDeliver pd]); eauto; cb; auto.
  - discriminate C'.
Qed.

Lemma G_serving c : reachable c -> serving c -> G c.
Proof.
  intros R [A B St M Q (Cl & So & Cx) D Hb U]. destruct (read_dead c R A (or_introl M)) as [Dd _]. unfold G. rewrite Q, M.
  split; [exact So|]. split; [exact Cx|]. split; [exact Cl|]. split; [exact Hb|]. split; [exact U|]. split; [constructor|].
  split; [eapply Forall_impl; [|exact Dd]; intros ? ->; constructor|]. split; [exact Logic.I|].
  split; [eapply Forall_impl; [|exact D]; intros ? ->; exact Logic.I|]. right. left. rewrite M. exact Logic.I.
Qed.
Lemma Sv_start c : reachable c -> serving c -> Sv c [] c.
Proof.
  intros R V. pose proof (G_serving c R V) as Gc. destruct V as [A B St M Q (Cl & So & Cx) D Hb U].
  destruct (read_dead c R A (or_introl M)) as [Dd Ii]. constructor; auto.
  - rewrite M. exact Logic.I.
  - eapply Forall_impl; [|exact Dd]. intros ? ->. constructor.
  - eapply Forall_impl; [|exact D]. intros ? ->. exact Logic.I.
  - rewrite Q. constructor.
  - exists []. rewrite Q, M, (dead_todo _ _ Dd), !app_nil_r. auto.
  - rewrite M. discriminate.
Qed.

Lemma arrivals_app a b : arrivals (a ++ b) = arrivals a ++ arrivals b. Proof. apply flat_map_app. Qed.
Lemma Sv_run c ls c' : reachable c -> serving c -> run c ls = Some c' -> Forall peaceful ls -> crash c' = None -> Sv c (arrivals ls) c'.
Proof.
  intros R V. revert c'. induction ls as [|l ls IH] using rev_ind; intros c' Ru F C.
  - inversion Ru; subst. now apply Sv_start.
  - apply Forall_app in F as [F1 F2]. inversion F2 as [|? ? F3 _]; subst. rewrite run_app in Ru. destruct (run c ls) as [a|] eqn:Ra; [|discriminate].
    cbn [run] in Ru. destruct (step a l) as [b|] eqn:S; [|discriminate]. inversion Ru; subst b. destruct (step_stepR _ _ _ S) as [Ca S'].
    rewrite arrivals_app. cbn [arrivals flat_map]. rewrite app_nil_r.
    exact (Sv_step c (arrivals ls) a l c' (reachable_run _ _ _ R Ra) (IH a eq_refl F1 Ca) F3 Ca S' C).
Qed.
Lemma serve_crash c ls c' p : reachable c -> serving c -> run c ls = Some c' -> Forall peaceful ls -> crash c' = Some p -> p = PIntn /\ maxs c = 0%N.
Proof.
  intros R V. destruct ls as [|l ls _] using rev_ind; intros Ru F C; [inversion Ru; subst; destruct V; congruence|].
  apply Forall_app in F as [F _]. rewrite run_app in Ru. destruct (run c ls) as [a|] eqn:Ra; [|discriminate].
  cbn [run] in Ru. destruct (step a l) as [b|] eqn:S; [|discriminate]. inversion Ru; subst b.
  destruct (step_stepR _ _ _ S) as [Ca _]. pose proof (i_G _ _ _ (Sv_run c ls a R V Ra F Ca)) as (So & Cx & Cl & Hb & U & Q & H & M & D & A).
  assert (Re : reachable a) by (eapply reachable_run; eauto).
  destruct (crash_sources a l c' p Re Cl S C) as (i & [(_ & t & k & N & K & _)|[(_ & t & N & _ & K)|(-> & K & _)]]).
  - pose proof (Forall_nth _ _ _ _ H N) as Gl. apply gl_inv in Gl. destruct Gl. congruence.
  - pose proof (Forall_nth _ _ _ _ D N) as (q & pd & E & _). congruence.
  - split; auto. rewrite <- K. symmetry. apply (static_run _ _ _ Ra).
Qed.

(** ** Everything is done in the end *)
Definition settled_d (full : bool) (d : dpc) : bool := match d with DDone => true | DSend _ => full | _ => false end.
Definition full (c : conn) : bool := (data_cap <=? N.of_nat (length (dq c)))%N.
Definition finished (c : conn) : Prop := mon c = MRead /\ inq c = [] /\ forallb (settled_d (full c)) (ds c) = true.

Lemma forallb_not {A} (f : A -> bool) l : forallb f l = true \/ exists i x, nth_error l i = Some x /\ f x = false.
Proof.
  induction l as [|x l [IH|(i & y & N & E)]]; [left; reflexivity| |right; exists (S i), y; auto].
  cbn [forallb]. rewrite IH. destruct (f x) eqn:E; [left; reflexivity|right; exists 0, x; auto].
Qed.
Lemma moves c0 rs c : reachable c -> crash c = None -> Sv c0 rs c ->
  finished c \/ exists l c', inner l = true /\ peaceful l /\ step c l = Some c' /\ crash c' = None.
Proof.
  intros R C V. pose proof V as [I1 I2 I3 I4 I5 I6 I7 I8 I9 _ I13 _].
  destruct (progress c R C I1) as [[M|[M _]]|(l & c' & Il & S & C' & _)].
  2: { rewrite M in I6. contradiction. }
  2: { right. exists l, c'. split; [|split; [|split; [apply stepR_step; auto|exact C']]]; destruct l; try contradiction; try reflexivity; destruct ok; try contradiction; exact Logic.I. }
  pose proof I1 as (So & Cx & Cl & Hb & Us & Q & H & Mm & D & A).
  assert (Un : unlocked c = true) by (unfold unlocked; now rewrite M).
  assert (Go : forall l c2, stepR c l c2 -> inner l = true -> peaceful l -> crash c2 = None ->
    exists l0 c', inner l0 = true /\ peaceful l0 /\ step c l0 = Some c' /\ crash c' = None).
  { intros l c2 S E P C2. exists l, c2. split; [exact E|]. split; [exact P|]. split; [apply stepR_step; auto|exact C2]. }
  destruct (inq c) as [|p q] eqn:Eq.
  - destruct (forallb_not (settled_d (full c)) (ds c)) as [F|(i & d & N & F)]; [left; repeat split; auto|]. right.
    pose proof (Forall_nth _ _ _ _ D N) as Gd. pose proof (Forall_nth _ _ _ _ I8 N) as Td. destruct d as [t|t|e|pd|]; cbn in F, Gd, Td; try discriminate; try contradiction.
    + eapply Go; [eapply S_dcheck; eauto|reflexivity|exact Logic.I|exact C].
    + destruct Gd as (q & pd & E1 & E2). eapply Go; [eapply S_dpd; eauto|reflexivity|exact Logic.I|exact C].
    + eapply Go; [eapply S_dsend; eauto|reflexivity|exact Logic.I|exact C]. unfold full in F. apply N.leb_gt in F. exact F.
  - right. eapply Go; [eapply S_read; eauto|reflexivity|exact Logic.I|exact C].
Qed.
Lemma rest_finished c0 rs c : reachable c -> crash c = None -> Sv c0 rs c -> at_rest c -> finished c.
Proof. intros R C V A. destruct (moves c0 rs c R C V) as [F|(l & c' & E & P & S & _)]; [exact F|]. rewrite (A l E P) in S. discriminate. Qed.

Lemma errb_ok g m : exists r b, ConnSpec.answers g (EUnsupportedMessage m) r /\ encodes r b /\ errb g (EUnsupportedMessage m) = [b].
Proof.
  destruct (first40_total m) as (w & Ew & F). unfold errb. cbn [error_reply]. rewrite F. cbn [bind].
  match goal with |- context [outb ?r] => destruct (wire_total r) as [b W]; exists r, b end.
  split; [now apply AN_unsupported|]. split; [now apply wire_encodes|now apply outb_ok].
Qed.
Lemma served_todo g rs : Forall traffic rs -> served g rs (flat_map (todo_raw g) rs).
Proof.
  induction 1 as [|raw rs [L (m & V & T)] _ IH]; [constructor|]. cbn [flat_map]. unfold todo_raw at 1. rewrite (proj1 V). unfold todo_msg.
  destruct (supported m) eqn:Su.
  - destruct m as [t|h]; [|discriminate]. cbn in T. destruct (m_kind t) eqn:K; try (unfold supported in *; rewrite K in *; discriminate);
      try (eapply SV_silent; [exact V|rewrite K; cbn; auto|exact IH]).
    destruct (wire_total (beat_ack_of t)) as [b W]. rewrite (outb_ok _ _ W). cbn [app]. eapply SV_beat; eauto using wire_encodes.
  - destruct (errb_ok g m) as (r & b & A & E & ->). cbn [app]. eapply SV_unsupported; eauto.
Qed.
Lemma arrivals_traffic ls : Forall peaceful ls -> Forall traffic (arrivals ls).
Proof. induction 1 as [|l ls P _ IH]; [constructor|]. cbn [arrivals flat_map]. destruct l; try exact IH. constructor; auto. Qed.

Lemma finished_ds c : forallb (settled_d (full c)) (ds c) = true ->
  flat_map in_data (ds c) = waiting (ds c) /\ ((N.of_nat (length (dq c)) < data_cap)%N -> Forall (fun d => d = DDone) (ds c)).
Proof.
  intros F. rewrite forallb_forall in F. split.
  - unfold waiting. induction (ds c) as [|d l IH]; [reflexivity|]. cbn [flat_map]. rewrite IH by (intros; apply F; now right).
    specialize (F d (or_introl eq_refl)). destruct d; try discriminate; reflexivity.
  - intros L. apply Forall_forall. intros d I. specialize (F d I). unfold full in F. destruct d; cbn in F; try discriminate; auto.
    apply N.leb_le in F. lia.
Qed.

Lemma all_served c ls c' : reachable c -> serving c -> run c ls = Some c' -> Forall peaceful ls -> crash c' = None -> finished c' ->
  all_done c (arrivals ls) c'.
Proof.
  intros R V Ru F C (M & Eq & Fd). pose proof (Sv_run c ls c' R V Ru F C) as [I1 I2 I3 I4 I5 I6 I7 I8 I9 (rd & I10 & I11 & I12) I13 I14].
  assert (R' : reachable c') by (eapply reachable_run; eauto). destruct (read_dead c' R' C (or_introl M)) as [Dd _].
  rewrite Eq, app_nil_r in I11. subst rd. constructor; [exact I10| |].
  - rewrite M, (dead_todo _ _ Dd) in I12. cbn [tom app] in I12. rewrite app_nil_r in I12. exists (flat_map (todo_raw (cfg c)) (arrivals ls)).
    split; [exact I12|]. apply served_todo. now apply arrivals_traffic.
  - destruct (log_prefix c ls c' Ru) as [es El]. exists (delivered es). rewrite El, delivered_app. split; [reflexivity|].
    destruct (finished_ds c' Fd) as [W1 W2]. split.
    + destruct V as [A B St Mo Q (Cl & So & Cx) D Hb U]. destruct I1 as (_ & Cx' & _).
      pose proof (accounting c R A Cx) as P0. pose proof (accounting c' R' C Cx') as P1. destruct (read_dead c R A (or_introl Mo)) as [Dc _].
      assert (Hd : forall l, dead l -> flat_map in_hand l = []) by (intros l X; induction X as [|x l -> _ IH]; [reflexivity|exact IH]).
      assert (Fl : flat_map in_data (ds c) = []) by (clear - D; induction D as [|x l -> _ IH]; [reflexivity|exact IH]).
      unfold in_flight in P0, P1. rewrite Mo, (Hd _ Dc), Fl in P0. rewrite M, (Hd _ Dd), W1 in P1. cbn [in_mon app] in P0, P1.
      rewrite I14, I10, El, delivered_app, flat_map_app in P1. rewrite !app_nil_r in P0.
      apply cnt_perm. intros x. apply (Permutation_count_occ pd_dec) with (x := x) in P0. apply (Permutation_count_occ pd_dec) with (x := x) in P1.
      unfold cnt. rewrite !count_occ_app in *. lia.
    + intros L. specialize (W2 L). clear - W2. unfold waiting. induction W2 as [|x l -> _ IH]; [reflexivity|exact IH].
Qed.
Lemma stays_up c ls c' : reachable c -> serving c -> run c ls = Some c' -> Forall peaceful ls -> crash c' = None ->
  state c' = Active /\ dial c' = DOk /\ closed c' = false /\ sopen c' = true /\ ctxd c' = false.
Proof. intros R V Ru F C. pose proof (Sv_run c ls c' R V Ru F C) as I. destruct (i_G _ _ _ I) as (So & Cx & Cl & _). destruct I. auto. Qed.

(** ... from wherever such a run has come to, without any further event *)
Lemma gets_done c ls c' : reachable c -> serving c -> run c ls = Some c' -> Forall peaceful ls -> crash c' = None ->
  exists ls' c'', run c' ls' = Some c'' /\ forallb inner ls' = true /\ Forall peaceful ls' /\ crash c'' = None /\ finished c''.
Proof.
  intros R V Ru F C. destruct (alone_rests c') as [n Bd].
  assert (K : forall k, (exists ls' c'', run c' ls' = Some c'' /\ forallb inner ls' = true /\ Forall peaceful ls' /\ crash c'' = None /\ finished c'') \/
    exists ls' c'', run c' ls' = Some c'' /\ forallb inner ls' = true /\ Forall peaceful ls' /\ crash c'' = None /\ length ls' = k).
  { induction k as [|k [IH|(l2 & c2 & R2 & F2 & P2 & C2 & L2)]]; [right; exists [], c'; cbn; auto|left; exact IH|].
    assert (Ru2 : run c (ls ++ l2) = Some c2) by (rewrite run_app, Ru; exact R2).
    assert (P2' : Forall peaceful (ls ++ l2)) by (apply Forall_app; auto).
    pose proof (Sv_run c (ls ++ l2) c2 R V Ru2 P2' C2) as I.
    destruct (moves _ _ c2 (reachable_run _ _ _ R Ru2) C2 I) as [Fi|(l & c3 & E & P & S & C3)].
    - left. exists l2, c2. auto.
    - right. exists (l2 ++ [l]), c3. rewrite run_app, R2. cbn [run]. rewrite S. split; [reflexivity|]. rewrite forallb_app, F2. cbn. rewrite E.
      split; [reflexivity|]. split; [apply Forall_app; auto|]. split; [exact C3|]. rewrite app_length. cbn. lia. }
  destruct (K (S n)) as [X|(l2 & c2 & R2 & F2 & _ & _ & L2)]; [exact X|]. specialize (Bd l2 c2 R2 F2). lia.
Qed.
Lemma gets_served c ls c' : reachable c -> serving c -> run c ls = Some c' -> Forall peaceful ls -> crash c' = None ->
  exists ls' c'', run c' ls' = Some c'' /\ forallb inner ls' = true /\ Forall peaceful ls' /\ crash c'' = None /\ all_done c (arrivals ls) c''.
Proof.
  intros R V Ru F C. destruct (gets_done c ls c' R V Ru F C) as (ls' & c2 & R2 & F2 & P2 & C2 & Fi). exists ls', c2. repeat (split; [assumption|]).
  assert (E : arrivals ls = arrivals (ls ++ ls')).
  { rewrite arrivals_app. replace (arrivals ls') with (@nil (list byte)); [now rewrite app_nil_r|]. clear - F2.
    induction ls' as [|l ls' IH]; [reflexivity|]. cbn [forallb] in F2. apply andb_true_iff in F2 as [E F2]. destruct l; try discriminate; exact (IH F2). }
  rewrite E. apply all_served; auto. - rewrite run_app, Ru. exact R2. - apply Forall_app; auto.
Qed.
Lemma rest_served c ls c' : reachable c -> serving c -> run c ls = Some c' -> Forall peaceful ls -> crash c' = None -> at_rest c' ->
  all_done c (arrivals ls) c'.
Proof. intros R V Ru F C A. apply all_served; auto. eapply rest_finished; eauto using Sv_run. eapply reachable_run; eauto. Qed.
