(** Reception stays alive on valid traffic. *)
From Verif Require Import GoBase BaseProofs ParamsModel MessagesModel MessagesProofs MessagesProofs2 AccessorProofs ConfigModel
  ConnModel ConnSpec ConnBase ConnInv ConnTrace ConnUser ConnMacro ConnMore ConnStable.
From Coq Require Import Arith Lia.
Open Scope nat_scope.

(** ** The executions considered *)
Definition decodable (t : msg) : Prop := exists q pd, fget FProtocolData (m_f t) = Some q /\ ProtocolData q = Ok pd.
(** not a BEAT ACK; a DATA message has a Protocol Data *)
Definition good_msg (m : m3ua) : Prop :=
  match m with Typed t => m_kind t <> KHeartbeatAck /\ (m_kind t = KData -> decodable t) | Gen _ => True end.
Definition good_packet (raw : list byte) : Prop := length raw <= 1500 /\ exists m, valid raw m /\ good_msg m.
(** no cancellation, no failing system call of the library's own goroutines, no timer, no Close *)
Definition good (l : label) : Prop :=
  match l with
  | LArrive raw => good_packet raw
  | LCancel | LMon false | LHand _ false | LHb false | LHbTimer | LDialTimeout | LCall OpClose => False
  | _ => True
  end.

(** ** The invariant *)
Definition good_err (e : cerr) : Prop :=
  match e with EUnsupportedMessage _ | EUnexpected _ => True | _ => False end.
Definition tail (k : list instr) : Prop := (exists s, k = [ISt s]) \/ k = [ICur].
Inductive gl : list instr -> Prop :=
| gl_nil : gl []
| gl_parse raw : good_packet raw -> gl [IParse raw]
| gl_sig m : b2n (Version m) = 1%N -> good_msg m -> gl [ISig m]
| gl_tail k : tail k -> gl k
| gl_handle t k : m_kind t <> KHeartbeatAck -> tail k -> gl (IHandle t :: k)
| gl_write r k : tail k -> gl (IWrite r :: k)
| gl_err e k : good_err e -> tail k -> gl (IErr e :: k).
Definition gd (d : dpc) : Prop :=
  match d with DCheck t | DPd t => decodable t | DErr e => good_err e | _ => True end.
Definition gm (m : mpc) : Prop :=
  match m with MErr _ e => good_err e | MClose | MExit => False | _ => True end.
Definition busy (m : mpc) : Prop := match m with MUpd _ | MInit _ | MEst | MRead => True | _ => False end.
Definition alive (c : conn) : Prop :=
  ini c = true \/ busy (mon c) \/ exists i x k, nth_error (hs c) i = Some (x :: k).
Definition G (c : conn) : Prop :=
  sopen c = true /\ ctxd c = false /\ closed c = false /\ (forall e, hb c <> BErr e) /\ Forall (fun u => u <> UGo OpClose) (us c) /\
  Forall good_packet (inq c) /\ Forall gl (hs c) /\ gm (mon c) /\ Forall gd (ds c) /\ alive c.

Lemma tail_cons k : tail k -> exists x k', k = x :: k'.
Proof. intros [[s ->]| ->]; eauto. Qed.
Lemma tail_gl k : tail k -> gl k. Proof. apply gl_tail. Qed.
Lemma gl_inv x k : gl (x :: k) ->
  match x with
  | IParse raw => k = [] /\ good_packet raw
  | ISig m => k = [] /\ b2n (Version m) = 1%N /\ good_msg m
  | IHandle t => m_kind t <> KHeartbeatAck /\ tail k
  | IWrite _ => tail k
  | IErr e => good_err e /\ tail k
  | IBeatAck => False
  | ICur | ISt _ => k = []
  end.
Proof. intros H. inversion H; subst; auto. destruct H0 as [[s E]|E]; injection E as -> ->; auto. Qed.
Lemma gl_plan m : good_msg m -> gl (snd (plan m)) /\ snd (plan m) <> [].
Proof.
  intros M. shapes m; rewrite P; cbn [snd]; (split; [|discriminate]).
  - apply gl_tail. right. auto.
  - apply gl_handle; [subst m; apply M|left; eauto].
  - apply gl_handle; [subst m; apply M|right; auto].
  - subst m. destruct M as [M _]. contradiction.
  - apply gl_err; [exact I|right; auto].
Qed.
Lemma handle_good_err g d s t e : handle g d s t = HErr e -> good_err e.
Proof.
  unfold handle, stream_check. change (negb (StreamID =? 0)%N) with false.
  destruct (m_kind t); repeat (match goal with |- (if ?b then _ else _) = _ -> _ => destruct b | |- match ?b with _ => _ end = _ -> _ => destruct b end);
    intros E; inversion E; exact I.
Qed.
Lemma firstn_good raw : good_packet raw -> firstn bufsize raw = raw /\ skipn bufsize raw = [].
Proof. intros [L _]. split; [apply firstn_all2|apply skipn_all2]; exact L. Qed.

Lemma G_step c l c' : G c -> (forall s, mon c = MUpd s -> ranged s) -> good l -> crash c = None -> stepR c l c' -> crash c' = None -> G c'.
Proof.
  intros (So & Cx & Cl & Hb & U & Q & H & M & D & A) Rs Gl C S C'.
  assert (Live : forall i x k c2, nth_error (hs c) i = Some (x :: k) -> forall l2, l2 <> [] -> hs c2 = upd (hs c) i l2 -> alive c2).
  { intros i x k c2 N [|y k'] Ne E; [congruence|]. right. right. exists i, y, k'. rewrite E. eapply upd_nth_same; eauto. }
  assert (Hn : forall i x k, nth_error (hs c) i = Some (x :: k) -> gl (x :: k)) by (intros; eapply Forall_nth; eauto).
  assert (Dn : forall i d, nth_error (ds c) i = Some d -> gd d) by (intros; eapply Forall_nth; eauto).
  assert (Hu : forall i l, gl l -> Forall gl (upd (hs c) i l)) by (intros; now apply Forall_upd).
  assert (Du : forall i d, gd d -> Forall gd (upd (ds c) i d)) by (intros; now apply Forall_upd).
  assert (Uu : forall (i : nat) u, u <> UGo OpClose -> Forall (fun u => u <> UGo OpClose) (upd (us c) i u)) by (intros; now apply Forall_upd).
  assert (Wt : forall m ok, ok = true -> (forall b, wire m = Ok b -> ok && sopen c = false) -> False).
  { intros m ok -> E. destruct (wire_total m) as [b W]. specialize (E b W). rewrite So in E. discriminate. }
  assert (Nt : forall k, tail k -> k <> []) by (intros k [[s ->]| ->]; discriminate).
  assert (Al : forall m2 c2, mon c = m2 -> ~ busy m2 -> ini c2 = ini c -> hs c2 = hs c -> alive c2).
  { intros m2 c2 <- B E1 E2. destruct A as [A|[A|A]]; [left; congruence|contradiction|right; right; now rewrite E2]. }
  unfold G. destruct S; cb; try contradiction; try congruence;
    try solve [repeat split; auto; try discriminate; try (apply Uu; first [discriminate | (destruct buf; discriminate)])].
  - (* S_arrive *) repeat split; auto. apply Forall_app; auto.
  - (* S_init *) repeat split; auto. right; left; exact I.
  - (* S_err_send *) repeat split; auto. eapply Al; eauto.
  - (* S_err_close *) exfalso. rewrite H0 in M. destruct (error_reply_total (cfg c) e) as [[m|] R].
    + destruct (wire_total m) as [b W]. specialize (H1 m b R W). destruct ok; [|contradiction]. rewrite So in H1. discriminate.
    + destruct e; cbn in M, R; try contradiction; try discriminate; destruct (first40_total m) as (b & _ & F); rewrite F in R; discriminate.
  - (* S_upd *) rewrite state_update_eq in *. cb. assert (B : busy (upd_mon s c) /\ gm (upd_mon s c)).
    { destruct (Rs s H0) as [->|[->| ->]]; unfold upd_mon; [destruct (mode c)|destruct (mode c)|destruct (st_eqb _ _)]; cbn; auto. }
    repeat split; auto; try apply B. right; left; cb; apply B.
  - repeat split; auto. right; left; exact I.
  - repeat split; auto. right; left; exact I.
  - (* S_est *) bfields (set_dial DOk c). cb. rewrite B6, B7, B5, B11, B15, B8, B13, B14. repeat split; auto.
    + intros e. destruct (hb c) eqn:E; try discriminate. intros E2. apply (Hb e0). reflexivity.
    + right; left; exact I.
  - (* S_read *) rewrite H2 in Q. inversion Q as [|? ? Qp Qq]; subst. destruct (firstn_good p Qp) as [-> ->]. repeat split; auto.
    + apply Forall_app. split; auto. constructor; [now apply gl_parse|constructor].
    + right; right. exists (length (hs c)), (IParse p), []. cb. rewrite nth_error_app2, Nat.sub_diag by lia. reflexivity.
  - (* S_read_fail *) destruct ok; [|contradiction]. rewrite So in H1. discriminate.
  - (* S_mclose *) rewrite H0 in M. contradiction.
  - (* S_parse *) destruct (gl_inv _ _ (Hn _ _ _ H0)) as (-> & _ & m' & [P V] & Gm). assert (m' = m) as -> by congruence.
    repeat split; auto. + apply Hu. now apply gl_sig. + eapply Live; [exact H0| |reflexivity]. discriminate.
  - destruct (gl_inv _ _ (Hn _ _ _ H0)) as (-> & _ & m' & [P V] & Gm). congruence.
  - destruct (gl_inv _ _ (Hn _ _ _ H0)) as (-> & V & Gm). congruence.
  - destruct (gl_inv _ _ (Hn _ _ _ H0)) as (-> & V & Gm). destruct (gl_plan m Gm) as [P1 P2]. rewrite H3 in P1, P2. cbn [snd] in *.
    repeat split; auto. eapply Live; [exact H0| |reflexivity]. auto.
  - destruct (gl_inv _ _ (Hn _ _ _ H0)) as (-> & V & Gm). destruct (gl_plan m Gm) as [P1 P2]. rewrite H3 in P1, P2. cbn [snd] in *.
    repeat split; auto.
    + apply Forall_app. split; auto. constructor; [|constructor]. apply plan_data in H3 as (_ & _ & -> & K). cbn in Gm |- *. intuition.
    + eapply Live; [exact H0| |reflexivity]. auto.
  - destruct (gl_inv _ _ (Hn _ _ _ H0)) as (K & T). repeat split; auto using tail_gl. eapply Live; [exact H0| |reflexivity]. auto.
  - destruct (gl_inv _ _ (Hn _ _ _ H0)) as (K & T). repeat split; auto. + apply Hu. apply gl_err; auto. eapply handle_good_err; eauto.
    + eapply Live; [exact H0| |reflexivity]. discriminate.
  - destruct (gl_inv _ _ (Hn _ _ _ H0)) as (K & T). repeat split; auto. + apply Hu. apply gl_write; auto.
    + eapply Live; [exact H0| |reflexivity]. discriminate.
  - pose proof (gl_inv _ _ (Hn _ _ _ H0)) as T. cbn in T. repeat split; auto using tail_gl. eapply Live; [exact H0| |reflexivity]. auto.
  - exfalso. destruct ok; [|contradiction]. apply (Wt _ true eq_refl H1).
  - destruct (gl_inv _ _ (Hn _ _ _ H0)) as (K & T). repeat split; auto using tail_gl. eapply Live; [exact H0| |reflexivity]. auto.
  - destruct (gl_inv _ _ (Hn _ _ _ H0)).
  - pose proof (gl_inv _ _ (Hn _ _ _ H0)) as T. cbn in T. subst k. repeat split; auto.
    + apply Hu. apply gl_tail. left; eauto. + eapply Live; [exact H0| |reflexivity]. discriminate.
  - pose proof (gl_inv _ _ (Hn _ _ _ H0)) as T. cbn in T. subst k. repeat split; auto. + apply Hu. constructor. + right; left; exact I.
  - repeat split; auto. apply Du. exact (Dn _ _ H0).
  - repeat split; auto. + exact (Dn _ _ H0). + eapply Al; eauto.
  - exfalso. destruct (Dn _ _ H0) as (q' & pd & E1 & E2). congruence.
  - repeat split; auto. intros e. destruct (hb_on (cfg c)); discriminate.
  - destruct (hba c); cb; repeat split; auto; discriminate.
  - exfalso. destruct ok; [|contradiction]. apply (Wt _ true eq_refl H1).
  - repeat split; auto. apply Forall_app. split; auto. constructor; [|constructor]. destruct op; cbn in Gl; try discriminate; contradiction.
  - repeat split; auto. apply Uu. destruct op; cbn in H1; inversion H1; discriminate.
  - exfalso. apply (Forall_nth _ _ _ _ U) in H0. congruence.
Qed.

Lemma G_run m g o ls c : run (start m g o) ls = Some c -> Forall good ls -> crash c = None -> G c.
Proof.
  revert c. induction ls as [|l ls IH] using rev_ind; intros c R F C.
  - inversion R. unfold G, start. cbn. repeat split; auto; try discriminate. left; auto.
  - apply Forall_app in F as [F1 F2]. inversion F2 as [|? ? F3 _]; subst. rewrite run_app in R. destruct (run (start m g o) ls) as [a|] eqn:Ra; [|discriminate].
    cbn [run] in R. destruct (step a l) as [b|] eqn:S; [|discriminate]. inversion R; subst b.
    destruct (step_stepR _ _ _ S) as [Ca S']. assert (reachable a) as Re by (exists m, g, o, ls; exact Ra).
    eapply G_step; eauto. apply (RInv_reachable a Re).
Qed.

(** ** Progress *)
Definition wi (x : instr) : nat :=
  match x with IParse _ => 200 | ISig _ => 100 | IHandle _ => 40 | IWrite _ => 20 | IErr _ => 20 | IBeatAck => 10 | ICur => 20 | ISt _ => 10 end.
Fixpoint wl (l : list instr) : nat := match l with [] => 0 | x :: k => wi x + wl k end.
Fixpoint whs (l : list (list instr)) : nat := match l with [] => 0 | x :: k => wl x + whs k end.
Definition wm (m : mpc) : nat := match m with MErr _ _ => 6 | MSelect => 5 | MUpd _ => 4 | MInit _ | MEst => 3 | _ => 0 end.
Definition weight (c : conn) : nat := (if ini c then 100 else 0) + wm (mon c) + whs (hs c).
Lemma whs_app a b : whs (a ++ b) = whs a + whs b.
Proof. induction a; cbn; lia. Qed.
Lemma whs_upd l i x y : nth_error l i = Some x -> whs (upd l i y) + wl x = whs l + wl y.
Proof.
  intros H. destruct (upd_split l i x H) as (l1 & l2 & -> & _ & U). rewrite U, !whs_app. cbn. lia.
Qed.
(** the library's own steps *)
Definition internal (l : label) : Prop := match l with LInit | LMon true | LHand _ true => True | _ => False end.
Definition resting (c : conn) : Prop := mon c = MRead \/ (mon c = MEst /\ dial c <> DWait).

Lemma progress c : reachable c -> crash c = None -> G c -> resting c \/
  exists l c', internal l /\ stepR c l c' /\ crash c' = None /\ weight c' < weight c.
Proof.
  intros R C (So & Cx & Cl & Hb & U & Q & H & M & D & A).
  destruct (Inv_reachable c R C) as (_ & _ & h & Hi & St & _ & _ & _ & T).
  pose proof (RInv_reachable c R) as (Rg & Rm & _).
  (* the monitor has something to do by itself *)
  destruct (mon c) eqn:Mo; cbn in M; try contradiction.
  - (* MSelect *) right. destruct (ini c) eqn:Ini.
    + exists LInit, (set_mon (MUpd Down) (set_ini false c)). split; [exact I|]. split; [now apply S_init|]. split; [exact C|].
      unfold weight. cb. rewrite Ini, Mo. cbn [wm]. lia.
    + destruct A as [A|[A|(i & x & k & N)]]; [congruence|rewrite Mo in A; contradiction|].
      pose proof (Forall_nth _ _ _ _ H N) as Gl. pose proof (gl_inv _ _ Gl) as Gi.
      assert (W : forall k2 c', crash c' = None -> hs c' = upd (hs c) i k2 -> ini c' = false -> wm (mon c') + wl k2 < 5 + wl (x :: k) -> 
         crash c' = None /\ weight c' < weight c).
      { intros k2 c' E0 E1 E2 E3. split; auto. unfold weight. rewrite E1, E2, Ini, Mo. cbn [wm]. pose proof (whs_upd (hs c) i (x :: k) k2 N). lia. }
      assert (Un : unlocked c = true) by (unfold unlocked; now rewrite Mo).
      exists (LHand i true). destruct x.
      * destruct Gi as (-> & _ & m & [P V] & Gm). eexists. split; [exact I|]. split; [eapply S_parse; eauto|]. eapply W; [exact C|reflexivity|exact Ini|]. cb. rewrite Mo. cbn. lia.
      * destruct Gi as (-> & V & Gm). destruct (plan m) as [[t|] l] eqn:P.
        -- eexists. split; [exact I|]. split; [eapply S_sig_data; eauto|]. eapply W; [exact C|reflexivity|exact Ini|]. cb. rewrite Mo.
           apply plan_data in P as (_ & -> & _). cbn. lia.
        -- eexists. split; [exact I|]. split; [eapply S_sig; eauto|]. eapply W; [exact C|reflexivity|exact Ini|]. cb. rewrite Mo.
           shapes m; rewrite P0 in P; inversion P; subst l; cbn; lia.
      * destruct Gi as (K & Tl). destruct (handle (cfg c) (hbd c) (state c) m) as [|e|r|p] eqn:Ha.
        -- eexists. split; [exact I|]. split; [eapply S_handle_nil; eauto|]. eapply W; [exact C|reflexivity|exact Ini|]. cb. rewrite Mo. cbn. lia.
        -- eexists. split; [exact I|]. split; [eapply S_handle_err; eauto|]. eapply W; [exact C|reflexivity|exact Ini|]. cb. rewrite Mo. cbn. lia.
        -- eexists. split; [exact I|]. split; [eapply S_handle_reply; eauto|]. eapply W; [exact C|reflexivity|exact Ini|]. cb. rewrite Mo. cbn. lia.
        -- exfalso. unfold handle, stream_check in Ha. change (negb (StreamID =? 0)%N) with false in Ha.
           destruct (m_kind m) eqn:Km; try contradiction; try discriminate;
             repeat match type of Ha with (if ?b then _ else _) = _ => destruct b | match ?b with _ => _ end = _ => destruct b end; discriminate.
      * destruct (wire_total m) as [b Wb]. eexists. split; [exact I|]. split; [eapply S_hwrite; eauto|]. eapply W; [exact C|reflexivity|exact Ini|]. cb. rewrite Mo. cbn. lia.
      * destruct Gi as (K & Tl). eexists. split; [exact I|]. split; [eapply S_herr; eauto|]. eapply W; [exact C|reflexivity|exact Ini|]. cb. cbn. lia.
      * contradiction.
      * eexists. split; [exact I|]. split; [eapply S_cur; eauto|]. eapply W; [exact C|reflexivity|exact Ini|]. cb. rewrite Mo. cbn. lia.
      * eexists. split; [exact I|]. split; [eapply S_st; eauto|]. eapply W; [exact C|reflexivity|exact Ini|]. cb. cbn. lia.
  - (* MErr *) right. destruct (error_reply_total (cfg c) e) as [[m|] E].
    + destruct (wire_total m) as [b W]. exists (LMon true). eexists. split; [exact I|]. split; [eapply S_err_send; eauto|]. split; [exact C|].
      unfold weight. cb. rewrite Mo. cbn [wm]. lia.
    + destruct e; cbn in M, E; try contradiction; try discriminate; destruct (first40_total m) as (b & _ & F); rewrite F in E; discriminate.
  - (* MUpd *) right. exists (LMon true), (state_update s c). split; [exact I|]. split; [now apply S_upd|]. rewrite state_update_eq. split; [exact C|].
    unfold weight. cb. rewrite Mo. cbn [wm]. unfold upd_mon. destruct s, (mode c), (st_eqb (state c) Active); cbn [wm]; lia.
  - (* MInit *) right. destruct (wire_total m) as [b W]. exists (LMon true). eexists. split; [exact I|]. split; [eapply S_init_send; eauto|]. split; [exact C|].
    unfold weight. cb. rewrite Mo. cbn [wm]. lia.
  - (* MEst *) destruct (dial c) eqn:Di; try (left; right; split; congruence).
    right. exists (LMon true). eexists. split; [exact I|]. split; [eapply S_est; eauto|]. bfields (set_dial DOk c). cb. split; [congruence|].
    unfold weight. cb. rewrite B12, B13, Mo. cbn [wm]. lia.
  - left. left. exact Mo.
Qed.
Lemma internal_good l : internal l -> good l.
Proof. destruct l; cbn; try contradiction; auto; destruct ok; auto. Qed.
Lemma keeps_reading c : reachable c -> crash c = None -> G c ->
  exists ls c', run c ls = Some c' /\ Forall internal ls /\ resting c' /\ crash c' = None /\ G c'.
Proof.
  remember (weight c) as n eqn:E. revert c E. induction n as [n IH] using lt_wf_ind. intros c E R C Gc.
  destruct (progress c R C Gc) as [Re|(l & c' & Il & S & C' & W)].
  - exists [], c. split; [reflexivity|]. auto.
  - assert (St : step c l = Some c') by (apply stepR_step; auto).
    assert (R' : reachable c') by (eapply (reachable_run c [l]); eauto; cbn [run]; now rewrite St).
    assert (G' : G c') by (eapply G_step; eauto using internal_good; apply (RInv_reachable c R)).
    destruct (IH (weight c')) with (c := c') as (ls & c2 & R2 & F2 & Re & C2 & G2); auto; [lia|].
    exists (l :: ls), c2. split; [cbn [run]; now rewrite St|]. auto.
Qed.

(** ** Panics on such executions: only Write/WritePD without an outbound stream for data *)
Lemma good_crash m g o ls c p : run (start m g o) ls = Some c -> Forall good ls -> crash c = Some p ->
  p = PIntn /\ maxs c = 0%N.
Proof.
  destruct ls as [|l ls _] using rev_ind; intros R F C; [inversion R; subst; discriminate|].
  apply Forall_app in F as [F _]. rewrite run_app in R. destruct (run (start m g o) ls) as [a|] eqn:Ra; [|discriminate].
  cbn [run] in R. destruct (step a l) as [b|] eqn:S; [|discriminate]. inversion R; subst b.
  destruct (step_stepR _ _ _ S) as [Ca _]. pose proof (G_run _ _ _ _ _ Ra F Ca) as (So & Cx & Cl & Hb & U & Q & H & M & D & A).
  assert (Re : reachable a) by (exists m, g, o, ls; exact Ra).
  destruct (crash_sources a l c p Re Cl S C) as (i & [(_ & t & k & N & K & _)|[(_ & t & N & _ & K)|(-> & K & _)]]).
  - pose proof (Forall_nth _ _ _ _ H N) as Gl. apply gl_inv in Gl. destruct Gl. congruence.
  - pose proof (Forall_nth _ _ _ _ D N) as (q & pd & E & _). congruence.
  - split; auto. rewrite <- K. assert (run a [l] = Some c) as R1 by (cbn [run]; now rewrite S). apply (static_run _ _ _ R1).
Qed.

(** ** A DATA message reaches the queue, and a Read returns it *)
Lemma deliver c raw q t p pd : reachable c -> crash c = None -> mon c = MRead -> sopen c = true -> ctxd c = false -> closed c = false ->
  state c = Active -> (N.of_nat (length (dq c)) < data_cap)%N ->
  inq c = raw :: q -> length raw <= bufsize -> valid raw (Typed t) -> m_kind t = KData ->
  fget FProtocolData (m_f t) = Some p -> ProtocolData p = Ok pd ->
  exists ls c', run c ls = Some c' /\ Forall smooth_data ls /\ crash c' = None /\ mon c' = MRead /\ sopen c' = true /\ ctxd c' = false /\ closed c' = false /\
    state c' = Active /\ dial c' = dial c /\ us c' = us c /\ inq c' = q /\ dq c' = dq c ++ [pd] /\ log c' = log c ++ [ERead raw; EUpd Active].
Proof.
  intros R C M So Cx Cl St Cap Q Ln V K F E.
  destruct (process c raw q (Typed t)) as (rc & ls & c1 & evs & Re & Ou & R1 & F1 & Kp & L1 & S1 & M1 & Q1 & D1 & _); auto.
  { intros t' E' B. congruence. }
  destruct Kp as (K1 & K2 & K3 & K4 & K5 & K6 & K7 & K8 & K9 & K10 & K11 & K12 & K13 & K14).
  assert (Ns : next_state (Typed t) (state c) = Active) by (unfold next_state, names; now rewrite K).
  rewrite Ns in *. assert (P : plan (Typed t) = (Some t, [ICur])) by (unfold plan; now rewrite K). rewrite P in D1. cbn [fst] in D1.
  assert (M2 : mon c1 = MRead) by (rewrite M1; unfold upd_mon; now rewrite St).
  assert (evs = []) as ->.
  { inversion Re; subst; cbn in Ou; try congruence.
    - rename H0 into T. unfold reply_table in T. rewrite K in T. discriminate.
    - exfalso. apply H1. unfold silent_table. rewrite K. rewrite St. cbn. auto.
    - unfold supported in *. rewrite K in *. discriminate. }
  set (n := length (ds c)).
  assert (N1 : forall x, nth_error (ds c ++ [x]) n = Some x) by (intros; unfold n; rewrite nth_error_app2, Nat.sub_diag by lia; reflexivity).
  assert (N2 : nth_error (ds c1) n = Some (DCheck t)) by (rewrite D1; apply N1).
  eexists (ls ++ [LData n; LData n; LData n]), _. split.
  - eapply run_trans; [exact R1|].
    eapply go; [congruence|eapply S_dcheck; [exact N2|unfold unlocked; now rewrite M2|congruence]|cb; congruence|].
    eapply go; [cb; congruence|eapply S_dpd; [cb; eapply upd_nth_same; exact N2|exact F|exact E]|cb; congruence|].
    eapply go; [cb; congruence|eapply S_dsend; [cb; eapply upd_nth_same; eapply upd_nth_same; exact N2|cb; congruence|cb; congruence]|cb; congruence|].
    reflexivity.
  - cbn [app] in L1. cb. repeat split; try congruence.
    apply Forall_app. split; [eapply Forall_impl; [|exact F1]; intros; now left|]. do 3 (constructor; [right; eauto|]). constructor.
Qed.
Lemma read_now c buf p r : reachable c -> crash c = None -> unlocked c = true -> state c = Active -> dial c = DOk -> dq c = p :: r ->
  exists c', run c [LCall (OpRead buf); LUser (length (us c)) true; LUser (length (us c)) true] = Some c' /\
    nth_error (us c') (length (us c)) = Some (UDone (RRead (length (pd_data p)) (firstn (length buf) (pd_data p) ++ skipn (length (pd_data p)) buf))) /\
    log c' = log c ++ [EDeliver p] /\ dq c' = r.
Proof.
  intros R C U St Di Dq.
  assert (N1 : forall x, nth_error (us c ++ [x]) (length (us c)) = Some x) by (intros; rewrite nth_error_app2, Nat.sub_diag by lia; reflexivity).
  eexists. split.
  - eapply go; [exact C|eapply S_call; exact Di|exact C|].
    eapply go; [exact C|eapply S_check; [cb; apply N1|reflexivity|exact U|exact St]|exact C|].
    eapply go; [exact C|eapply S_recv; [cb; eapply upd_nth_same; apply N1|cb; exact Dq]|exact C|]. reflexivity.
  - cb. split; [|auto]. eapply upd_nth_same. eapply upd_nth_same. apply N1.
Qed.
