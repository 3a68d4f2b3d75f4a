(** C119: two endpoints with a clock. *)
From Verif Require Import GoBase ParamsModel MessagesModel WireSpec ConfigModel ConnModel ConnSpec CfgSpec ConnBase ConnInv ConnTrace ConnUser ConnCodec ConnMore ConnExamples
  ConnData ConnPair ConnE2E ConnDialog ConnDuo TalkSpec ConnTalk PropsUser PropsFsm PropsClose PropsPair PropsE2E PropsTalk PropsDuo LifeSpec ConnLife3 PropsLife TimeModel TimelySpec TimelyProofs.
From Coq Require Import ZArith Lia List.
Open Scope Z_scope.

(** C119: a client and a server of the library, from Dial and Accept on, as in C85, but with a clock. Every timer may fire as soon as it has elapsed: that of
    Dial and of Accept after 10 s, Interval and Timer of the heartbeats. Whatever is possible goes on within d: as long as a goroutine can make a step or a packet
    is on its way, the next such thing happens within d of the last one. Between two times of rest at most c calls of the users are to be served.
    If 10 s and, where heartbeats are enabled, Timer and Interval are longer than (136 + 13 c) d, then for ever
    - no timer gives up: the execution is one of those of C85, so neither endpoint panics, closes or refuses anything but one BEAT ACK;
    - Dial and Accept have returned after (136 + 13 c) d;
    - every BEAT is answered within (136 + 13 c) d. *)
Theorem C119_timely : forall gc gs oc os d c t0 s,
  cfg_ok gc -> cfg_ok gs -> signals_fit gc -> signals_fit gs -> 0 <= d ->
  patient (span d c) gc -> patient (span d c) gs -> span d c < dial_limit ->
  history d c (timed_start gc gs oc os t0) s ->
  (exists m i ka kb, lives m i ka kb (lstart gc gs oc os) (untimed s)) /\
  (dial (tc (m_cl s)) <> DOk \/ dial (tc (m_sv s)) <> DOk -> m_now s <= t0 + span d c) /\
  (hb (tc (m_cl s)) = BAck -> m_now s <= since (m_cl s) + span d c) /\
  (hb (tc (m_sv s)) = BAck -> m_now s <= since (m_sv s) + span d c).
Proof. exact timely. Qed.
(** What the users see of it. *)
Theorem C119_calm : forall gc gs oc os d c t0 s,
  cfg_ok gc -> cfg_ok gs -> signals_fit gc -> signals_fit gs -> 0 <= d ->
  patient (span d c) gc -> patient (span d c) gs -> span d c < dial_limit ->
  history d c (timed_start gc gs oc os t0) s ->
  sound (tc (m_cl s)) /\ sound (tc (m_sv s)) /\ few gc (tc (m_cl s)) /\ few gs (tc (m_sv s)) /\
  (t0 + span d c < m_now s -> dial (tc (m_cl s)) = DOk /\ dial (tc (m_sv s)) = DOk) /\
  (can_move (untimed s) \/ (state (tc (m_cl s)) = Active /\ state (tc (m_sv s)) = Active)).
Proof.
  intros gc gs oc os d c t0 s O1 O2 F1 F2 D Pc Ps Pd H. destruct (timely _ _ _ _ _ _ _ _ O1 O2 F1 F2 D Pc Ps Pd H) as ((m & i & ka & kb & L) & Dl & _).
  destruct (life_fine _ _ _ _ _ _ _ _ _ O1 O2 F1 F2 L) as (_ & S1 & S2 & G1 & G2 & E). cbn [untimed t_cl t_sv] in *.
  repeat (split; [assumption|]). split.
  - intros Lt. destruct (dial (tc (m_cl s))) eqn:E1, (dial (tc (m_sv s))) eqn:E2; auto; exfalso;
      (assert (m_now s <= t0 + span d c) by (apply Dl; first [left; congruence|right; congruence])); lia.
  - destruct E as [[t' E]|[[_ A _ _ _ _] [[_ B _ _ _ _] _]]]; [left; exists t'; exact E|right; auto].
Qed.
Print Assumptions C119_timely.
Print Assumptions C119_calm.

(** ** Executions *)
Inductive xmove := XM (m : tmove) | XTimerC (l : label) | XTimerS (l : label).
Definition stirs (s : timed) : bool :=
  match crash (tc (m_cl s)), crash (tc (m_sv s)) with
  | None, None => match m_up s, m_dn s with [], [] => false | _, _ => true end
  | _, _ => false
  end.
Lemma stirs_ok s : stirs s = true -> can_move (untimed s).
Proof.
  unfold stirs, can_move, untimed. destruct (crash (tc (m_cl s))) eqn:Ca; [discriminate|]. destruct (crash (tc (m_sv s))) eqn:Cb; [discriminate|].
  destruct (m_up s) as [|raw u]; [destruct (m_dn s) as [|raw v]; [discriminate|]|]; intros _.
  - eexists. apply (L_to_client _ _ _ [] raw v); [now left|]. unfold step. rewrite Ca. reflexivity.
  - eexists. apply (L_to_server _ _ [] raw u). unfold step. rewrite Cb. reflexivity.
Qed.
Definition timerb (l : label) : bool := match l with LHbTimer | LDialTimeout => true | _ => false end.
Definition grown_by (x x' : tconn) : list (list byte) := skipn (length (packets (log (tc x)))) (packets (log (tc x'))).
Definition xdo (d : Z) (c : nat) (s : timed) (t : Z) (m : xmove) : option timed :=
  let '(mkTimed x y u v n z k) := s in
  let soon := (n <=? t) && (t <=? z + d) in
  match m with
  | XM (TC l) => if soon && fairb l then match TimeModel.tstep x t l with Some x' => Some (mkTimed x' y (u ++ grown_by x x') v t t k) | None => None end else None
  | XM (TS l) => if soon && fairb l then match TimeModel.tstep y t l with Some y' => Some (mkTimed x y' u (v ++ grown_by y y') t t k) | None => None end else None
  | XM (TtoS j) => if soon then match pick j u with Some (u1, raw, u2) => match TimeModel.tstep y t (LArrive raw) with Some y' => Some (mkTimed x y' (u1 ++ u2) v t t k) | None => None end | None => None end else None
  | XM (TtoC j) => if soon && ((j =? 0)%nat || dialled (tc x)) then match pick j v with Some (v1, raw, v2) => match TimeModel.tstep x t (LArrive raw) with Some x' => Some (mkTimed x' y u (v1 ++ v2) t t k) | None => None end | None => None end else None
  | XM (TcallC op) => if soon && stirs s && (S k <=? c)%nat && saneb (tc x) op then match TimeModel.tstep x t (LCall op) with Some x' => Some (mkTimed x' y u v t z (S k)) | None => None end else None
  | XM (TcallS op) => if soon && stirs s && (S k <=? c)%nat && saneb (tc y) op then match TimeModel.tstep y t (LCall op) with Some y' => Some (mkTimed x y' u v t z (S k)) | None => None end else None
  | XTimerC l => if soon && stirs s && (k <=? c)%nat && timerb l then match TimeModel.tstep x t l with Some x' => Some (mkTimed x' y u v t z k) | None => None end else None
  | XTimerS l => if soon && stirs s && (k <=? c)%nat && timerb l then match TimeModel.tstep y t l with Some y' => Some (mkTimed x y' u v t z k) | None => None end else None
  end.
Lemma timerb_ok l : timerb l = true -> timer l.
Proof. destruct l; try discriminate; [left|right]; reflexivity. Qed.
Lemma tstep_plain x t l x' : TimeModel.tstep x t l = Some x' -> step (tc x) l = Some (tc x').
Proof. intros S. apply (tstep_inv _ _ _ _ S). Qed.
Ltac bools := repeat match goal with
  | H : _ && _ = true |- _ => apply andb_prop in H as [? H]
  | H : (_ <=? _)%Z = true |- _ => apply Z.leb_le in H
  | H : (_ <=? _)%nat = true |- _ => apply Nat.leb_le in H
  | H : stirs _ = true |- _ => apply stirs_ok in H
  | H : fairb _ = true |- _ => apply fairb_ok in H as [? ?]
  | H : saneb _ _ = true |- _ => apply saneb_ok in H
  | H : timerb _ = true |- _ => apply timerb_ok in H end.
Lemma xdo_ok d c s t m s' : xdo d c s t m = Some s' -> occurs d c s t s'.
Proof.
  destruct s as [x y u v n z k]. unfold xdo. destruct m as [[l|l|op|op|j|j]|l|l]; intros H;
    match type of H with (if ?b then _ else _) = _ => destruct b eqn:B; [|discriminate] end.
  - apply andb_prop in B as [B1 B2]. bools. destruct (TimeModel.tstep x t l) as [x'|] eqn:S; [|discriminate]. injection H as <-.
    eapply O_client; eauto. apply (packets_grow _ l). eapply tstep_plain; eauto.
  - apply andb_prop in B as [B1 B2]. bools. destruct (TimeModel.tstep y t l) as [y'|] eqn:S; [|discriminate]. injection H as <-.
    eapply O_server; eauto. apply (packets_grow _ l). eapply tstep_plain; eauto.
  - do 3 (apply andb_prop in B as [B ?]). bools. destruct (TimeModel.tstep x t _) as [x'|] eqn:S; [|discriminate]. injection H as <-.
    eapply O_call_client; eauto. apply (G_busy d (mkTimed x y u v n z k) t); assumption.
  - do 3 (apply andb_prop in B as [B ?]). bools. destruct (TimeModel.tstep y t _) as [y'|] eqn:S; [|discriminate]. injection H as <-.
    eapply O_call_server; eauto. apply (G_busy d (mkTimed x y u v n z k) t); assumption.
  - bools. destruct (pick j u) as [[[u1 raw] u2]|] eqn:P; [|discriminate]. apply pick_spec in P. subst u. destruct (TimeModel.tstep y t _) as [y'|] eqn:S; [|discriminate]. injection H as <-.
    eapply O_to_server; eauto.
  - apply andb_prop in B as [B1 B2]. bools. destruct (pick j v) as [[[v1 raw] v2]|] eqn:P; [|discriminate]. destruct (TimeModel.tstep x t _) as [x'|] eqn:S; [|discriminate]. injection H as <-.
    assert (Or : v1 = [] \/ dial (tc x) = DOk).
    { apply Bool.orb_prop in B2 as [Al|Al]; [left|right; unfold dialled in Al; destruct (dial (tc x)); congruence]. apply Nat.eqb_eq in Al. subst j. unfold pick in P. destruct (nth_error v 0); [|discriminate]. now injection P as <- _ _. }
    apply pick_spec in P. subst v. eapply O_to_client; eauto.
  - do 3 (apply andb_prop in B as [B ?]). bools. destruct (TimeModel.tstep x t _) as [x'|] eqn:S; [|discriminate]. injection H as <-.
    eapply O_timer_client; eauto. apply (G_busy d (mkTimed x y u v n z k) t); assumption.
  - do 3 (apply andb_prop in B as [B ?]). bools. destruct (TimeModel.tstep y t _) as [y'|] eqn:S; [|discriminate]. injection H as <-.
    eapply O_timer_server; eauto. apply (G_busy d (mkTimed x y u v n z k) t); assumption.
Qed.
(** one move every [p] *)
Fixpoint xdos (d : Z) (c : nat) (p : Z) (s : timed) (ms : list xmove) : option timed :=
  match ms with [] => Some s | m :: ms => match xdo d c s (m_now s + p) m with Some s => xdos d c p s ms | None => None end end.
Lemma xdos_ok d c p ms : forall s0 s s', history d c s0 s -> xdos d c p s ms = Some s' -> history d c s0 s'.
Proof.
  induction ms as [|m ms IH]; intros s0 s s' H E; cbn [xdos] in E; [injection E as <-; exact H|].
  destruct (xdo d c s (m_now s + p) m) as [s1|] eqn:X; [|discriminate]. eapply IH; [|exact E]. eapply Y_S; [exact H|]. eapply xdo_ok; eauto.
Qed.
(** an endpoint that can do nothing *)
Definition restful (c : conn) : bool :=
  match mon c, inq c, hb c with
  | MRead, [], (BSleep | BWait | BDone) => sopen c && negb (ini c) && negb (ctxd c) && dialled c && forallb (fun h => match h with [] => true | _ => false end) (hs c) &&
      forallb (fun x => match x with DDone => true | _ => false end) (ds c) && forallb (fun x => match x with UDone _ => true | _ => false end) (us c)
  | _, _, _ => false
  end.
Lemma restful_ok c l c' : restful c = true -> fair l -> l <> LHbTimer -> step c l = Some c' -> False.
Proof.
  unfold restful. intros R [F Nf] Nt S. destruct (mon c) eqn:M; try discriminate. destruct (inq c) eqn:Q; [|discriminate].
  assert (R' : sopen c && negb (ini c) && negb (ctxd c) && dialled c && forallb (fun h => match h with [] => true | _ => false end) (hs c) &&
      forallb (fun x => match x with DDone => true | _ => false end) (ds c) && forallb (fun x => match x with UDone _ => true | _ => false end) (us c) = true) by (destruct (hb c); try discriminate; exact R).
  assert (H : hb c = BSleep \/ hb c = BWait \/ hb c = BDone) by (destruct (hb c); try discriminate; auto). clear R.
  do 6 (apply andb_prop in R' as [R' ?]). rewrite forallb_forall in *. unfold dialled in *.
  assert (Hs : forall i, nth_error (hs c) i = None \/ nth_error (hs c) i = Some []).
  { intros i. destruct (nth_error (hs c) i) as [h|] eqn:E; auto. right. apply nth_error_In in E. destruct h; [reflexivity|]. match goal with X : forall x, In x (hs c) -> _ |- _ => specialize (X _ E) end. discriminate. }
  assert (Ds : forall i, nth_error (ds c) i = None \/ nth_error (ds c) i = Some DDone).
  { intros i. destruct (nth_error (ds c) i) as [h|] eqn:E; auto. right. apply nth_error_In in E. match goal with X : forall x, In x (ds c) -> _ |- _ => specialize (X _ E) end. destruct h; congruence. }
  assert (Us : forall i, nth_error (us c) i = None \/ exists r, nth_error (us c) i = Some (UDone r)).
  { intros i. destruct (nth_error (us c) i) as [h|] eqn:E; auto. right. apply nth_error_In in E. match goal with X : forall x, In x (us c) -> _ |- _ => specialize (X _ E) end. destruct h; try congruence. eauto. }
  unfold step in S. destruct (crash c); [discriminate|]. destruct l; cbn [benign] in F; try contradiction.
  - destruct (ini c); [discriminate|discriminate].
  - destruct ok; [|contradiction]. unfold step_mon in S. rewrite M, Q, R' in S. discriminate.
  - rewrite M in S. discriminate.
  - destruct ok; [|contradiction]. unfold step_hand in S. destruct (Hs i) as [E|E]; rewrite E in S; discriminate.
  - unfold step_data in S. destruct (Ds i) as [E|E]; rewrite E in S; discriminate.
  - destruct (Ds i) as [E|E]; rewrite E in S; discriminate.
  - destruct ok; [|contradiction]. unfold step_hb in S. destruct H as [E|[E|E]]; rewrite E in S; discriminate.
  - destruct H as [E|[E|E]]; rewrite E in S; discriminate.
  - destruct (ctxd c); [discriminate|]. destruct H as [E|[E|E]]; rewrite E in S; discriminate.
  - destruct (dial c); discriminate.
  - destruct ok; [|exfalso; eapply Nf; reflexivity]. unfold step_user in S. destruct (Us i) as [E|[r E]]; rewrite E in S; discriminate.
Qed.
Lemma restful_pair a b : restful a = true -> restful b = true -> ~ can_move (mkTalk a b [] []).
Proof.
  intros Ra Rb [t' S]. inversion S; subst.
  - eapply (restful_ok a); eauto.
  - eapply (restful_ok b); eauto.
  - destruct u1; discriminate.
  - destruct d1; discriminate.
Qed.
(** the execution of C85 with heartbeats: Interval 30 s, Timer 10 s; responsiveness 30 ms; a move every 10 ms *)
Definition x_cfg_30 : config := NewClientConfig (Some (mkHbInfo true 30000000000 10000000000 [])) 0x11111111 0x22222222 1 2 0 0 [1; 2]%N x03 x00 x00 x01.
Fixpoint before_tick (ms : list lmove) : list xmove := match ms with Mv m :: ms => XM m :: before_tick ms | _ => [] end.
Fixpoint after_tick (ms : list lmove) : list lmove := match ms with Mv _ :: ms => after_tick ms | _ :: ms => ms | [] => [] end.
Definition ms10 : Z := 10000000.
Definition x_time0 : timed := Eval vm_compute in timed_start x_cfg_30 x_cfg_30 3 3 0.
Definition x_time1 : timed := Eval vm_compute in match xdos (3 * ms10) 2 ms10 x_time0 (before_tick life_moves) with Some s => s | None => x_time0 end.
Definition x_tick (s : timed) : Z := since (m_sv s) + 30000000000.
Definition x_time2 : timed := Eval vm_compute in
  match TimeModel.tstep (m_sv x_time1) (x_tick x_time1) LHbTimer with
  | Some y => mkTimed (m_cl x_time1) y [] [] (x_tick x_time1) (x_tick x_time1) 0
  | None => x_time1
  end.
Definition x_time3 : timed := Eval vm_compute in match xdos (3 * ms10) 2 ms10 x_time2 (before_tick (after_tick life_moves)) with Some s => s | None => x_time2 end.
Lemma x_time0_eq : x_time0 = timed_start x_cfg_30 x_cfg_30 3 3 0.
Proof. vm_compute. reflexivity. Qed.
Lemma x_time1_eq : xdos (3 * ms10) 2 ms10 x_time0 (before_tick life_moves) = Some x_time1.
Proof. vm_compute. reflexivity. Qed.
Lemma x_time2_eq : TimeModel.tstep (m_sv x_time1) (x_tick x_time1) LHbTimer = Some (m_sv x_time2).
Proof. vm_compute. reflexivity. Qed.
Lemma x_time3_eq : xdos (3 * ms10) 2 ms10 x_time2 (before_tick (after_tick life_moves)) = Some x_time3.
Proof. vm_compute. reflexivity. Qed.
Lemma x_time_rest : ~ can_move (untimed x_time1).
Proof. apply (restful_pair (tc (m_cl x_time1)) (tc (m_sv x_time1))); vm_compute; reflexivity. Qed.
Lemma x_time_run : history (3 * ms10) 2 (timed_start x_cfg_30 x_cfg_30 3 3 0) x_time3.
Proof.
  rewrite <- x_time0_eq. eapply xdos_ok; [|exact x_time3_eq]. eapply Y_S; [eapply xdos_ok; [apply Y_0|exact x_time1_eq]|].
  refine (O_timer_server (3 * ms10) 2 (m_cl x_time1) (m_sv x_time1) (m_up x_time1) (m_dn x_time1) (m_now x_time1) (m_last x_time1) (m_calls x_time1) (x_tick x_time1) LHbTimer (m_sv x_time2)
    (x_tick x_time1) 0 _ _ _ _ x_time2_eq).
  - vm_compute. discriminate.
  - exact (G_rest (3 * ms10) x_time1 (x_tick x_time1) x_time_rest).
  - repeat constructor.
  - now left.
Qed.
Lemma x_cfg_30_ok : cfg_ok x_cfg_30 /\ signals_fit x_cfg_30.
Proof.
  assert (E : cf_aspid x_cfg_30 = cf_aspid x_cfg /\ cf_tmt x_cfg_30 = cf_tmt x_cfg /\ cf_na x_cfg_30 = cf_na x_cfg /\ cf_rc x_cfg_30 = cf_rc x_cfg /\
    cf_corr x_cfg_30 = cf_corr x_cfg /\ cf_opc x_cfg_30 = cf_opc x_cfg /\ cf_dpc x_cfg_30 = cf_dpc x_cfg) by (repeat split; vm_compute; reflexivity).
  destruct E as (E1 & E2 & E3 & E4 & E5 & E6 & E7). destruct C79_ex_cfg as (A & B & _). unfold cfg_ok, signals_fit, handshake_fits in *.
  rewrite E1, E2, E3, E4, E5, E6, E7. auto.
Qed.
(** after 4.86 s at the latest everything is done; here the first time of work takes 1.11 s, and the second one, 30 s after the server's first BEAT was answered, 0.21 s *)
Example C119_ex : cfg_ok x_cfg_30 /\ signals_fit x_cfg_30 /\ span (3 * ms10) 2 = 4860000000 /\ patient (span (3 * ms10) 2) x_cfg_30 /\ span (3 * ms10) 2 < dial_limit /\
  history (3 * ms10) 2 (timed_start x_cfg_30 x_cfg_30 3 3 0) x_time3 /\
  m_now x_time1 = 1110000000 /\ m_now x_time2 = 31080000000 /\ m_now x_time3 = 31290000000 /\
  hb (tc (m_cl x_time3)) = BSleep /\ hb (tc (m_sv x_time3)) = BSleep /\ us (tc (m_cl x_time3)) = [UDone (RRead 1 [x64; x00; x00; x00])] /\ us (tc (m_sv x_time3)) = [UDone (RWrote 112)].
Proof.
  destruct x_cfg_30_ok as [Ok Fi]. split; [exact Ok|]. split; [exact Fi|]. split; [reflexivity|]. split.
  { intros h E _. assert (X : cf_hb x_cfg_30 = Some (mkHbInfo true 30000000000 10000000000 [])) by reflexivity. rewrite X in E. injection E as <-. split; reflexivity. }
  split; [reflexivity|]. split; [exact x_time_run|]. repeat (split; [vm_compute; reflexivity|]). vm_compute. reflexivity.
Qed.

(** Promptness alone does not keep the heartbeats from expiring: with a Timer of 3 and everything happening within 1, the BEAT of the client expires although nothing
    is lost and the server is at work all the time; Timer has to be longer than what the two may have to do. *)
Definition hasty_moves : list xmove :=
  map XM (life_handshake ++ [TtoC 0] ++ map TC ([lmon] ++ hand 1 4 ++ [lmon; lmon]) ++ map TC [LHb true; LHbRand (repeat x61 128); LHb true; LHb true] ++
    map TS [LHb true; LHbRand (repeat x62 128)]) ++ [XTimerC LHbTimer].
Definition x_hasty0 : timed := Eval vm_compute in timed_start x_cfg_hb x_cfg_hb 3 3 0.
Definition x_hasty : timed := Eval vm_compute in match xdos 1 0 1 x_hasty0 hasty_moves with Some s => s | None => x_hasty0 end.
Lemma x_hasty0_eq : x_hasty0 = timed_start x_cfg_hb x_cfg_hb 3 3 0.
Proof. vm_compute. reflexivity. Qed.
Lemma x_hasty_eq : xdos 1 0 1 x_hasty0 hasty_moves = Some x_hasty.
Proof. vm_compute. reflexivity. Qed.
Theorem C119_hasty_refuted : exists g s, cfg_ok g /\ signals_fit g /\ history 1 0 (timed_start g g 3 3 0) s /\
  hb (tc (m_cl s)) = BErr EHeartbeatExpired /\ dial (tc (m_cl s)) = DOk /\ sound (tc (m_sv s)) /\ length (m_up s) = 1%nat /\ inq (tc (m_sv s)) = [] /\
  m_now s = since (m_cl s) + 3 /\ exists h, cf_hb g = Some h /\ hb_timer h = 3 /\ hb_interval h = 5.
Proof.
  exists x_cfg_hb, x_hasty. destruct x_cfg_hb_ok as [Ok Fi]. split; [exact Ok|]. split; [exact Fi|]. split.
  { rewrite <- x_hasty0_eq. eapply xdos_ok; [apply Y_0|exact x_hasty_eq]. }
  split; [vm_compute; reflexivity|]. split; [vm_compute; reflexivity|]. split; [repeat split; vm_compute; reflexivity|]. split; [vm_compute; reflexivity|]. split; [vm_compute; reflexivity|].
  split; [vm_compute; reflexivity|]. eexists. split; [reflexivity|]. split; reflexivity.
Qed.
Print Assumptions C119_hasty_refuted.
