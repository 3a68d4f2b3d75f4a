(** C85, C86: two endpoints from Dial and Accept on. *)
From Verif Require Import GoBase ParamsModel MessagesModel WireSpec ConfigModel ConnModel ConnSpec CfgSpec ConnBase ConnInv ConnTrace ConnUser ConnCodec ConnMore ConnExamples
  ConnData ConnPair ConnE2E ConnDialog ConnDuo TalkSpec ConnTalk PropsUser PropsFsm PropsClose PropsPair PropsE2E PropsTalk PropsDuo LifeSpec ConnLife3.
From Coq Require Import Arith Lia Permutation.
Open Scope nat_scope.
Opaque max_value_len.

(** C85: a client and a server of the library, with heartbeats or without, from Dial and Accept on. The goroutines run in any order; packets
    for the server overtake each other, and so do those for the client once Dial has returned; the two users call Read, ReadPD, Write,
    WriteToStream and State at any time after that, with any payloads that fit; the Intervals of the heartbeats elapse at any time; no system
    call fails. Then
    - at most 136 steps are made, and 13 more for each call and 31 more for each Interval;
    - neither endpoint panics or closes, and each refuses at most one message, which is a BEAT ACK, and none if its heartbeats are disabled;
    - a step is possible, or Dial and Accept have returned successfully, both are Active, no BEAT waits for its ack, every call has returned
      as it should and each side has received what the other wrote, each payload once. *)
Theorem C85_alive : forall gc gs oc os n i ka kb t,
  cfg_ok gc -> cfg_ok gs -> signals_fit gc -> signals_fit gs -> lives n i ka kb (lstart gc gs oc os) t ->
  n <= 136 + 13 * (length ka + length kb) + 31 * i /\ sound (t_cl t) /\ sound (t_sv t) /\ few gc (t_cl t) /\ few gs (t_sv t) /\
  ((exists t', lstep t t') \/
   (calm_end ka (t_cl t) /\ calm_end kb (t_sv t) /\ t_up t = [] /\ t_dn t = [] /\
    ((65535 <= N.of_nat (length (dq (t_sv t))))%N \/ Permutation (delivered (log (t_sv t)) ++ dq (t_sv t)) (map (pd_of gc) (written ka))) /\
    ((65535 <= N.of_nat (length (dq (t_cl t))))%N \/ Permutation (delivered (log (t_cl t)) ++ dq (t_cl t)) (map (pd_of gs) (written kb))))).
Proof. exact life_fine. Qed.
(** Whatever has happened so far, this end is reached after finitely many steps when no further call is made and no Interval elapses. *)
Theorem C85_settles : forall gc gs oc os n i ka kb t,
  cfg_ok gc -> cfg_ok gs -> signals_fit gc -> signals_fit gs -> lives n i ka kb (lstart gc gs oc os) t ->
  exists m t', n + m <= 136 + 13 * (length ka + length kb) + 31 * i /\ lsteps m t t' /\
    calm_end ka (t_cl t') /\ calm_end kb (t_sv t') /\ t_up t' = [] /\ t_dn t' = [] /\
    ((65535 <= N.of_nat (length (dq (t_sv t'))))%N \/ Permutation (delivered (log (t_sv t')) ++ dq (t_sv t')) (map (pd_of gc) (written ka))) /\
    ((65535 <= N.of_nat (length (dq (t_cl t'))))%N \/ Permutation (delivered (log (t_cl t')) ++ dq (t_cl t')) (map (pd_of gs) (written kb))).
Proof. exact life_settles. Qed.
Print Assumptions C85_alive.
Print Assumptions C85_settles.

(** ** Executions *)
Definition fairb (l : label) : bool :=
  match l with LArrive _ | LCancel | LOtherBeat _ | LMon false | LHand _ false | LHb false | LDialTimeout | LCall _ | LUser _ false | LHbTimer => false | _ => true end.
Definition saneb (c : conn) (op : uop) : bool :=
  match op with
  | OpRead _ | OpReadPD | OpState => true
  | OpWriteTo b _ => data_overhead (cfg c) + length b <=? 1500
  | OpWrite b rnd => (data_overhead (cfg c) + length b <=? 1500) && (N.eqb (maxs c) 1 || N.ltb rnd (maxs c))
  | _ => false
  end.
Lemma fairb_ok l : fairb l = true -> fair l /\ l <> LHbTimer.
Proof.
  intros H. split; [split|].
  - destruct l; cbn in *; try discriminate; auto; destruct ok; auto; discriminate.
  - intros i ->. discriminate.
  - intros ->. discriminate.
Qed.
Lemma saneb_ok c op : saneb c op = true -> sane c op.
Proof.
  destruct op; cbn [saneb sane]; intros H; try discriminate; auto.
  - apply andb_prop in H as [H1 H2]. apply Nat.leb_le in H1. split; [exact H1|]. apply Bool.orb_prop in H2 as [H2|H2]; [left; now apply N.eqb_eq|right; now apply N.ltb_lt].
  - now apply Nat.leb_le.
Qed.
Inductive lmove := Mv (m : tmove) | TickC | TickS.
Definition asleep (c : conn) : bool := match hb c with BSleep => true | _ => false end.
Definition dialled (c : conn) : bool := match dial c with DOk => true | _ => false end.
Definition allowed (t : talk) (m : tmove) : bool :=
  match m with
  | TC l | TS l => fairb l
  | TcallC op => saneb (t_cl t) op
  | TcallS op => saneb (t_sv t) op
  | TtoS _ => true
  | TtoC k => (k =? 0) || dialled (t_cl t)
  end.
Definition ldo (t : talk) (m : lmove) : option talk :=
  match m with
  | Mv m => if allowed t m then tdo t m else None
  | TickC => if asleep (t_cl t) then match step (t_cl t) LHbTimer with Some a => Some (mkTalk a (t_sv t) (t_up t) (t_dn t)) | None => None end else None
  | TickS => if asleep (t_sv t) then match step (t_sv t) LHbTimer with Some b => Some (mkTalk (t_cl t) b (t_up t) (t_dn t)) | None => None end else None
  end.
Fixpoint ldos (t : talk) (ms : list lmove) : option talk := match ms with [] => Some t | m :: ms => match ldo t m with Some t' => ldos t' ms | None => None end end.
Definition nsteps (ms : list lmove) : nat := length (filter (fun m => match m with Mv m => is_step m | _ => false end) ms).
Definition nticks (ms : list lmove) : nat := length (filter (fun m => match m with Mv _ => false | _ => true end) ms).
Definition lcalls_c (ms : list lmove) := flat_map (fun m => match m with Mv (TcallC op) => [op] | _ => [] end) ms.
Definition lcalls_s (ms : list lmove) := flat_map (fun m => match m with Mv (TcallS op) => [op] | _ => [] end) ms.
Lemma asleep_ok c : asleep c = true -> hb c = BSleep.
Proof. unfold asleep. destruct (hb c); congruence. Qed.
Lemma ldos_lives ms : forall n i p q t0 t t', lives n i p q t0 t -> ldos t ms = Some t' ->
  lives (n + nsteps ms) (i + nticks ms) (p ++ lcalls_c ms) (q ++ lcalls_s ms) t0 t'.
Proof.
  induction ms as [|m ms IH]; intros n i p q t0 t t' T E.
  - cbn in E. injection E as <-. cbn. now rewrite !Nat.add_0_r, !app_nil_r.
  - cbn [ldos] in E. destruct (ldo t m) as [t1|] eqn:M; [|discriminate]. destruct t as [a b u d].
    destruct m as [m| |]; cbn [ldo t_cl t_sv t_up t_dn] in M; unfold nsteps, nticks, lcalls_c, lcalls_s; cbn [filter length flat_map app];
      fold (nsteps ms); fold (nticks ms); fold (lcalls_c ms); fold (lcalls_s ms).
    + destruct (allowed (mkTalk a b u d) m) eqn:Al; [|discriminate].
      destruct m as [l|l|op|op|k|k]; cbn [tdo allowed t_cl t_sv] in M, Al; cbn [is_step length app].
      * destruct (step a l) as [a'|] eqn:S; [|discriminate]. injection M as <-. fold (nsteps ms). rewrite <- Nat.add_succ_comm. apply fairb_ok in Al as [F Nt].
        eapply IH; try exact E. eapply LV_S; [exact T|]. eapply L_client; eauto. eapply packets_grow; eauto.
      * destruct (step b l) as [b'|] eqn:S; [|discriminate]. injection M as <-. fold (nsteps ms). rewrite <- Nat.add_succ_comm. apply fairb_ok in Al as [F Nt].
        eapply IH; try exact E. eapply LV_S; [exact T|]. eapply L_server; eauto. eapply packets_grow; eauto.
      * destruct (step a (LCall op)) as [a'|] eqn:S; [|discriminate]. injection M as <-. change (op :: lcalls_c ms) with ([op] ++ lcalls_c ms). rewrite app_assoc.
        eapply IH; try exact E. eapply LV_client; eauto. now apply saneb_ok.
      * destruct (step b (LCall op)) as [b'|] eqn:S; [|discriminate]. injection M as <-. change (op :: lcalls_s ms) with ([op] ++ lcalls_s ms). rewrite app_assoc.
        eapply IH; try exact E. eapply LV_server; eauto. now apply saneb_ok.
      * destruct (pick k u) as [[[u1 raw] u2]|] eqn:P; [|discriminate]. apply pick_spec in P. subst u. destruct (step b (LArrive raw)) as [b'|] eqn:S; [|discriminate]. injection M as <-.
        fold (nsteps ms). rewrite <- Nat.add_succ_comm. eapply IH; try exact E. eapply LV_S; [exact T|]. now constructor.
      * destruct (pick k d) as [[[u1 raw] u2]|] eqn:P; [|discriminate]. destruct (step a (LArrive raw)) as [a'|] eqn:S; [|discriminate]. injection M as <-.
        fold (nsteps ms). rewrite <- Nat.add_succ_comm. eapply IH; try exact E. eapply LV_S; [exact T|].
        assert (Or : u1 = [] \/ dial a = DOk).
        { apply Bool.orb_prop in Al as [Al|Al]; [left|right; unfold dialled in Al; destruct (dial a); congruence]. apply Nat.eqb_eq in Al. subst k. unfold pick in P. destruct (nth_error d 0); [|discriminate]. now injection P as <- _ _. }
        apply pick_spec in P. subst d. now constructor.
    + destruct (asleep a) eqn:As; [|discriminate]. destruct (step a LHbTimer) as [a'|] eqn:S; [|discriminate]. injection M as <-. rewrite <- (Nat.add_succ_comm i). apply asleep_ok in As.
      eapply IH; try exact E. eapply LV_tick; [exact T|]. now constructor.
    + destruct (asleep b) eqn:As; [|discriminate]. destruct (step b LHbTimer) as [b'|] eqn:S; [|discriminate]. injection M as <-. rewrite <- (Nat.add_succ_comm i). apply asleep_ok in As.
      eapply IH; try exact E. eapply LV_tick; [exact T|]. now constructor.
Qed.
Lemma ldos0 ms t0 t : ldos t0 ms = Some t -> lives (nsteps ms) (nticks ms) (lcalls_c ms) (lcalls_s ms) t0 t.
Proof. intros E. exact (ldos_lives ms 0 0 [] [] t0 t0 t (LV_0 t0) E). Qed.
Definition mvs (ms : list tmove) : list lmove := map Mv ms.
Definition lmon : label := LMon true.
(** the handshake, with the heartbeat goroutines at their Wait *)
Definition life_handshake : list tmove :=
  map TC (LHb true :: boot_client) ++ map TS (LHb true :: boot_server) ++ [TtoS 0] ++ map TS ([lmon] ++ hand 0 5 ++ [lmon]) ++
  [TtoC 0] ++ map TC ([lmon] ++ hand 0 4 ++ [lmon; lmon]) ++ [TtoS 0] ++ map TS ([lmon] ++ hand 1 5 ++ [lmon; lmon]).
(** the client sends a BEAT and refuses its ack, for it has not yet noted the data; the server sends one too, and user data that overtake it;
    the client answers; after an Interval the server sends the next one *)
Definition life_beats : list lmove :=
  mvs ([TtoC 0] ++ map TC ([lmon] ++ hand 1 4 ++ [lmon; lmon]) ++ map TC [LHb true; LHbRand (repeat x61 128); LHb true] ++
    [TtoS 0] ++ map TS ([lmon] ++ hand 2 6 ++ [lmon]) ++ [TtoC 0] ++ map TC ([lmon] ++ hand 2 4 ++ [lmon; LHb true] ++ hand 2 3 ++ [lmon]) ++
    [TtoS 0] ++ map TS ([lmon] ++ hand 3 5 ++ [lmon] ++ [LHb true; LHbRand (repeat x62 128); LHb true; LHb true]) ++
    [TcallS (OpWrite [x64] 0); TcallC (OpRead (repeat x00 4))] ++ map TS [LUser 0 true; LUser 0 true; LUser 0 true] ++
    [TtoC 1] ++ map TC ([lmon] ++ hand 3 4 ++ [lmon; LData 0; LData 0; LData 0; LUser 0 true; LUser 0 true]) ++
    [TtoC 0] ++ map TC ([lmon] ++ hand 4 6 ++ [lmon]) ++ [TtoS 0] ++ map TS ([lmon] ++ hand 4 6 ++ [lmon])) ++
  [TickS] ++ mvs (map TS [LHbRand (repeat x61 128); LHb true; LHb true] ++ [TtoC 0] ++ map TC ([lmon] ++ hand 5 6 ++ [lmon]) ++
    [TtoS 0] ++ map TS ([lmon] ++ hand 5 6 ++ [lmon])).
Definition life_moves : list lmove := mvs life_handshake ++ life_beats.
Definition x_life0 : talk := Eval vm_compute in lstart x_cfg_hb x_cfg_hb 3 3.
Definition x_life1 : talk := Eval vm_compute in match ldos x_life0 life_moves with Some t => t | None => x_life0 end.
Lemma x_life0_eq : x_life0 = lstart x_cfg_hb x_cfg_hb 3 3.
Proof. vm_compute. reflexivity. Qed.
Lemma x_life1_eq : ldos x_life0 life_moves = Some x_life1.
Proof. vm_compute. reflexivity. Qed.
Definition x_life_n : nat := Eval vm_compute in nsteps life_moves.
Definition x_life_c : list uop := Eval vm_compute in lcalls_c life_moves.
Definition x_life_s : list uop := Eval vm_compute in lcalls_s life_moves.
Lemma x_life_counts : nsteps life_moves = x_life_n /\ nticks life_moves = 1 /\ lcalls_c life_moves = x_life_c /\ lcalls_s life_moves = x_life_s.
Proof. repeat (split; [vm_compute; reflexivity|]). vm_compute. reflexivity. Qed.
Lemma x_life_run : lives x_life_n 1 x_life_c x_life_s (lstart x_cfg_hb x_cfg_hb 3 3) x_life1.
Proof. destruct x_life_counts as (<- & <- & <- & <-). rewrite <- x_life0_eq. apply ldos0. exact x_life1_eq. Qed.
Lemma x_cfg_hb_ok : cfg_ok x_cfg_hb /\ signals_fit x_cfg_hb.
Proof.
  assert (E : cf_aspid x_cfg_hb = cf_aspid x_cfg /\ cf_tmt x_cfg_hb = cf_tmt x_cfg /\ cf_na x_cfg_hb = cf_na x_cfg /\ cf_rc x_cfg_hb = cf_rc x_cfg /\
    cf_corr x_cfg_hb = cf_corr x_cfg /\ cf_opc x_cfg_hb = cf_opc x_cfg /\ cf_dpc x_cfg_hb = cf_dpc x_cfg) by (repeat split; vm_compute; reflexivity).
  destruct E as (E1 & E2 & E3 & E4 & E5 & E6 & E7). destruct C79_ex_cfg as (A & B & _). unfold cfg_ok, signals_fit, handshake_fits in *.
  rewrite E1, E2, E3, E4, E5, E6, E7. auto.
Qed.
Example C85_ex : beats_enabled x_cfg_hb = true /\ cfg_ok x_cfg_hb /\ signals_fit x_cfg_hb /\ lives x_life_n 1 x_life_c x_life_s (lstart x_cfg_hb x_cfg_hb 3 3) x_life1 /\
  x_life_n = 130 /\ x_life_c = [OpRead (repeat x00 4)] /\ x_life_s = [OpWrite [x64] 0] /\
  us (t_cl x_life1) = [UDone (RRead 1 [x64; x00; x00; x00])] /\ us (t_sv x_life1) = [UDone (RWrote 112)] /\
  hb (t_cl x_life1) = BSleep /\ hb (t_sv x_life1) = BSleep /\
  length (filter refusal (log (t_cl x_life1))) = 1 /\ filter refusal (log (t_sv x_life1)) = [] /\ t_up x_life1 = [] /\ t_dn x_life1 = [].
Proof.
  split; [reflexivity|]. destruct x_cfg_hb_ok as [Ok Fi]. split; [exact Ok|]. split; [exact Fi|]. split; [exact x_life_run|].
  repeat (split; [vm_compute; reflexivity|]). vm_compute. reflexivity.
Qed.

(** C86: what the server's user writes as soon as Accept has returned may be lost without any error although no packet is: a DATA message that
    overtakes the ASP ACTIVE ACK (it is sent on another stream) is refused by the client. Afterwards both are Active, every call has returned without an error, every
    packet has been received, and the payload has been neither delivered nor queued. *)
Definition over_moves : list tmove :=
  life_handshake ++ [TcallS (OpWrite [x64] 0)] ++ map TS [LUser 0 true; LUser 0 true; LUser 0 true] ++
  [TtoC 1] ++ map TC ([lmon] ++ hand 1 4 ++ [LData 0; lmon; lmon]) ++ [TtoS 0] ++ map TS ([lmon] ++ hand 2 4 ++ [lmon] ++ hand 2 1 ++ [lmon]) ++
  [TtoC 0] ++ map TC ([lmon; LData 0; lmon] ++ hand 2 4 ++ [lmon; lmon]) ++ [TtoC 0] ++ map TC ([lmon] ++ hand 3 5 ++ [lmon]) ++
  [TtoS 0] ++ map TS ([lmon] ++ hand 3 5 ++ [lmon]) ++ map TC [LHb true] ++ map TS [LHb true].
Definition x_over0 : talk := Eval vm_compute in lstart x_cfg x_cfg 3 3.
Definition x_over1 : talk := Eval vm_compute in match tdos x_over0 over_moves with Some t => t | None => x_over0 end.
Lemma x_over0_eq : x_over0 = lstart x_cfg x_cfg 3 3.
Proof. vm_compute. reflexivity. Qed.
Lemma x_over1_eq : tdos x_over0 over_moves = Some x_over1.
Proof. vm_compute. reflexivity. Qed.
Lemma over_moves_fair : Forall (fair_tmove x_cfg) over_moves.
Proof.
  unfold over_moves, life_handshake, lmon. cbn [map app hand repeat boot_client boot_server].
  repeat (apply Forall_cons; [cbn [fair_tmove sane]; first [exact Logic.I|split; [exact Logic.I|discriminate]|apply Nat.leb_le; vm_compute; reflexivity
    |split; [apply Nat.leb_le; vm_compute; reflexivity|right; vm_compute; reflexivity]]|]). apply Forall_nil.
Qed.
Lemma x_over_run : talks (length (filter is_step over_moves)) (cl_calls over_moves) (sv_calls over_moves) x_over0 x_over1.
Proof.
  apply tdos0.
  - split; vm_compute; reflexivity.
  - split; vm_compute; reflexivity.
  - exact over_moves_fair.
  - exact x_over1_eq.
Qed.
Theorem C86_overtaken_refuted : exists n kb t, talks n [] kb (lstart x_cfg x_cfg 3 3) t /\ written kb = [[x64]] /\ us (t_sv t) = [UDone (RWrote 112)] /\
  dial (t_cl t) = DOk /\ dial (t_sv t) = DOk /\ state (t_cl t) = Active /\ state (t_sv t) = Active /\ sound (t_cl t) /\ sound (t_sv t) /\
  t_up t = [] /\ t_dn t = [] /\ inq (t_cl t) = [] /\ inq (t_sv t) = [] /\ Forall (fun x => x = DDone) (ds (t_cl t)) /\
  delivered (log (t_cl t)) = [] /\ dq (t_cl t) = [] /\
  refused_data (log (t_cl t)) = [pd_of x_cfg [x64]].
Proof.
  exists (length (filter is_step over_moves)), (sv_calls over_moves), x_over1. split.
  - rewrite <- x_over0_eq. replace (@nil uop) with (cl_calls over_moves) by (vm_compute; reflexivity). exact x_over_run.
  - repeat (split; [first [vm_compute; reflexivity|repeat split; vm_compute; reflexivity|apply Forall_cons; [vm_compute; reflexivity|apply Forall_nil]]|]). vm_compute. reflexivity.
Qed.
Print Assumptions C86_overtaken_refuted.
