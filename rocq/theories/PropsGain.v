(** C120, C121: what the users get. *)
From Verif Require Import GoBase BaseProofs ParamsModel MessagesModel WireSpec ParamsSpec MsgSpec ConfigModel
  ConnModel CfgSpec ConnSpec ConnBase ConnInv ConnTrace ConnUser ConnCodec ConnMore ConnExamples ConnStable ConnData ConnPair ConnPieces ConnE2E ConnDialog ConnDuo TalkSpec ConnTalk
  OrderSpec OrderProofs FlowSpec FlowProofs PropsUser PropsFsm PropsOrder PropsClose PropsPair PropsE2E PropsTalk PropsDuo LifeSpec ConnLife ConnLife2 ConnLife3 DemoPair PropsLife PropsFlow TimelySpec PropsTimely
  GainSpec GainProofs GainPair.
From Coq Require Import Arith Lia Permutation.
Open Scope nat_scope.
Opaque max_value_len.

Lemma nth_skip {A} (k : nat) : forall (l : list A) j, nth_error (skipn k l) j = nth_error l (k + j).
Proof. induction k as [|k IH]; intros [|x l] j; cbn [skipn Nat.add nth_error]; auto. now destruct j. Qed.

(** C120: in any execution, each payload of the log's deliveries is what exactly one Read or ReadPD has returned: there is for every call the payload it
    gave to its user, if it is a Read or ReadPD that returned data, and these are the deliveries, with multiplicity. *)
Theorem C120_returned : forall m g o ls c, run (start m g o) ls = Some c ->
  exists pss, gains (calls ls) (us c) pss /\ Permutation (concat pss) (delivered (log c)).
Proof. intros m g o ls c R. destruct (gained m g o ls c R) as (pss & T & P). exists pss. split; [now apply tracks_gains|exact P]. Qed.
(** If the user calls Read and ReadPD one after the other: in the order of the calls. *)
Theorem C120_in_turn : forall m g o ls c, run (start m g o) ls = Some c -> reads_in_turn (start m g o) ls ->
  exists pss, gains (calls ls) (us c) pss /\ concat pss = delivered (log c).
Proof. intros m g o ls c R U. destruct (gained_in_turn m g o ls c R U) as (pss & T & _ & E). exists pss. split; [now apply tracks_gains|exact E]. Qed.
(** Two endpoints: what the calls at the second return is among what the calls at the first wrote... *)
Theorem C120_authentic : forall ma ga oa lsa a mb gb ob lsb b lost,
  run (start ma ga oa) lsa = Some a -> run (start mb gb ob) lsb = Some b -> cfg_ok ga -> Forall plain (calls lsa) ->
  Forall (fun p => length p <= 1500) (packets (log a)) -> Permutation (arrivals lsb ++ lost) (packets (log a)) ->
  exists pss rest, gains (calls lsb) (us b) pss /\ Permutation (concat pss ++ rest) (map (pd_of ga) (accepted (calls lsa) (us a))).
Proof.
  intros ma ga oa lsa a mb gb ob lsb b lost Ra Rb Ok Pl Sz Co. destruct (C120_returned _ _ _ _ _ Rb) as (pss & G & P).
  destruct (end_to_end_sub _ _ _ _ _ _ _ _ _ _ _ Ra Rb Ok Pl Sz Co) as [rest Q]. exists pss, rest. split; [exact G|]. now rewrite P.
Qed.
(** ... and in the same order, if each user makes one call after the other, the network keeps the order and the receiver is not hurried. *)
Theorem C120_ordered : forall ma ga oa lsa a mb gb ob lsb b,
  run (start ma ga oa) lsa = Some a -> run (start mb gb ob) lsb = Some b -> cfg_ok ga -> Forall plain (calls lsa) -> in_turn (start ma ga oa) lsa ->
  Forall (fun p => length p <= 1500) (packets (log a)) -> picked (arrivals lsb) (packets (log a)) -> unhurried (start mb gb ob) lsb -> reads_in_turn (start mb gb ob) lsb ->
  exists pss, gains (calls lsb) (us b) pss /\ picked (concat pss) (map (pd_of ga) (accepted (calls lsa) (us a))).
Proof.
  intros ma ga oa lsa a mb gb ob lsb b Ra Rb Ok Pl It Sz Pk Un Rt. destruct (C120_in_turn _ _ _ _ _ Rb Rt) as (pss & G & E). exists pss. split; [exact G|].
  rewrite E. now apply (C116_order ma ga oa lsa a mb gb ob lsb b).
Qed.

(** C121: two endpoints from Dial and Accept on, with heartbeats or without, as in C85. As long as a step is possible the execution goes on, for a bounded number
    of steps; then a side whose user calls Read and ReadPD at most as often as the other one writes has no call that has not returned, and one whose user calls
    them at least as often has been given exactly what the other one wrote. *)
Theorem C121_exchange : forall gc gs oc os n i ka kb t,
  cfg_ok gc -> cfg_ok gs -> signals_fit gc -> signals_fit gs -> lives n i ka kb (lstart gc gs oc os) t ->
  n <= 136 + 13 * (length ka + length kb) + 31 * i /\
  ((exists t', lstep t t') \/
   exists pa pb, gains ka (us (t_cl t)) pa /\ gains kb (us (t_sv t)) pb /\
    (n_reads ka <= length (written kb) -> Forall over_with (us (t_cl t))) /\ (length (written kb) <= n_reads ka -> Permutation (concat pa) (map (pd_of gs) (written kb))) /\
    (n_reads kb <= length (written ka) -> Forall over_with (us (t_sv t))) /\ (length (written ka) <= n_reads kb -> Permutation (concat pb) (map (pd_of gc) (written ka)))).
Proof. exact exchange. Qed.
(** What conn_test.go does, for all configurations, payloads and buffers: the client writes a message which the server reads, the server writes one which the
    client reads. When no step is possible any more each of the four calls has returned, and the Reads have returned what the other side wrote. *)
Theorem C121_round_trip : forall gc gs oc os n i m1 r1 b1 m2 r2 b2 t,
  cfg_ok gc -> cfg_ok gs -> signals_fit gc -> signals_fit gs ->
  lives n i [OpWrite m1 r1; OpRead b2] [OpRead b1; OpWrite m2 r2] (lstart gc gs oc os) t -> ~ (exists t', lstep t t') ->
  length m1 <= length b1 -> length m2 <= length b2 ->
  exists k1 k2, us (t_cl t) = [UDone (RWrote k1); UDone (RRead (length m2) (m2 ++ skipn (length m2) b2))] /\
                us (t_sv t) = [UDone (RRead (length m1) (m1 ++ skipn (length m1) b1)); UDone (RWrote k2)].
Proof.
  intros gc gs oc os n i m1 r1 b1 m2 r2 b2 t O1 O2 F1 F2 L No L1 L2.
  assert (Rd : forall m b g r, read_as (Some b) (pd_of g m) r -> length m <= length b -> r = RRead (length m) (m ++ skipn (length m) b)).
  { intros m b g r (b' & -> & Ln & Nt) Le. cbn [pd_of pd_data] in *. f_equal. apply nth_error_eq. intros j. rewrite Nt.
    destruct (Nat.ltb_spec j (length b)) as [Lj|Lj].
    - destruct (Nat.ltb_spec j (length m)) as [Lm|Lm]; [now rewrite nth_error_app1|]. rewrite nth_error_app2 by exact Lm. rewrite nth_skip. f_equal. lia.
    - symmetry. apply nth_error_None. rewrite app_length, skipn_length. lia. }
  destruct (life_fine _ _ _ _ _ _ _ _ _ O1 O2 F1 F2 L) as (_ & _ & _ & _ & _ & [S|(C1 & C2 & _)]); [contradiction|].
  destruct (exchange _ _ _ _ _ _ _ _ _ O1 O2 F1 F2 L) as (_ & [S|(pa & pb & Ga & Gb & _ & Pa & _ & Pb)]); [contradiction|].
  specialize (Pa (le_n _)). specialize (Pb (le_n _)). cbn [written flat_map app map] in Pa, Pb.
  pose proof (ce_us _ _ C1) as A1. pose proof (ce_us _ _ C2) as A2.
  inversion A1 as [|? u1 ? ? W1 A1' E1 E1']; subst. inversion A1' as [|? u2 ? ? R1 A1'' E2 E2']; subst. inversion A1''; subst.
  inversion A2 as [|? v1 ? ? R2 A2' E3 E3']; subst. inversion A2' as [|? v2 ? ? W2 A2'' E4 E4']; subst. inversion A2''; subst.
  destruct W1 as [k1 ->]. destruct W2 as [k2 ->]. exists k1, k2.
  rewrite <- E1' in Ga. rewrite <- E3' in Gb.
  inversion Ga as [|? ? p1 ? ? ? G1 Ga']; subst. inversion Ga' as [|? ? p2 ? ? ? G2 Ga'']; subst. inversion Ga''; subst.
  inversion Gb as [|? ? q1 ? ? ? G3 Gb']; subst. inversion Gb' as [|? ? q2 ? ? ? G4 Gb'']; subst. inversion Gb''; subst.
  inversion G1; subst. inversion G4; subst. cbn [concat app] in Pa, Pb. rewrite app_nil_r in Pa, Pb.
  apply Permutation_sym, Permutation_length_1_inv in Pa. apply Permutation_sym, Permutation_length_1_inv in Pb. subst p2 q1.
  inversion G2; subst. inversion G3; subst. split; repeat f_equal; eapply Rd; eauto.
Qed.
Print Assumptions C120_returned.
Print Assumptions C120_in_turn.
Print Assumptions C120_authentic.
Print Assumptions C120_ordered.
Print Assumptions C121_exchange.
Print Assumptions C121_round_trip.

(** ** conn_test.go *)
(** the configurations of setupConn — conn_test.go:26-42, 63-78 *)
Definition test_srv : config :=
  let g := NewServerConfig (Some (mkHbInfo false 0 0 [])) 0x22222222 0x11111111 1 2 0 0 [1; 2]%N x03 x00 x00 x01 in
  mkConfig (cf_hb g) None (cf_tmt g) (cf_na g) (cf_rc g) None (cf_opc g) (cf_dpc g) (cf_si g) (cf_ni g) (cf_mp g) (cf_sls g).
Definition test_cli : config :=
  let g := NewClientConfig (Some (mkHbInfo false 0 0 [])) 0x11111111 0x22222222 1 2 0 0 [1; 2]%N x03 x00 x00 x01 in
  mkConfig (cf_hb g) (cf_aspid g) (cf_tmt g) (cf_na g) (cf_rc g) None (cf_opc g) (cf_dpc g) (cf_si g) (cf_ni g) (cf_mp g) (cf_sls g).
Lemma test_cfgs : cfg_ok test_cli /\ cfg_ok test_srv /\ signals_fit test_cli /\ signals_fit test_srv.
Proof.
  destruct C79_ex_cfg as (A & B & _). unfold cfg_ok, signals_fit, handshake_fits in *.
  assert (E : cf_aspid test_cli = cf_aspid x_cfg /\ cf_tmt test_cli = cf_tmt x_cfg /\ cf_na test_cli = cf_na x_cfg /\ cf_rc test_cli = cf_rc x_cfg /\
    cf_corr test_cli = None /\ cf_opc test_cli = cf_opc x_cfg /\ cf_dpc test_cli = cf_dpc x_cfg) by (repeat split; vm_compute; reflexivity).
  assert (E' : cf_aspid test_srv = None /\ cf_tmt test_srv = cf_tmt x_cfg /\ cf_na test_srv = cf_na x_cfg /\ cf_rc test_srv = cf_rc x_cfg /\
    cf_corr test_srv = None /\ cf_opc test_srv = cf_dpc x_cfg /\ cf_dpc test_srv = cf_opc x_cfg) by (repeat split; vm_compute; reflexivity).
  destruct E as (-> & -> & -> & -> & -> & -> & ->). destruct E' as (-> & -> & -> & -> & -> & -> & ->).
  destruct A as (A1 & A2 & A3 & A4 & A5 & A6 & A7). destruct B as ((B1 & B2) & B3 & B4). cbn [slot_size].
  split; [repeat (split; [first [assumption|exact Logic.I]|]); assumption|]. split; [repeat (split; [first [assumption|exact Logic.I]|]); assumption|].
  split; (split; [split; first [assumption|lia]|]); split; first [assumption|lia].
Qed.
Definition test_msg : list byte := [xde; xad; xbe; xef].
Definition test_moves : list lmove :=
  mvs (life_handshake ++ [TtoC 0] ++ map TC ([lmon] ++ hand 1 4 ++ [lmon; lmon]) ++
    [TcallC (OpWrite test_msg 1)] ++ map TC [LUser 0 true; LUser 0 true; LUser 0 true] ++ [TcallS (OpRead (repeat x00 1024)); TS (LUser 0 true); TtoS 0] ++
    map TS ([lmon] ++ hand 2 4 ++ [lmon; LData 0; LData 0; LData 0; LUser 0 true]) ++
    [TcallS (OpWrite test_msg 0)] ++ map TS [LUser 1 true; LUser 1 true; LUser 1 true] ++ [TcallC (OpRead (repeat x00 1024)); TC (LUser 1 true); TtoC 0] ++
    map TC ([lmon] ++ hand 2 4 ++ [lmon; LData 0; LData 0; LData 0; LUser 1 true]) ++ map TC [LHb true] ++ map TS [LHb true]).
Definition test_start : talk := Eval vm_compute in lstart test_cli test_srv 3 3.
Definition test_end : talk := Eval vm_compute in match ldos test_start test_moves with Some t => t | None => test_start end.
Lemma test_start_eq : test_start = lstart test_cli test_srv 3 3.
Proof. vm_compute. reflexivity. Qed.
Lemma test_end_eq : ldos test_start test_moves = Some test_end.
Proof. vm_compute. reflexivity. Qed.
Lemma test_counts : nsteps test_moves = 72 /\ nticks test_moves = 0 /\
  lcalls_c test_moves = [OpWrite test_msg 1; OpRead (repeat x00 1024)] /\ lcalls_s test_moves = [OpRead (repeat x00 1024); OpWrite test_msg 0].
Proof. repeat (split; [vm_compute; reflexivity|]). vm_compute. reflexivity. Qed.
Example C121_ex : cfg_ok test_cli /\ cfg_ok test_srv /\ signals_fit test_cli /\ signals_fit test_srv /\
  lives 72 0 [OpWrite test_msg 1; OpRead (repeat x00 1024)] [OpRead (repeat x00 1024); OpWrite test_msg 0] (lstart test_cli test_srv 3 3) test_end /\
  ~ (exists t', lstep test_end t') /\
  us (t_cl test_end) = [UDone (RWrote 96); UDone (RRead 4 (test_msg ++ repeat x00 1020))] /\
  us (t_sv test_end) = [UDone (RRead 4 (test_msg ++ repeat x00 1020)); UDone (RWrote 96)].
Proof.
  destruct test_cfgs as (A & B & C & D). do 4 (split; [assumption|]). split.
  - rewrite <- test_start_eq. destruct test_counts as (<- & <- & E1 & E2). rewrite <- E1, <- E2. apply ldos0. exact test_end_eq.
  - split; [apply (restful_pair (t_cl test_end) (t_sv test_end)); vm_compute; reflexivity|]. split; vm_compute; reflexivity.
Qed.

(** ** Reads one after the other, and overlapping ones *)
(** decides [reads_in_turn] *)
Fixpoint rturn_run (c : conn) (ops : list uop) (ls : list label) : bool :=
  match ls with
  | [] => true
  | l :: ls =>
      match l with
      | LCall op => if a_read op then forallb (fun x => negb (a_read (fst x)) || match snd x with UDone _ => true | _ => false end) (List.combine ops (us c)) else true
      | _ => true
      end && match step c l with None => true | Some b => rturn_run b (ops ++ calls [l]) ls end
  end.
Lemma rturn_run_sound ls : forall c ops, rturn_run c ops ls = true -> forall pre op post a, ls = pre ++ LCall op :: post -> run c pre = Some a -> a_read op = true ->
  forall i op' u, nth_error (ops ++ calls pre) i = Some op' -> a_read op' = true -> nth_error (us a) i = Some u -> exists r, u = UDone r.
Proof.
  induction ls as [|l ls IH]; intros c ops H pre op post a E R W i op' u N W' Nu; [destruct pre; discriminate|]. cbn [rturn_run] in H.
  apply andb_prop in H as [H1 H2]. destruct pre as [|p pre]; cbn [app] in E; injection E as -> E.
  - injection R as ->. rewrite W in H1. rewrite forallb_forall in H1. cbn [calls flat_map] in N. rewrite app_nil_r in N.
    specialize (H1 _ (combine_at _ _ _ _ _ N Nu)). cbn [fst snd] in H1. rewrite W' in H1. destruct u; try discriminate. eauto.
  - cbn [run] in R. destruct (step c p) as [c1|]; [|discriminate].
    eapply (IH c1 _ H2 pre op post a E R W i op' u); eauto. rewrite <- app_assoc, <- calls_app. exact N.
Qed.
Lemma rturn_run_ok c ls : rturn_run c [] ls = true -> reads_in_turn c ls.
Proof. intros H pre op post a E R W i op' u N. eapply (rturn_run_sound ls c [] H); eauto. Qed.
Definition ls_two : list label :=
  boot_server ++ reply 0 b_up ++ reply 1 b_act ++ [LMon true] ++ [LArrive (b_data [x61]); LArrive (b_data [x62; x63]); LMon true] ++ hand 2 4 ++
  [LMon true; LData 0; LData 0; LData 0; LMon true] ++ hand 3 4 ++ [LMon true; LData 1; LData 1; LData 1].
(** ReadPD, State, then Read *)
Definition ls_turns : list label := ls_two ++ [LCall OpReadPD; LUser 0 true; LUser 0 true; LCall OpState; LCall (OpRead (repeat x00 4)); LUser 2 true; LUser 2 true].
Definition e_turns : conn := Eval vm_compute in match run (start Server x_cfg 3) ls_turns with Some c => c | None => start Server x_cfg 3 end.
Example C120_ex : run (start Client x_cfg 3) ls_client = Some e_client /\ run (start Server x_cfg 3) ls_turns = Some e_turns /\ cfg_ok x_cfg /\
  Forall plain (calls ls_client) /\ in_turn (start Client x_cfg 3) ls_client /\ Forall (fun p => length p <= 1500) (packets (log e_client)) /\
  arrivals ls_turns = packets (log e_client) /\ unhurried (start Server x_cfg 3) ls_turns /\ reads_in_turn (start Server x_cfg 3) ls_turns /\
  us e_turns = [UDone (RPD (pd_of x_cfg [x61])); UGo OpState; UDone (RRead 2 [x62; x63; x00; x00])] /\
  gains (calls ls_turns) (us e_turns) [[pd_of x_cfg [x61]]; []; [pd_of x_cfg [x62; x63]]].
Proof.
  split; [vm_compute; reflexivity|]. split; [vm_compute; reflexivity|]. split; [apply C31_ex_cfg|]. split; [repeat constructor|].
  split; [apply turn_run_ok; vm_compute; reflexivity|].
  split; [apply Forall_forall; intros p I; vm_compute in I; apply Nat.leb_le; intuition (subst; reflexivity)|].
  split; [vm_compute; reflexivity|]. split; [apply calm_run_ok; vm_compute; reflexivity|]. split; [apply rturn_run_ok; vm_compute; reflexivity|].
  assert (E : us e_turns = [UDone (RPD (pd_of x_cfg [x61])); UGo OpState; UDone (RRead 2 [x62; x63; x00; x00])]) by (vm_compute; reflexivity).
  split; [exact E|]. rewrite E. replace (calls ls_turns) with [OpReadPD; OpState; OpRead (repeat x00 4)] by (vm_compute; reflexivity).
  constructor; [constructor|]. constructor; [constructor; discriminate|]. constructor; [|constructor].
  apply G_read. exact (read_result_as (Some (repeat x00 4)) (pd_of x_cfg [x62; x63])).
Qed.
(** "What the calls return, in the order of the calls, is what is delivered" is false when Reads overlap: of two calls that wait at the same time the second one
    may be given the first payload. *)
Definition ls_cross : list label := ls_two ++ [LCall OpReadPD; LCall OpReadPD; LUser 0 true; LUser 1 true; LUser 1 true; LUser 0 true].
Definition e_cross : conn := Eval vm_compute in match run (start Server x_cfg 3) ls_cross with Some c => c | None => start Server x_cfg 3 end.
Theorem C120_overlapping_refuted : run (start Server x_cfg 3) ls_cross = Some e_cross /\ unhurried (start Server x_cfg 3) ls_cross /\
  delivered (log e_cross) = [pd_of x_cfg [x61]; pd_of x_cfg [x62; x63]] /\
  forall pss, gains (calls ls_cross) (us e_cross) pss -> concat pss = [pd_of x_cfg [x62; x63]; pd_of x_cfg [x61]].
Proof.
  split; [vm_compute; reflexivity|]. split; [apply calm_run_ok; vm_compute; reflexivity|]. split; [vm_compute; reflexivity|]. intros pss G.
  assert (E : us e_cross = [UDone (RPD (pd_of x_cfg [x62; x63])); UDone (RPD (pd_of x_cfg [x61]))]) by (vm_compute; reflexivity).
  rewrite E in G. replace (calls ls_cross) with [OpReadPD; OpReadPD] in G by (vm_compute; reflexivity). clear E.
  assert (One : forall pd ps, gives OpReadPD (UDone (RPD pd)) ps -> ps = [pd]).
  { intros pd ps H. inversion H as [| |? ? _ N2]; subst; [reflexivity|]. exfalso. eapply N2. reflexivity. }
  inversion G as [|? ? p1 ? ? ? G1 G']; subst. inversion G' as [|? ? p2 ? ? ? G2 G'']; subst. inversion G''; subst.
  rewrite (One _ _ G1), (One _ _ G2). reflexivity.
Qed.
Print Assumptions C120_overlapping_refuted.
