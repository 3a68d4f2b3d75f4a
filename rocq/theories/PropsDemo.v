(** C101, C102: the example programs of the repository. *)
From Verif Require Import GoBase BaseProofs ParamsModel MessagesModel WireSpec ParamsSpec MsgSpec ConfigModel
  ConnModel CfgSpec ConnSpec ConnBase ConnInv ConnUser ConnExamples ConnData ConnDuo ConnPair ConnPieces ConnE2E ConnDialog TalkSpec ConnTalk
  LifeSpec ConnLife3 PropsTalk PropsLife DemoModel DemoSpec DemoProofs DemoPair.
From Coq Require Import Arith Lia.
Open Scope nat_scope.

(** ** C101 *)
(** Whatever the peer sends, Read hands over at most 1476 octets at a time: a buffer of that size suffices. *)
Theorem C101_size : forall c p, reachable c -> In p (delivered (log c)) -> length (pd_data p) <= 1476.
Proof. exact delivered_size. Qed.
(** serve with such a buffer, whatever the peer and the network do and in whatever order the goroutines run: the lines printed are those of the
    payloads handed over, in order and complete; Read returns octets or ErrNotEstablished and nothing else, so that the branch for io.EOF is
    never taken; and no step of the program panics. *)
Theorem C101_serve : forall size m g o ls c p, 1476 <= size -> serve_run (start m g o, serve_start size) ls = Some (c, p) ->
  printed_right c p /\
  (forall i r, g_at p = AReturn i -> nth_error (us c) i = Some (UDone r) -> r = RNotEstablished \/ exists n b, r = RRead n b) /\
  (forall c' p', serve_step c p = Some (c', p') -> crash c' = None).
Proof. exact serve_prints. Qed.
Print Assumptions C101_size.
Print Assumptions C101_serve.

(** executions of serve with any buffer *)
Definition sv_cfg : config := Eval vm_compute in match check_interval (Some (server_config 0 (5 * second))) with Ok g => g | _ => x_cfg end.
Definition lib (ls : list label) : list alabel := map ALib ls.
Definition bare_data (d : list byte) : list byte :=
  bytes_of (Typed (NewData None None (Some (NewProtocolData 1 2 x03 x00 x00 x01 d)) None)).
Definition serve_one (d : list byte) : list alabel :=
  lib server_up ++ [AProg; AProg] ++ lib (take 2 (bare_data d) ++ [LData 0; LData 0; LData 0; LUser 0 true; LUser 0 true]).
Definition big : list byte := repeat x61 1476.
Definition x_big : conn := Eval vm_compute in match serve_run (start Server sv_cfg 3, mkProg AEstablish [] []) (serve_one big) with Some (c, _) => c | None => start Server sv_cfg 3 end.
Definition big_result (buf : list byte) : ures := RRead 1476 (firstn (length buf) big ++ skipn 1476 buf).
Lemma x_big_run buf : serve_run (start Server sv_cfg 3, mkProg AEstablish buf []) (serve_one big) = Some (set_us [UDone (big_result buf)] x_big, mkProg (AReturn 0) buf []).
Proof. vm_compute. reflexivity. Qed.
(** With any smaller buffer a peer that sends 1476 octets makes the program panic. *)
Lemma serve_run_app a : forall b s, serve_run s (a ++ b) = match serve_run s a with Some s1 => serve_run s1 b | None => None end.
Proof. induction a as [|x a IH]; intros b s; [reflexivity|]. cbn [app serve_run]. destruct (serve_run1 s x); [apply IH|reflexivity]. Qed.
Lemma big_panics c buf : crash c = None -> us c = [UDone (big_result buf)] -> length buf < 1476 ->
  serve_run (c, mkProg (AReturn 0) buf []) [AProg] = Some (panicking PSlice c, mkProg (AReturn 0) buf []).
Proof.
  intros Cr Us L. cbn [serve_run serve_run1 fst snd]. unfold serve_step. rewrite Cr. cbn [g_at]. rewrite Us. unfold big_result. cbn [nth_error].
  replace (1476 <=? _) with false; [reflexivity|]. symmetry. apply Nat.leb_gt. rewrite app_length, firstn_length, skipn_length. pose proof (Nat.le_min_l (length buf) (length big)). lia.
Qed.
Theorem C101_short_refuted : forall size, size < 1476 -> exists g o ls c p,
  serve_run (start Server g o, serve_start size) ls = Some (c, p) /\ crash c = Some PSlice /\ told (log c) = [PRead big] /\ g_out p = [].
Proof.
  intros size L. exists sv_cfg, 3%N, (serve_one big ++ [AProg]). eexists _, _. split.
  - rewrite serve_run_app. unfold serve_start. rewrite x_big_run. apply big_panics; [vm_compute; reflexivity|reflexivity|now rewrite repeat_length].
  - split; [vm_compute; reflexivity|]. split; [vm_compute; reflexivity|reflexivity].
Qed.
Print Assumptions C101_short_refuted.
(** with the buffer of the program the line is printed *)
Example C101_ex_big : exists ls c p, serve_run (start Server sv_cfg 3, serve_start 1500) ls = Some (c, p) /\ g_out p = [PRead big] /\ crash c = None /\ g_at p = ACall /\
  In (repeat x61 1476) (map pd_data (delivered (log c))).
Proof.
  exists (serve_one big ++ [AProg]). eexists _, _. split.
  - rewrite serve_run_app. unfold serve_start. rewrite x_big_run. vm_compute. reflexivity.
  - split; [vm_compute; reflexivity|]. split; [reflexivity|]. split; [reflexivity|]. vm_compute. auto.
Qed.
(** data, then ASP Inactive: the line, an error, and Close *)
Definition serve_end : list alabel := lib server_up ++ [AProg; AProg] ++
  lib (take 2 (bare_data [x64]) ++ [LData 0; LData 0; LData 0; LUser 0 true; LUser 0 true]) ++ [AProg; AProg] ++ lib (reply 3 pk_inactive ++ [LUser 1 true]) ++ [AProg].
Example C101_ex_end : exists c p, serve_run (start Server sv_cfg 3, serve_start 1500) (serve_end ++ lib [LUser 2 true] ++ [AProg]) = Some (c, p) /\
  g_out p = [PRead [x64]; PReadError] /\ g_at p = AEnd /\ closed c = true /\ crash c = None.
Proof. eexists _, _. split; [vm_compute; reflexivity|]. repeat split; vm_compute; reflexivity. Qed.
(** a peer that says nothing: Accept gives up, and with it the process *)
Example C101_ex_silent : exists c p, serve_run (start Server sv_cfg 3, serve_start 1500) (lib (boot_server ++ [LDialTimeout]) ++ [AProg]) = Some (c, p) /\
  g_out p = [PFatalEstablish] /\ g_at p = AEnd /\ dial c = DTimeout.
Proof. eexists _, _. split; [vm_compute; reflexivity|]. repeat split; vm_compute; reflexivity. Qed.

(** ** C102 *)
(** the configurations of the two programs, for all values of their flags *)
Definition demo_configs (gc gs : config) : Prop := exists hbInt hbInt' hbTimer,
  check_interval (Some (client_config hbInt)) = Ok gc /\ check_interval (Some (server_config hbInt' hbTimer)) = Ok gs.
Definition bare (g : config) : config := mkConfig None (cf_aspid g) (cf_tmt g) (cf_na g) (cf_rc g) (cf_corr g) (cf_opc g) (cf_dpc g) (cf_si g) (cf_ni g) (cf_mp g) (cf_sls g).
Lemma check_bare g g' : check_interval (Some g) = Ok g' -> bare g' = bare g.
Proof. unfold check_interval. destruct (cf_hb g); [|discriminate]. destruct (_ =? _)%Z; intros E; injection E as <-; reflexivity. Qed.
Lemma demo_bare gc gs : demo_configs gc gs -> bare gc = bare (client_config 0) /\ bare gs = bare (server_config 0 0).
Proof. intros (a & b & t & A & B). apply check_bare in A, B. rewrite A, B. split; reflexivity. Qed.
Lemma bare_ok g : cfg_ok (bare g) -> cfg_ok g.
Proof. exact (fun H => H). Qed.
Lemma bare_fits g : signals_fit (bare g) -> signals_fit g.
Proof. exact (fun H => H). Qed.
Lemma small_enough n : (N.of_nat n <= 65531)%N -> n <= max_value_len.
Proof. intros H. unfold max_value_len. lia. Qed.
Ltac ok_config := unfold cfg_ok, slot_ok; cbn [client_config server_config bare cf_aspid cf_tmt cf_na cf_rc cf_corr cf_opc cf_dpc NewServerConfig NewClientConfig NewConfig
    SetRoutingContexts SetNetworkAppearance SetTrafficModeType SetAspIdentifier EnableHeartbeat];
  repeat match goal with |- _ /\ _ => split end; first [reflexivity | exact I | apply small_enough; vm_compute; discriminate].
Ltac ok_sizes := unfold signals_fit, handshake_fits; repeat split; apply Nat.leb_le; vm_compute; reflexivity.
Lemma client_ok : cfg_ok (bare (client_config 0)) /\ signals_fit (bare (client_config 0)).
Proof. split; [ok_config|ok_sizes]. Qed.
Lemma server_ok : cfg_ok (bare (server_config 0 0)) /\ signals_fit (bare (server_config 0 0)).
Proof. split; [ok_config|ok_sizes]. Qed.
Lemma demo_fit gc gs : demo_configs gc gs -> fit gc gs /\ data_overhead gc = 44.
Proof.
  intros D. destruct (demo_bare _ _ D) as [A B]. destruct client_ok as [C1 C2], server_ok as [S1 S2]. split.
  - rewrite <- A in C1, C2. rewrite <- B in S1, S2. repeat split; first [apply C1|apply C2|apply S1|apply S2].
  - change (data_overhead gc) with (data_overhead (bare gc)). rewrite A. reflexivity.
Qed.
(** The example client connected to the example server, with any flags that leave the user data at 1456 octets or fewer, over an association with two or more
    outbound streams, as long as the network loses nothing and no heartbeat Timer expires: in every order in which the goroutines, the network
    and the programs take their steps, neither ends or panics, the client has printed one line for each Write that has returned, the server one
    line with the same octets for each Read, and at most as many; the number of steps is bounded by the Writes and Intervals; and when none is
    left the server has printed as many as were written. *)
Theorem C102_demo : forall gc gs oc os d n i w x, demo_configs gc gs -> streams oc -> length d <= 1456 -> dsteps d n i w (demo_start gc gs oc os) x ->
  n <= 152 + 29 * w + 31 * i /\
  sound (t_cl (e_talk x)) /\ sound (t_sv (e_talk x)) /\ going (e_cl x) /\ going (e_sv x) /\
  (exists k, g_out (e_cl x) = repeat (PSent d) k /\ k <= w <= S k) /\
  (exists j, g_out (e_sv x) = repeat (PRead d) j /\ j <= w) /\
  ((exists y, dstep d KStep x y) \/ caught_up d w x).
Proof. intros gc gs oc os d n i w x D So L T. destruct (demo_fit _ _ D) as [F O]. eapply demo_fine; eauto. rewrite O. lia. Qed.
(** It always comes to that, without a further Write or Interval ... *)
Theorem C102_settles : forall gc gs oc os d n i w x, demo_configs gc gs -> streams oc -> length d <= 1456 -> dsteps d n i w (demo_start gc gs oc os) x ->
  exists m y, n + m <= 152 + 29 * w + 31 * i /\ dsteps d m 0 0 x y /\ caught_up d w y.
Proof. intros gc gs oc os d n i w x D So L T. destruct (demo_fit _ _ D) as [F O]. eapply demo_settles; eauto. rewrite O. lia. Qed.
(** ... and the client goes on from there. *)
Theorem C102_goes_on : forall gc gs oc os d n i w x, demo_configs gc gs -> streams oc -> length d <= 1456 -> dsteps d n i w (demo_start gc gs oc os) x ->
  caught_up d w x -> exists y, dstep d KWrite x y.
Proof. intros gc gs oc os d n i w x D So L T. destruct (demo_fit _ _ D) as [F O]. eapply caught_up_write; eauto. rewrite O. lia. Qed.
Print Assumptions C102_demo.
Print Assumptions C102_settles.
Print Assumptions C102_goes_on.

(** *** Executions *)
(** a move of the library or the network, an Interval, a step of the client with this random number, a step of the server *)
Inductive dmove := ML (m : lmove) | MC (rnd : N) | MS.
Definition no_call (m : lmove) : bool := match m with Mv (TcallC _) | Mv (TcallS _) => false | _ => true end.
Definition drawnb (c : conn) (rnd : N) : bool := (maxs c <=? 1)%N || (rnd <? maxs c)%N.
Definition ddo (d : list byte) (x : demo) (m : dmove) : option demo :=
  match m with
  | ML m => if no_call m then match ldo (e_talk x) m with Some t => Some (mkDemo t (e_cl x) (e_sv x)) | None => None end else None
  | MC rnd => let t := e_talk x in
      if drawnb (t_cl t) rnd then match client_step d rnd (t_cl t) (e_cl x) with Some (a, p) => Some (mkDemo (mkTalk a (t_sv t) (t_up t) (t_dn t)) p (e_sv x)) | None => None end else None
  | MS => let t := e_talk x in
      match serve_step (t_sv t) (e_sv x) with Some (b, q) => Some (mkDemo (mkTalk (t_cl t) b (t_up t) (t_dn t)) (e_cl x) q) | None => None end
  end.
Fixpoint ddos (d : list byte) (x : demo) (ms : list dmove) : option demo := match ms with [] => Some x | m :: ms => match ddo d x m with Some y => ddos d y ms | None => None end end.
Definition kind_of (x : demo) (m : dmove) : kind :=
  match m with ML (Mv _) => KStep | ML _ => KTick | MC _ => client_kind (e_cl x) | MS => KStep end.
Lemma lives0 n i t t' : lives n i [] [] t t' -> (n = 0 -> i = 0 -> t = t') /\ (n = 1 -> i = 0 -> lstep t t') /\ (n = 0 -> i = 1 -> tick t t').
Proof.
  intros L. remember (@nil uop) as p eqn:Ep in L at 1. remember (@nil uop) as q eqn:Eq in L at 1. revert Ep Eq.
  induction L as [t|n i p q t t1 t2 L IH S|n i p q t t1 t2 L IH S|n i p q t a b u d op a' L IH Sa St|n i p q t a b u d op b' L IH Sa St]; intros Ep Eq.
  - repeat split; intros; try discriminate. 
  - destruct (IH Ep Eq) as (H0 & _ & _). repeat split; intros; try discriminate. injection H as ->. rewrite (H0 eq_refl H1) in *. exact S.
  - destruct (IH Ep Eq) as (H0 & _ & _). repeat split; intros; try discriminate. injection H1 as ->. rewrite (H0 H eq_refl) in *. exact S.
  - now destruct p.
  - now destruct q.
Qed.
Lemma ddo_step d x m y : ddo d x m = Some y -> dstep d (kind_of x m) x y.
Proof.
  destruct x as [[a b u v] p q]. destruct m as [m|rnd|]; cbn [ddo e_talk e_cl e_sv t_cl t_sv t_up t_dn]; intros E.
  - destruct (no_call m) eqn:Nc; [|discriminate]. destruct (ldo (mkTalk a b u v) m) as [t|] eqn:L; [|discriminate]. injection E as <-.
    assert (K : ldos (mkTalk a b u v) [m] = Some t) by (cbn [ldos]; now rewrite L). apply ldos0 in K.
    destruct m as [[l|l|op|op|k|k]| |]; try discriminate; cbn in K; apply lives0 in K as (_ & K1 & K2); cbn [kind_of].
    all: first [apply D_lib; apply K1; reflexivity|apply D_tick; apply K2; reflexivity].
  - destruct (drawnb a rnd) eqn:Dr; [|discriminate]. destruct (client_step d rnd a p) as [[a' p']|] eqn:S; [|discriminate]. injection E as <-. cbn [kind_of e_cl].
    eapply D_client; [|exact S]. unfold drawnb in Dr. unfold drawn. apply Bool.orb_prop in Dr as [Dr|Dr]; [left; now apply N.leb_le|right; now apply N.ltb_lt].
  - destruct (serve_step b q) as [[b' q']|] eqn:S; [|discriminate]. injection E as <-. cbn [kind_of]. now apply D_server.
Qed.
Fixpoint dcount (d : list byte) (x : demo) (ms : list dmove) (n i w : nat) : nat * nat * nat :=
  match ms with
  | [] => (n, i, w)
  | m :: ms => match ddo d x m with
      | Some y => match kind_of x m with KStep => dcount d y ms (S n) i w | KTick => dcount d y ms n (S i) w | KWrite => dcount d y ms n i (S w) end
      | None => (n, i, w) end
  end.
Lemma ddos_steps d x0 ms : forall x y n i w n' i' w', dsteps d n i w x0 x -> ddos d x ms = Some y -> dcount d x ms n i w = (n', i', w') -> dsteps d n' i' w' x0 y.
Proof.
  induction ms as [|m ms IH]; intros x y n i w n' i' w' T E C; cbn [ddos dcount] in *.
  - injection E as <-. injection C as <- <- <-. exact T.
  - destruct (ddo d x m) as [x1|] eqn:M; [|discriminate]. apply ddo_step in M. destruct (kind_of x m); (eapply IH; [|exact E|exact C]); [eapply DS_step|eapply DS_tick|eapply DS_write]; eauto.
Qed.
Definition cl_cfg : config := Eval vm_compute in match check_interval (Some (client_config 0)) with Ok g => g | _ => x_cfg end.
Lemma x_demo_configs : demo_configs cl_cfg sv_cfg.
Proof. exists 0%Z, 0%Z, (5 * second)%Z. split; vm_compute; reflexivity. Qed.
Definition lms (ms : list tmove) : list dmove := map (fun m => ML (Mv m)) ms.
Definition demo_handshake : list dmove :=
  lms (map TC boot_client ++ map TS boot_server ++ [TtoS 0] ++ map TS ([lmon] ++ hand 0 5 ++ [lmon]) ++
  [TtoC 0] ++ map TC ([lmon] ++ hand 0 4 ++ [lmon; lmon]) ++ [TtoS 0] ++ map TS ([lmon] ++ hand 1 5 ++ [lmon; lmon]) ++
  [TtoC 0] ++ map TC ([lmon] ++ hand 1 4 ++ [lmon; lmon])).
(** two Writes, the packets of which overtake each other; both are read *)
Definition demo_write (i : nat) : list dmove := [MC 1] ++ lms (map TC [LUser i true; LUser i true; LUser i true]) ++ [MC 1].
Definition demo_read (k h i : nat) : list dmove := lms ([TtoS k] ++ map TS ([lmon] ++ hand h 4 ++ [lmon; LData i; LData i; LData i])) ++ [MS] ++ lms (map TS [LUser i true; LUser i true]) ++ [MS].
Definition demo_moves : list dmove := demo_handshake ++ [MC 0; MS] ++ demo_write 0 ++ demo_write 1 ++ demo_read 1 2 0 ++ demo_read 0 3 1 ++ [MS] ++ lms [TS (LUser 2 true)].
Definition four : list byte := [xde; xad; xbe; xef].
Definition x_demo0 : demo := Eval vm_compute in demo_start cl_cfg sv_cfg 3 3.
Definition x_demo : demo := Eval vm_compute in match ddos four x_demo0 demo_moves with Some x => x | None => x_demo0 end.
Lemma x_demo0_eq : x_demo0 = demo_start cl_cfg sv_cfg 3 3.
Proof. vm_compute. reflexivity. Qed.
Lemma x_demo_eq : ddos four x_demo0 demo_moves = Some x_demo /\ dcount four x_demo0 demo_moves 0 0 0 = (78, 0, 2).
Proof. split; vm_compute; reflexivity. Qed.
Example C102_ex : demo_configs cl_cfg sv_cfg /\ streams 3 /\ length four <= 1456 /\ dsteps four 78 0 2 (demo_start cl_cfg sv_cfg 3 3) x_demo /\ caught_up four 2 x_demo.
Proof.
  split; [exact x_demo_configs|]. split; [split; reflexivity || discriminate|]. split; [apply Nat.leb_le; reflexivity|].
  split; [rewrite <- x_demo0_eq; eapply ddos_steps; [apply DS_0|apply x_demo_eq|apply x_demo_eq]|].
  repeat split; vm_compute; reflexivity.
Qed.


(** Longer user data: once such a packet is in the server's socket, at most two more pieces of 1500 octets are read, whatever happens. *)
Theorem C102_long : forall gc gs d bs b q ls b', demo_configs gc gs -> 1456 < length d -> (N.of_nat (length d) <= 65519)%N ->
  encodes (user_data gc d) bs -> reachable b -> inq b = bs :: q -> run b ls = Some b' ->
  exists k, k <= 2 /\ reads (log b') = reads (log b) ++ firstn k (chunks bs).
Proof.
  intros gc gs d bs b q ls b' D L1 L2 E R Q Ru. destruct (demo_fit _ _ D) as [(O1 & _) O]. eapply oversized_last; eauto. rewrite O. lia.
Qed.
Print Assumptions C102_long.
(** The client goes on printing lines: with one octet too many in -data, two lines, two packets, of which the second is not read. *)
Definition long_data : list byte := repeat x61 1457.
Definition long_moves : list dmove := demo_handshake ++ [MC 0; MS; MS] ++ demo_write 0 ++ demo_write 1 ++ lms [TtoS 0; TtoS 0].
Definition x_demo1 : demo := Eval vm_compute in match ddos long_data x_demo0 long_moves with Some x => x | None => x_demo0 end.
Definition long_packet : list byte := Eval vm_compute in bytes_of (user_data cl_cfg long_data).
Lemma x_demo1_eq : ddos long_data x_demo0 long_moves = Some x_demo1 /\ dcount long_data x_demo0 long_moves 0 0 0 = (51, 0, 2).
Proof. split; vm_compute; reflexivity. Qed.
Lemma x_demo1_run : exists ls, run (start Server sv_cfg 3) ls = Some (t_sv (e_talk x_demo1)).
Proof.
  exists (boot_server ++ reply 0 (bytes_of (asp_up cl_cfg)) ++ reply 1 (bytes_of (asp_active cl_cfg)) ++ [LMon true; LCall (OpRead (repeat x00 1500)); LArrive long_packet; LArrive long_packet]).
  vm_compute. reflexivity.
Qed.
Example C102_ex_long : dsteps long_data 51 0 2 (demo_start cl_cfg sv_cfg 3 3) x_demo1 /\ g_out (e_cl x_demo1) = [PSent long_data; PSent long_data] /\
  encodes (user_data cl_cfg long_data) long_packet /\ inq (t_sv (e_talk x_demo1)) = [long_packet; long_packet] /\ reachable (t_sv (e_talk x_demo1)) /\
  length (chunks long_packet) = 2.
Proof.
  split; [rewrite <- x_demo0_eq; eapply ddos_steps; [apply DS_0|apply x_demo1_eq|apply x_demo1_eq]|].
  split; [reflexivity|]. split; [eexists; vm_compute; reflexivity|]. split; [reflexivity|]. split; [|vm_compute; reflexivity].
  destruct x_demo1_run as [ls R]. eapply reachable_run; [apply reachable_start|exact R].
Qed.
(** Over an association with a single outbound stream the client panics in its first Write. *)
Definition x_demo2 : demo := Eval vm_compute in demo_start cl_cfg sv_cfg 1 3.
Definition one_moves : list dmove := demo_handshake ++ [MC 0; MC 0] ++ lms [TC (LUser 0 true)].
Definition x_demo3 : demo := Eval vm_compute in match ddos four x_demo2 one_moves with Some x => x | None => x_demo2 end.
Lemma x_demo2_eq : x_demo2 = demo_start cl_cfg sv_cfg 1 3.
Proof. vm_compute. reflexivity. Qed.
Lemma x_demo3_eq : ddos four x_demo2 one_moves = Some x_demo3 /\ dcount four x_demo2 one_moves 0 0 0 = (40, 0, 1).
Proof. split; vm_compute; reflexivity. Qed.
Theorem C102_one_stream_refuted : exists gc gs d n x, demo_configs gc gs /\ length d <= 1456 /\ dsteps d n 0 1 (demo_start gc gs 1 3) x /\ crash (t_cl (e_talk x)) = Some PIntn.
Proof.
  exists cl_cfg, sv_cfg, four, 40, x_demo3. split; [exact x_demo_configs|]. split; [apply Nat.leb_le; reflexivity|].
  split; [rewrite <- x_demo2_eq; eapply ddos_steps; [apply DS_0|apply x_demo3_eq|apply x_demo3_eq]|reflexivity].
Qed.
Print Assumptions C102_one_stream_refuted.
