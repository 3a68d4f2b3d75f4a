(** Order of data, re-activation, Close, panics, heartbeat: C38, C41, C44 to C48, C50, C53. *)
From Verif Require Import GoBase ParamsModel MessagesModel ConfigModel ConnModel CfgSpec ConnSpec
  ConnBase ConnInv ConnTrace ConnUser ConnCodec ConnMacro ConnMore ConnStable ConnExamples PropsFsm.
From Coq Require Import Arith Lia.
Open Scope nat_scope.

(** servers and clients with the heartbeat enabled, waiting for the acknowledgement of their first BEAT *)
Definition x_beat : list byte := repeat x61 128.
Definition server_hb : list label := [LHb true] ++ server_up ++ [LHb true; LHbRand x_beat; LHb true; LHb true].
Definition x_server_hb : conn := Eval vm_compute in after (start Server x_cfg_hb 3) server_hb.
Lemma x_server_hb_reachable : reachable x_server_hb.
Proof. exists Server, x_cfg_hb, 3%N, server_hb. vm_compute. reflexivity. Qed.

(** C38: two DATA packets; the second payload is delivered first *)
Theorem C38_refuted : exists ls c p1 p2, run x_server ls = Some c /\ crash c = None /\
  reads (log c) = reads (log x_server) ++ [pk_data [x61]; pk_data [x62]] /\
  delivered (log c) = [p2; p1] /\ pd_data p1 = [x61] /\ pd_data p2 = [x62] /\
  Forall (fun e => match e with ERefused _ _ | EClosed => False | _ => True end) (log c).
Proof.
  eexists (take 2 (pk_data [x61]) ++ take 3 (pk_data [x62]) ++ [LData 1; LData 1; LData 1; LData 0; LData 0; LData 0;
    LCall OpReadPD; LUser 0 true; LUser 0 true; LCall OpReadPD; LUser 1 true; LUser 1 true]), _, _, _.
  split; [vm_compute; reflexivity|]. split; [reflexivity|]. split; [vm_compute; reflexivity|].
  split; [vm_compute; reflexivity|]. split; [reflexivity|]. split; [reflexivity|]. vm_compute. repeat constructor.
Qed.
Print Assumptions C38_refuted.

(** C41: an update to Active of an established connection that is not Active leaves the monitor waiting for a
    reader of the established channel, holding the lock ... *)
Theorem C41_reactivated : forall c raw q m, reachable c -> crash c = None -> mon c = MRead -> sopen c = true -> ctxd c = false ->
  closed c = false -> dial c = DOk -> state c <> Active -> inq c = raw :: q -> length raw <= 1500 -> valid raw m -> names m = Some Active ->
  exists ls c', run c ls = Some c' /\ Forall smooth ls /\ mon c' = MEst /\ dial c' = DOk /\ closed c' = false /\ state c' = Active.
Proof.
  intros c raw q m R C M So Cx Cl D S Q Ln V N.
  destruct (process c raw q m) as (rc & ls & c' & evs & _ & _ & Ru & F & K & _ & St & Mo & _); auto.
  { intros t -> E. cbn in N. rewrite E in N. discriminate. }
  exists ls, c'. destruct K as (_ & _ & _ & Kc & _ & _ & _ & _ & _ & _ & Kd & _). unfold next_state in *. rewrite N in *.
  repeat split; auto; try congruence. rewrite Mo. unfold upd_mon. apply st_eqb_neq in S. now rewrite S.
Qed.
(** ... and this is never left: in no continuation is a packet read or the state updated ... *)
Theorem C41_stuck : forall c ls c', mon c = MEst -> dial c <> DWait -> closed c = false -> run c ls = Some c' ->
  mon c' = MEst /\ dial c' <> DWait /\ closed c' = false /\
  reads (log c') = reads (log c) /\ updates (log c') = updates (log c).
Proof. intros c ls c' M D K R. destruct (stuck_est_forever c ls c' (conj M (conj D K)) R) as ((A & B & E) & _ & F & G). auto. Qed.
(** ... and no call other than WriteSignal returns. *)
Theorem C41_calls : forall c ls c' i op, mon c = MEst -> dial c <> DWait -> closed c = false -> run c ls = Some c' ->
  nth_error (us c) i = Some (UGo op) -> (forall m, op <> OpWriteSignal m) -> forall r, nth_error (us c') i <> Some (UDone r).
Proof.
  intros c ls c' i op M D K R N L r. destruct (stuck_est_calls c ls c' i op (conj M (conj D K)) R N) as (op' & E & _).
  - destruct op; auto. exfalso. eapply L; reflexivity.
  - congruence.
Qed.
(** an established server receives ASP Inactive and then ASP Active; State() and Close() hang *)
Theorem C41_refuted : exists c, run x_server (reply 2 pk_inactive ++ reply 3 pk_active ++ [LCall OpState; LCall OpClose]) = Some c /\
  reachable c /\ updates (log c) = [Down; Inactive; Active; Inactive; Active] /\
  forall ls c', run c ls = Some c' -> nth_error (us c') 0 = Some (UGo OpState) /\ nth_error (us c') 1 = Some (UGo OpClose) /\
    reads (log c') = reads (log c).
Proof.
  eexists. split; [vm_compute; reflexivity|].
  match goal with |- reachable ?x /\ _ => set (c := x) end.
  split; [eapply (reachable_run x_server (reply 2 pk_inactive ++ reply 3 pk_active ++ [LCall OpState; LCall OpClose])); [apply x_server_reachable|vm_compute; reflexivity]|].
  split; [vm_compute; reflexivity|]. intros ls c' R.
  assert (S : stuck_est c) by (vm_compute; repeat split; discriminate).
  assert (U : forall i op, nth_error (us c) i = Some (UGo op) -> (op = OpState \/ op = OpClose) -> nth_error (us c') i = Some (UGo op)).
  { intros i op N O. revert ls c' R. refine (run_along c (fun c' => nth_error (us c') i = Some (UGo op)) _ _); [exact N|].
    intros ls a l b Ra I St. destruct (user_frame _ _ _ _ _ St I) as [[ok ->]|[E _]]; [|exact E].
    destruct (stuck_est_forever _ _ _ S Ra) as ((Ma & _) & _).
    unfold step, step_user in St. destruct (crash a); [discriminate|]. rewrite I in St. unfold unlocked in St. rewrite Ma in St.
    destruct O as [-> | ->]; discriminate. }
  split; [apply U; auto|]. split; [apply U; auto|]. apply (stuck_est_forever c ls c' S R).
Qed.
Print Assumptions C41_reactivated.
Print Assumptions C41_stuck.
Print Assumptions C41_calls.
Print Assumptions C41_refuted.
Example C41_ex : exists c m, run x_server (reply 2 pk_inactive ++ [LArrive pk_active]) = Some c /\ crash c = None /\ mon c = MRead /\ sopen c = true /\
  ctxd c = false /\ closed c = false /\ dial c = DOk /\ state c <> Active /\ inq c = [pk_active] /\ valid pk_active m /\ names m = Some Active.
Proof.
  eexists _, _. split; [vm_compute; reflexivity|]. do 6 (split; [reflexivity|]). split; [discriminate|]. split; [reflexivity|].
  split; [split; vm_compute; reflexivity|]. reflexivity.
Qed.

(** C44: results of the calls made after a Close has returned, in every continuation. *)
Theorem C44_results : forall c j b op ls c', reachable c -> nth_error (us c) j = Some (UDone (RClosed b)) ->
  run c (LCall op :: ls) = Some c' -> exists u, nth_error (us c') (length (us c)) = Some u /\
  match u with
  | UDone r =>
      match op with
      | OpState => exists s, r = RState s /\ s <> Active
      | OpClose => r = RClosed false
      | OpWriteSignal _ => r = RWriteError
      | _ => r = RNotEstablished
      end
  | UGo _ => True
  | _ => False
  end.
Proof.
  intros c j b op ls c' R N Ru. cbn [run] in Ru. destruct (step c (LCall op)) as [c1|] eqn:S; [|discriminate].
  pose proof (closed_returned c j b R N) as A. destruct (step_stepR _ _ _ S) as [C S'].
  pose proof (after_close_step _ _ _ A C S') as A1.
  assert (U : us c1 = us c ++ [UGo op]).
  { unfold step in S. rewrite C in S. destruct (dial c); inversion S. reflexivity. }
  destruct (late_calls c1 ls c' (length (us c)) op A1 Ru) as (u & Nu & L).
  { rewrite U, nth_error_app2, Nat.sub_diag by lia. reflexivity. }
  exists u. split; auto. destruct u; cbn in L; auto.
Qed.
(** The calls do return as soon as the state lock is free. *)
Theorem C44_returns : forall c j b i op, reachable c -> nth_error (us c) j = Some (UDone (RClosed b)) -> crash c = None -> unlocked c = true ->
  nth_error (us c) i = Some (UGo op) -> match op with OpRead _ | OpReadPD | OpWriteTo _ _ | OpWritePDTo _ _ => True | _ => False end ->
  exists c', step c (LUser i true) = Some c' /\ nth_error (us c') i = Some (UDone RNotEstablished).
Proof. intros c j b i op R N. apply late_call_returns. eapply closed_returned; eauto. Qed.
Print Assumptions C44_results.
Print Assumptions C44_returns.
Example C44_ex : exists c, run x_server [LCall OpClose; LUser 0 true; LCall (OpWriteTo [x61] 1)] = Some c /\
  nth_error (us c) 0 = Some (UDone (RClosed true)) /\ unlocked c = true /\ nth_error (us c) 1 = Some (UGo (OpWriteTo [x61] 1)).
Proof. eexists. split; [vm_compute; reflexivity|]. repeat split. Qed.
(** the update of a packet in flight can still set the state to Active behind the lock: State() then hangs *)
Example C44_ex_hang : exists c, run x_server (reply 2 pk_inactive ++ [LArrive pk_active; LMon true] ++ hand 3 4 ++
    [LCall OpClose; LUser 0 true; LHand 3 true; LMon true]) = Some c /\
  nth_error (us c) 0 = Some (UDone (RClosed true)) /\ state c = Active /\ unlocked c = false.
Proof. eexists. split; [vm_compute; reflexivity|]. repeat split. Qed.

(** C45: a data goroutine sends on the channel that Close has closed *)
Theorem C45_send_refuted : exists ls c, run x_server ls = Some c /\ crash c = Some PSendClosed /\
  nth_error (us c) 0 = Some (UDone (RClosed true)).
Proof.
  exists ([LArrive (pk_data [x61]); LMon true] ++ hand 2 2 ++ [LData 0; LData 0; LCall OpClose; LUser 0 true; LData 0]).
  eexists. split; [vm_compute; reflexivity|]. split; reflexivity.
Qed.
(** the monitor closes channels that Close has already closed *)
Theorem C45_close_refuted : exists ls c, run x_server ls = Some c /\ crash c = Some PCloseClosed /\
  nth_error (us c) 0 = Some (UDone (RClosed true)).
Proof.
  exists ([LArrive pk_inactive; LMon true] ++ hand 2 4 ++ [LCall OpClose; LUser 0 true; LHand 2 true; LMon true; LMon false; LMon true]).
  eexists. split; [vm_compute; reflexivity|]. split; reflexivity.
Qed.
(** With no packet in flight Close returns, and nothing panics in any continuation, repeated Close included. *)
Theorem C45_calm : forall c i ok, reachable c -> crash c = None -> mon c = MRead -> Forall (fun d => d = DDone) (ds c) -> maxs c <> 0%N ->
  closed c = false \/ state c = Down -> nth_error (us c) i = Some (UGo OpClose) ->
  exists c1, step c (LUser i ok) = Some c1 /\ nth_error (us c1) i = Some (UDone (RClosed (sopen c))) /\
    forall ls c', run c1 ls = Some c' -> crash c' = None /\ state c' = Down.
Proof. exact calm_close. Qed.
Print Assumptions C45_send_refuted.
Print Assumptions C45_close_refuted.
Print Assumptions C45_calm.
Example C45_ex : exists c, run x_client (take 2 (pk_data [x61]) ++ [LData 0; LData 0; LData 0; LCall OpClose]) = Some c /\
  crash c = None /\ mon c = MRead /\ ds c = [DDone] /\ maxs c = 2%N /\ closed c = false /\ nth_error (us c) 0 = Some (UGo OpClose).
Proof. eexists. split; [vm_compute; reflexivity|]. repeat split. Qed.

(** C46: as long as the channels are not closed, a step panics only in these three places: a BEAT ACK without data
    handled in Active, a DATA without Protocol Data whose goroutine found the state Active, and a write by the user on an
    association with a single outbound stream. *)
Theorem C46_sources : forall c l c' p, reachable c -> closed c = false -> step c l = Some c' -> crash c' = Some p ->
  exists i,
    (p = PNil /\ exists t k, nth_error (hs c) i = Some (IHandle t :: k) /\ m_kind t = KHeartbeatAck /\
       fget FHeartbeatData (m_f t) = None /\ state c = Active /\ unlocked c = true) \/
    (p = PNil /\ exists t, nth_error (ds c) i = Some (DPd t) /\ m_kind t = KData /\ fget FProtocolData (m_f t) = None) \/
    (p = PIntn /\ maxs c = 0%N /\ exists rnd, (exists b, nth_error (us c) i = Some (UGo (OpWrite b rnd))) \/
       (exists pd, nth_error (us c) i = Some (UGo (OpWritePD pd rnd)))).
Proof. exact crash_sources. Qed.
(** The first two always panic ... *)
Theorem C46_beat_ack_panics : forall c i ok t k, crash c = None -> nth_error (hs c) i = Some (IHandle t :: k) -> m_kind t = KHeartbeatAck ->
  fget FHeartbeatData (m_f t) = None -> state c = Active -> unlocked c = true ->
  exists c', step c (LHand i ok) = Some c' /\ crash c' = Some PNil.
Proof. intros c i ok t k C N K F S U. apply nil_beat_ack_step; auto. exists t, k. auto. Qed.
Theorem C46_data_panics : forall c i t, crash c = None -> nth_error (ds c) i = Some (DPd t) -> m_kind t = KData ->
  fget FProtocolData (m_f t) = None -> exists c', step c (LData i) = Some c' /\ crash c' = Some PNil.
Proof. intros c i t C N K F. apply nil_data_step; auto. exists t. auto. Qed.
(** ... and every Active connection that waits for a packet can be made to by one packet. *)
Theorem C46_beat_ack_crashes : forall c raw q t, reachable c -> crash c = None -> mon c = MRead -> sopen c = true -> ctxd c = false ->
  state c = Active -> inq c = raw :: q -> length raw <= 1500 -> valid raw (Typed t) ->
  m_kind t = KHeartbeatAck -> fget FHeartbeatData (m_f t) = None ->
  exists ls c', run c ls = Some c' /\ Forall smooth ls /\ crash c' = Some PNil.
Proof. exact beat_ack_crashes. Qed.
Theorem C46_data_crashes : forall c raw q t, reachable c -> crash c = None -> mon c = MRead -> sopen c = true -> ctxd c = false ->
  state c = Active -> inq c = raw :: q -> length raw <= 1500 -> valid raw (Typed t) ->
  m_kind t = KData -> fget FProtocolData (m_f t) = None ->
  exists ls c', run c ls = Some c' /\ Forall (fun l => smooth l \/ exists i, l = LData i) ls /\ crash c' = Some PNil.
Proof. exact data_crashes. Qed.
Print Assumptions C46_sources.
Print Assumptions C46_beat_ack_panics.
Print Assumptions C46_data_panics.
Print Assumptions C46_beat_ack_crashes.
Print Assumptions C46_data_crashes.
(** the two packets, and the connections they are sent to *)
Theorem C46_refuted : (exists c, run x_server ([LArrive pk_beat_ack_empty; LMon true] ++ hand 2 3) = Some c /\ crash c = Some PNil) /\
  (exists c, run x_client ([LArrive pk_data_empty; LMon true] ++ hand 2 2 ++ [LData 0; LData 0]) = Some c /\ crash c = Some PNil).
Proof. split; eexists; (split; [vm_compute; reflexivity|reflexivity]). Qed.
Print Assumptions C46_refuted.
Example C46_ex : exists t, valid pk_beat_ack_empty (Typed t) /\ m_kind t = KHeartbeatAck /\ fget FHeartbeatData (m_f t) = None.
Proof. eexists. split; [split; vm_compute; reflexivity|]. split; reflexivity. Qed.
Example C46_ex_data : exists t, valid pk_data_empty (Typed t) /\ m_kind t = KData /\ fget FProtocolData (m_f t) = None.
Proof. eexists. split; [split; vm_compute; reflexivity|]. split; reflexivity. Qed.
(** one outbound stream: Write panics *)
Example C46_ex_stream : exists c, run (start Server x_cfg 1) (server_up ++ [LCall (OpWrite [x61] 0); LUser 0 true]) = Some c /\ crash c = Some PIntn.
Proof. eexists. split; [vm_compute; reflexivity|reflexivity]. Qed.

(** C47: while the monitor waits for a packet, nothing but a packet, a transport failure or a Close changes the
    connection: neither the expiry of the heartbeat nor the cancellation of the context. *)
Theorem C47_idle : forall s c ls c', mon c = MRead -> inq c = [] -> sopen c = true -> closed c = false -> dial c <> DWait -> state c = s ->
  Forall (fun u => u <> UGo OpClose) (us c) ->
  Forall (fun l => match l with LArrive _ | LMon false | LCall OpClose => False | _ => True end) ls -> run c ls = Some c' ->
  mon c' = MRead /\ sopen c' = true /\ closed c' = false /\ state c' = s /\ reads (log c') = reads (log c).
Proof.
  intros s c ls c' M Q So Cl D St U F R.
  destruct (waiting_forever s c ls c') as [(A1 & A2 & A3 & A4 & A5 & A6 & A7) B]; auto.
  repeat split; auto.
Qed.
(** the heartbeat has expired and the context is cancelled: the connection stays Active *)
Theorem C47_refuted : exists c, run x_server_hb [LHbTimer; LCancel] = Some c /\ hb c = BErr EHeartbeatExpired /\ ctxd c = true /\
  forall ls c', Forall (fun l => match l with LArrive _ | LMon false | LCall OpClose => False | _ => True end) ls -> run c ls = Some c' ->
  state c' = Active /\ sopen c' = true /\ closed c' = false.
Proof.
  eexists. split; [vm_compute; reflexivity|]. split; [reflexivity|]. split; [reflexivity|]. intros ls c' F R.
  match type of R with run ?x _ = _ => destruct (C47_idle Active x ls c') as (A & B & D & E & _) end; auto; try reflexivity; try discriminate; try constructor.
Qed.
Print Assumptions C47_idle.
Print Assumptions C47_refuted.
Example C47_ex : mon x_client = MRead /\ inq x_client = [] /\ sopen x_client = true /\ closed x_client = false /\ dial x_client = DOk /\ us x_client = [].
Proof. repeat split. Qed.

(** C48: whatever data a BEAT ACK carries, processing it wakes the heartbeat. *)
Theorem C48_any_ack : forall c raw q t, reachable c -> crash c = None -> mon c = MRead -> sopen c = true -> ctxd c = false -> closed c = false ->
  hb c = BAck -> inq c = raw :: q -> length raw <= 1500 -> valid raw (Typed t) -> m_kind t = KHeartbeatAck ->
  (state c = Active -> fget FHeartbeatData (m_f t) <> None) ->
  exists ls c', run c ls = Some c' /\ Forall smooth ls /\ hb c' = BSleep /\ mon c' = upd_mon (state c) c /\ state c' = state c /\ crash c' = None.
Proof. exact beat_ack_processed. Qed.
(** a BEAT ACK with other data is refused and still counts as the acknowledgement *)
Theorem C48_refuted : exists c m, hb x_server_hb = BAck /\ hbd x_server_hb = x_beat /\
  run x_server_hb ([LArrive (pk_beat_ack [x62]); LMon true] ++ hand 2 4 ++ [LMon true] ++ hand 2 3 ++ [LMon true]) = Some c /\
  In (ERefused (OHand 2) (EUnexpected m)) (log c) /\ hb c = BSleep /\ mon c = MRead /\ state c = Active.
Proof.
  eexists _, _. split; [reflexivity|]. split; [reflexivity|]. split; [vm_compute; reflexivity|].
  split; [|repeat split]. do 9 right. left. reflexivity.
Qed.
(** With the heartbeat disabled a BEAT ACK is the last packet ever read. *)
Theorem C48_blocks : forall c c1 raw t ls c', reachable c -> beats_enabled (cfg c) = false -> mon c = MRead -> step c (LMon true) = Some c1 ->
  log c1 = log c ++ [ERead raw] -> valid raw (Typed t) -> m_kind t = KHeartbeatAck -> run c1 ls = Some c' ->
  reads (log c') = reads (log c1) /\ mon c' <> MRead.
Proof. exact ack_last. Qed.
Print Assumptions C48_any_ack.
Print Assumptions C48_refuted.
Print Assumptions C48_blocks.
Example C48_ex : exists c c1 t, run x_server [LArrive (pk_beat_ack [x62])] = Some c /\ beats_enabled (cfg c) = false /\ mon c = MRead /\
  step c (LMon true) = Some c1 /\ log c1 = log c ++ [ERead (pk_beat_ack [x62])] /\ valid (pk_beat_ack [x62]) (Typed t) /\ m_kind t = KHeartbeatAck.
Proof.
  eexists _, _, _. split; [vm_compute; reflexivity|]. split; [reflexivity|]. split; [reflexivity|]. split; [vm_compute; reflexivity|].
  split; [reflexivity|]. split; [split; vm_compute; reflexivity|]. reflexivity.
Qed.

(** C50: a transport failure in Down, while Dial/Accept waits, can only be followed by its timer. *)
Theorem C50_down : forall c c1 ls c', reachable c -> mon c = MRead -> state c = Down -> dial c = DWait -> step c (LMon false) = Some c1 ->
  run c1 ls = Some c' -> dial c' = DWait \/ dial c' = DTimeout.
Proof. intros c c1 ls c' R M S D St Ru. apply (hopeless_forever c1 ls c'); auto. eapply hopeless_entered; eauto. Qed.
(** in Inactive the failure is reported at once *)
Theorem C50_inactive : exists c, run (start Server x_cfg 3) (boot_server ++ reply 0 pk_up ++ [LMon false; LMon true; LDialClosed]) = Some c /\ dial c = DFailed.
Proof. eexists. split; [vm_compute; reflexivity|reflexivity]. Qed.
(** a client whose peer is unreachable *)
Theorem C50_refuted : exists c, run (start Client x_cfg 3) (boot_client ++ [LMon false; LMon true]) = Some c /\ mon c = MExit /\ sopen c = false /\
  dial c = DWait /\ forall ls c', run c ls = Some c' -> dial c' <> DFailed /\ dial c' <> DOk.
Proof.
  eexists. split; [vm_compute; reflexivity|]. do 3 (split; [reflexivity|]). intros ls c' R.
  match type of R with run ?x _ = _ => assert (H : hopeless x) by (vm_compute; repeat split; auto) end.
  destruct (hopeless_forever _ _ _ H R) as (_ & _ & _ & _ & [->| ->]); split; discriminate.
Qed.
Print Assumptions C50_down.
Print Assumptions C50_inactive.
Print Assumptions C50_refuted.
Example C50_ex : exists c c1, run (start Client x_cfg 3) boot_client = Some c /\ mon c = MRead /\ state c = Down /\ dial c = DWait /\ step c (LMon false) = Some c1.
Proof. eexists _, _. split; [vm_compute; reflexivity|]. do 3 (split; [reflexivity|]). vm_compute. reflexivity. Qed.

(** C53: another connection's beat makes the correct BEAT ACK be refused *)
Theorem C53_refuted : exists b l d' c m, log x_server_hb = l ++ [ESend OHb 0 (beat x_beat) b] /\
  run x_server_hb ([LOtherBeat d'; LArrive (pk_beat_ack x_beat); LMon true] ++ hand 2 4 ++ [LMon true]) = Some c /\
  log c = log x_server_hb ++ [ERead (pk_beat_ack x_beat); ERefused (OHand 2) (EUnexpected (Typed m));
     ESend OMon 0 (Typed (NewError (Some (NewErrorCode 6)) (cf_rc x_cfg_hb) (cf_na x_cfg_hb) (Some (NewAffectedPointCode [cf_opc x_cfg_hb])) None))
       (bytes_of (Typed (NewError (Some (NewErrorCode 6)) (cf_rc x_cfg_hb) (cf_na x_cfg_hb) (Some (NewAffectedPointCode [cf_opc x_cfg_hb])) None)))].
Proof.
  eexists _, (removelast (log x_server_hb)), (repeat x62 128), _, _. split; [vm_compute; reflexivity|]. split; [vm_compute; reflexivity|]. vm_compute. reflexivity.
Qed.
(** Without such interference the data a connection waiting for an ack compares with is the one it sent last, so that
    the correct BEAT ACK is accepted. *)
Theorem C53_alone : forall m g o ls c, run (start m g o) ls = Some c ->
  Forall (fun l => match l with LOtherBeat _ => False | _ => True end) ls -> hb c = BAck ->
  exists l1 b l2, log c = l1 ++ ESend OHb 0 (beat (hbd c)) b :: l2 /\ Forall (fun e => match e with ESend OHb _ _ _ => False | _ => True end) l2.
Proof. exact beats_run. Qed.
Print Assumptions C53_refuted.
Print Assumptions C53_alone.
Example C53_ex : exists c, run x_server_hb (take 2 (pk_beat_ack x_beat)) = None /\
  run x_server_hb ([LArrive (pk_beat_ack x_beat); LMon true] ++ hand 2 6 ++ [LMon true]) = Some c /\
  log c = log x_server_hb ++ [ERead (pk_beat_ack x_beat); EUpd Active] /\ hb c = BSleep.
Proof. eexists. split; [vm_compute; reflexivity|]. split; [vm_compute; reflexivity|]. split; [vm_compute; reflexivity|reflexivity]. Qed.
