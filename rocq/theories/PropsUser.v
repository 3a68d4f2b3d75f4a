(** The user's calls: C28 to C31. *)
From Verif Require Import GoBase ParamsModel MessagesModel ConfigModel ConnModel WireSpec ParamsSpec CfgSpec ConnSpec
  ConnBase ConnInv ConnTrace ConnUser ConnCodec ConnMacro ConnMore ConnExamples.
From Coq Require Import Arith Lia.
Open Scope nat_scope.

(** C28: the stream of a Write/WritePD is between 1 and MaxMessageStreamID() ... *)
Theorem C28_stream : forall c i op m ls c' s b, reachable c -> nth_error (us c) i = Some (UGo op) -> carries (cfg c) op m ->
  (exists x rnd, op = OpWrite x rnd) \/ (exists pd rnd, op = OpWritePD pd rnd) ->
  run c ls = Some c' -> (exists r, nth_error (us c') i = Some (UDone r)) ->
  usends i (log c') = usends i (log c) ++ [(s, m, b)] -> (1 <= s <= maxs c)%N.
Proof. exact write_stream. Qed.
(** ... which is the number of outbound streams minus one, and every stream in the range is drawn. *)
Theorem C28_max : forall m g o ls c, run (start m g o) ls = Some c -> (1 <= o <= 65535)%N -> maxs c = (o - 1)%N.
Proof. exact streams_of_start. Qed.
Theorem C28_all_streams : forall max s, (1 <= s <= max)%N -> (max < 65536)%N -> exists rnd, choose_stream max rnd = Ok (Some s).
Proof. exact stream_draw. Qed.
(** With a single outbound stream MaxMessageStreamID() is 0: the call can only panic, and never returns or sends. *)
Theorem C28_single_stream : forall c i op, nth_error (us c) i = Some (UGo op) ->
  (exists b rnd, op = OpWrite b rnd) \/ (exists pd rnd, op = OpWritePD pd rnd) -> maxs c = 0%N ->
  (crash c = None -> forall ok, exists c', step c (LUser i ok) = Some c' /\ crash c' = Some PIntn) /\
  (forall ls c', run c ls = Some c' -> nth_error (us c') i = Some (UGo op) /\ usends i (log c') = usends i (log c)).
Proof. exact write_panics. Qed.
Print Assumptions C28_stream.
Print Assumptions C28_max.
Print Assumptions C28_all_streams.
Print Assumptions C28_single_stream.

(** a Write on stream 2 of an established server with 3 outbound streams *)
Example C28_ex : exists c, run x_server [LCall (OpWrite [x61; x62] 1); LUser 0 true; LUser 0 true; LUser 0 true] = Some c /\
  exists m b, usends 0 (log c) = [(2%N, m, b)] /\ nth_error (us c) 0 = Some (UDone (RWrote (length b + length b))) /\ maxs c = 2%N.
Proof.
  eexists. split; [vm_compute; reflexivity|]. eexists _, _. split; [vm_compute; reflexivity|]. split; [vm_compute; reflexivity|reflexivity].
Qed.
Example C28_ex_single : exists c, run (start Server x_cfg 1) (server_up ++ [LCall (OpWrite [x61] 0); LUser 0 true]) = Some c /\
  crash c = Some PIntn.
Proof. eexists. split; [vm_compute; reflexivity|reflexivity]. Qed.

(** C29: what a write call can return, and what it sends. *)
Theorem C29_outcome : forall c i op m ls c' r, reachable c -> nth_error (us c) i = Some (UGo op) -> carries (cfg c) op m ->
  run c ls = Some c' -> nth_error (us c') i = Some (UDone r) ->
  (r = RNotEstablished /\ usends i (log c') = usends i (log c) /\ via (fun x => state x <> Active) c c') \/
  (r = RWriteError /\ usends i (log c') = usends i (log c) /\ via (fun x => state x = Active) c c') \/
  exists s b, r = RWrote (2 * length b) /\ encodes m b /\ stream_for (maxs c) op s /\
    usends i (log c') = usends i (log c) ++ [(s, m, b)] /\ via (fun x => state x = Active) c c'.
Proof. exact write_outcome. Qed.
(** The encoding is longer than what was given, so the count is never len(b). *)
Theorem C29_count : forall g op m b, carries g op m -> encodes m b ->
  match op with
  | OpWrite x _ | OpWriteTo x _ => length x < length b
  | OpWritePD (Some p) _ | OpWritePDTo (Some p) _ => length (p_data p) < length b
  | _ => True
  end.
Proof. exact write_count. Qed.
Print Assumptions C29_outcome.
Print Assumptions C29_count.

(** The call of the example above sends one DATA message with the configured fields; 112 is returned for 2 octets. *)
Example C29_ex : exists c, run x_server [LCall (OpWrite [x61; x62] 1); LUser 0 true; LUser 0 true; LUser 0 true] = Some c /\
  usends 0 (log c) = [(2%N, Typed (NewData (cf_na x_cfg) (cf_rc x_cfg)
     (Some (NewProtocolData 0x11111111 0x22222222 x03 x00 x00 x01 [x61; x62])) (cf_corr x_cfg)), pk_data [x61; x62])] /\
  nth_error (us c) 0 = Some (UDone (RWrote (2 * length (pk_data [x61; x62])))).
Proof. eexists. split; [vm_compute; reflexivity|]. split; [vm_compute; reflexivity|vm_compute; reflexivity]. Qed.
(** a WritePD without parameter, on a stream of the caller's choice, after the peer deactivated the connection *)
Example C29_ex_inactive : exists c, run x_server (reply 2 pk_inactive ++ [LCall (OpWritePDTo None 7); LUser 0 true]) = Some c /\
  usends 0 (log c) = [] /\ nth_error (us c) 0 = Some (UDone RNotEstablished).
Proof. eexists. split; [vm_compute; reflexivity|]. split; reflexivity. Qed.

(** C30: Read and ReadPD return a payload that they took off the queue, or ErrNotEstablished. *)
Theorem C30_outcome : forall c i op buf ls c' r, nth_error (us c) i = Some (UGo op) ->
  (exists b, op = OpRead b /\ buf = Some b) \/ (op = OpReadPD /\ buf = None) ->
  run c ls = Some c' -> nth_error (us c') i = Some (UDone r) ->
  usends i (log c') = usends i (log c) /\
  (r = RNotEstablished \/ exists es pd, log c' = log c ++ es /\ In (EDeliver pd) es /\ read_as buf pd r).
Proof. exact read_outcome. Qed.
(** It is the oldest one in the queue. *)
Theorem C30_next : forall c i ok buf p q, crash c = None -> nth_error (us c) i = Some (URecv buf) -> dq c = p :: q ->
  exists c' r, step c (LUser i ok) = Some c' /\ nth_error (us c') i = Some (UDone r) /\ read_as buf p r /\
    dq c' = q /\ log c' = log c ++ [EDeliver p].
Proof. exact read_next. Qed.
(** A short buffer: the count exceeds the buffer and the rest of the payload is dropped. *)
Theorem C30_short : forall buf p r, read_as (Some buf) p r -> length buf < length (pd_data p) ->
  r = RRead (length (pd_data p)) (firstn (length buf) (pd_data p)).
Proof. exact read_short. Qed.
Theorem C30_long : forall buf p r, read_as (Some buf) p r -> length (pd_data p) <= length buf ->
  r = RRead (length (pd_data p)) (pd_data p ++ skipn (length (pd_data p)) buf).
Proof. exact read_fits. Qed.
Print Assumptions C30_outcome.
Print Assumptions C30_next.
Print Assumptions C30_short.
Print Assumptions C30_long.

(** "abcde" arrives and is read with a buffer of 2, then "xy" with a buffer of 4 *)
Definition reading : list label :=
  take 2 (pk_data [x61; x62; x63; x64; x65]) ++ [LData 0; LData 0; LData 0] ++
  take 3 (pk_data [x78; x79]) ++ [LData 1; LData 1; LData 1] ++
  [LCall (OpRead [x00; x00]); LUser 0 true; LUser 0 true; LCall (OpRead [x00; x00; x01; x02]); LUser 1 true; LUser 1 true].
Example C30_ex : exists c, run x_server reading = Some c /\
  us c = [UDone (RRead 5 [x61; x62]); UDone (RRead 2 [x78; x79; x01; x02])].
Proof. eexists. split; [vm_compute; reflexivity|reflexivity]. Qed.

(** C31: the packet of a Write decodes to the payload and the configured fields ... *)
Theorem C31_decodes : forall g b, cfg_ok g -> (N.of_nat (length b) <= 65519)%N ->
  exists bs t p, encodes (user_data g b) bs /\ valid bs (Typed t) /\ m_kind t = KData /\
    fget FProtocolData (m_f t) = Some p /\
    ProtocolData p = Ok (mkPD (cf_opc g) (cf_dpc g) (cf_si g) (cf_ni g) (cf_mp g) (cf_sls g) b).
Proof. exact payload_delivered. Qed.
(** ... is the one that Write sends ... *)
Theorem C31_sent : forall g b rnd m, carries g (OpWrite b rnd) m -> m = user_data g b.
Proof. intros g b rnd m H. inversion H. reflexivity. Qed.
(** ... and fits the receive buffer exactly when b is at most 1500 minus the overhead. *)
Theorem C31_fits : forall g b bs, encodes (user_data g b) bs ->
  (length bs <= 1500 <-> data_overhead g + length b <= 1500).
Proof. exact data_fits. Qed.
Print Assumptions C31_decodes.
Print Assumptions C31_sent.
Print Assumptions C31_fits.

Example C31_ex_cfg : cfg_ok x_cfg /\ data_overhead x_cfg = 52.
Proof.
  assert (T : forall n, (N.of_nat n <= 65531)%N -> n <= max_value_len) by (intros n H; unfold max_value_len; lia).
  split; [|reflexivity]. unfold cfg_ok, x_cfg, NewClientConfig, slot_ok.
  cbn [cf_aspid cf_tmt cf_na cf_rc cf_corr cf_opc cf_dpc].
  repeat match goal with |- _ /\ _ => split end; first [reflexivity | apply T; vm_compute; discriminate].
Qed.
Example C31_ex : exists bs, encodes (user_data x_cfg (repeat x61 1448)) bs /\ length bs = 1500.
Proof. eexists. split; [eexists; vm_compute; reflexivity|reflexivity]. Qed.
