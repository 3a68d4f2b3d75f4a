(** The ASP state machine: C32 to C36, C39, C42, C43. *)
From Verif Require Import GoBase ParamsModel MessagesModel ConfigModel ConnModel WireSpec ParamsSpec MsgSpec CfgSpec ConnSpec
  ConnBase ConnInv ConnTrace ConnUser ConnCodec ConnMacro ConnMore ConnExamples.
From Coq Require Import Arith Lia.
Open Scope nat_scope.

(** C32: in every execution the processing of a packet, from reading it to the state update, is the reaction
    of the table in the state of the connection (Down if Close was executed), and the update is to the
    corresponding state. *)
Theorem C32_only_table : forall c l1 raw l2 s l3, reachable c -> log c = l1 ++ ERead raw :: l2 ++ EUpd s :: l3 ->
  reads l2 = [] -> updates l2 = [] ->
  exists m s0 rc, valid raw m /\ was_current l1 l2 s0 /\ reacts (cfg c) s0 m rc /\
    does (length (reads l1)) rc (filter (about (length (reads l1))) l2) /\
    (s = next_state m s0 \/ (names m = None /\ was_current l1 l2 s)).
Proof. exact packet_reaction. Qed.
(** The table is a function, apart from BEAT ACKs whose data is compared ... *)
Theorem C32_deterministic : forall g s m r1 r2, reacts g s m r1 -> reacts g s m r2 ->
  (forall t, m = Typed t -> m_kind t <> KHeartbeatAck) -> r1 = r2.
Proof. exact reacts_det. Qed.
(** ... and total on the states that occur. *)
Theorem C32_total : forall g s m, ranged s -> exists rc, reacts g s m rc.
Proof. exact reacts_total. Qed.
(** Every refusal is answered at once by the Error message of the table, unless the connection is going down. *)
Theorem C32_errors_answered : forall c, reachable c -> forall l1 o e l2, log c = l1 ++ ERefused o e :: l2 ->
  (exists r b l3, l2 = ESend OMon 0 r b :: l3 /\ answers (cfg c) e r /\ encodes r b) \/
  (ending c /\ reads l2 = [] /\ updates l2 = []).
Proof. exact refused_answered. Qed.
(** Whenever the monitor waits for a packet, the next one can be processed this way to the end without any
    other event (BEAT ACKs apart, see C48). *)
Theorem C32_processed : forall c raw q m, reachable c -> crash c = None -> mon c = MRead -> sopen c = true -> ctxd c = false ->
  inq c = raw :: q -> length raw <= 1500 -> valid raw m -> (forall t, m = Typed t -> m_kind t <> KHeartbeatAck) ->
  exists rc ls c' evs, reacts (cfg c) (state c) m rc /\ outcome (cfg c) (length (reads (log c))) rc evs /\
    run c ls = Some c' /\ Forall smooth ls /\ kept c c' /\
    log c' = log c ++ ERead raw :: evs ++ [EUpd (next_state m (state c))] /\
    state c' = next_state m (state c) /\ mon c' = upd_mon (next_state m (state c)) c /\ inq c' = q /\
    ds c' = ds c ++ match fst (plan m) with Some t => [DCheck t] | None => [] end /\
    hs c' = hs c ++ [[]].
Proof. exact process. Qed.
Print Assumptions C32_only_table.
Print Assumptions C32_deterministic.
Print Assumptions C32_total.
Print Assumptions C32_errors_answered.
Print Assumptions C32_processed.

Lemma x_server_reachable : reachable x_server.
Proof. exists Server, x_cfg, 3%N, server_up. vm_compute. reflexivity. Qed.
Lemma x_client_reachable : reachable x_client.
Proof. exists Client, x_cfg, 3%N, client_up. vm_compute. reflexivity. Qed.

(** a DUNA on an established connection: Error 4 with the packet as diagnostic information *)
Example C32_ex : exists c, run x_server (refuse 2 pk_duna) = Some c /\ mon c = MRead /\
  exists m, log c = log x_server ++ [ERead pk_duna; ERefused (OHand 2) (EUnsupportedMessage m);
    ESend OMon 0 (Typed (NewError (Some (NewErrorCode 4)) None None None (Some (NewDiagnosticInformation pk_duna))))
      (packet x01 x00 x00 x00 28 (body_of [(12, [x00; x00; x00; x04]); (7, pk_duna)]%N)); EUpd Active].
Proof.
  eexists. split; [vm_compute; reflexivity|]. split; [reflexivity|]. eexists. vm_compute. reflexivity.
Qed.
(** the hypotheses of C32_processed: an ASP Inactive has arrived at an established client *)
Example C32_ex_hyp : exists c, run x_client [LArrive pk_inactive] = Some c /\ reachable c /\ crash c = None /\ mon c = MRead /\
  sopen c = true /\ ctxd c = false /\ inq c = [pk_inactive] /\ length pk_inactive <= 1500 /\
  exists m, valid pk_inactive m /\ (forall t, m = Typed t -> m_kind t <> KHeartbeatAck) /\
    next_state m (state c) = Inactive /\ upd_mon Inactive c = MInit (asp_active x_cfg) /\
    reacts (cfg c) (state c) m (Reply (Typed (NewAspInactiveAck (cf_rc x_cfg) None))).
Proof.
  eexists. split; [vm_compute; reflexivity|].
  split; [apply (reachable_run x_client [LArrive pk_inactive]); [apply x_client_reachable|vm_compute; reflexivity]|].
  do 5 (split; [reflexivity|]). split; [change (length pk_inactive) with 8; lia|].
  eexists. split; [split; vm_compute; reflexivity|]. split; [intros t E; inversion E; discriminate|].
  split; [reflexivity|]. split; [reflexivity|].
  apply RC_reply with (l := [Active]); cbn; auto.
Qed.

(** C33: the reply to a BEAT whose parameter is given at most once, with zero padding, is the packet with
    only the type octet changed. *)
Theorem C33_echo : forall c l1 i s m b l2 raw v r cl ty len o, reachable c -> log c = l1 ++ ESend (OHand i) s m b :: l2 ->
  nth_error (reads l1) i = Some raw ->
  (len < 4294967296)%N -> N.lor ((16 * b2n cl) mod 256) (b2n ty) = 51%N ->
  match o with Some x => length x <= max_value_len | None => True end ->
  raw = packet v r cl ty len (body_of (zip_slots [9%N] [o])) -> b = upd raw 3 x06.
Proof. exact beat_echoed. Qed.
(** Such a packet is a BEAT, and is answered in Active only (C32). *)
Theorem C33_is_beat : forall v r c ty len o,
  (len < 4294967296)%N ->
  N.lor ((16 * b2n c) mod 256) (b2n ty) = 51%N ->
  match o with Some x => length x <= max_value_len | None => True end ->
  let raw := packet v r c ty len (body_of (zip_slots [9%N] [o])) in
  exists t, Parse raw = Ok (Typed t) /\ m_kind t = KHeartbeat /\ encodes (beat_ack_of t) (upd raw 3 x06).
Proof. exact beat_packet. Qed.
Print Assumptions C33_echo.
Print Assumptions C33_is_beat.

Example C33_ex : exists c m, run x_server (echo 2 pk_beat) = Some c /\
  log c = log x_server ++ [ERead pk_beat; ESend (OHand 2) 0 m (upd pk_beat 3 x06); EUpd Active] /\
  pk_beat = packet x01 x00 x03 x03 16 (body_of (zip_slots [9%N] [Some [x61; x62; x63]])).
Proof. eexists _, _. split; [vm_compute; reflexivity|]. split; [reflexivity|]. vm_compute. reflexivity. Qed.

(** C34: a packet naming a state leads to that state in every execution, whether or not it is refused ... *)
Theorem C34_always_named : forall c l1 raw l2 s l3, reachable c -> log c = l1 ++ ERead raw :: l2 ++ EUpd s :: l3 ->
  reads l2 = [] -> updates l2 = [] ->
  exists m, valid raw m /\ (names m = Some s \/ (names m = None /\ (Some s = hd_error (rev (updates l1)) \/ s = Down))).
Proof. exact update_after_read. Qed.
(** ... and from every state of a waiting connection the refused message can be processed to that effect. *)
Theorem C34_refused : forall c raw q m s e, reachable c -> crash c = None -> mon c = MRead -> sopen c = true -> ctxd c = false ->
  inq c = raw :: q -> length raw <= 1500 -> valid raw m -> names m = Some s -> reacts (cfg c) (state c) m (Refuse e) ->
  exists ls c' r b, run c ls = Some c' /\ state c' = s /\ answers (cfg c) e r /\
    log c' = log c ++ [ERead raw; ERefused (OHand (length (reads (log c)))) e; ESend OMon 0 r b; EUpd s].
Proof.
  intros c raw q m s e R C M So Cx Q Ln V Nm Re.
  assert (NB : forall t, m = Typed t -> m_kind t <> KHeartbeatAck).
  { intros t -> K. unfold names in Nm. rewrite K in Nm. discriminate. }
  destruct (process c raw q m R C M So Cx Q Ln V NB) as (rc & ls & c' & evs & Rc & O & Ru & _ & _ & L & St & _).
  pose proof (reacts_det _ _ _ _ _ Rc Re NB). subst rc. destruct O as (r & b & A & _ & ->).
  unfold next_state in *. rewrite Nm in *. exists ls, c', r, b. auto.
Qed.
Print Assumptions C34_always_named.
Print Assumptions C34_refused.

(** ASP Active in Down: refused with Error 6, yet the connection becomes Active and Accept succeeds *)
Theorem C34_refuted : exists c b, run (start Server x_cfg 3) (boot_server ++ refuse 0 pk_active ++ [LMon true]) = Some c /\
  state c = Active /\ dial c = DOk /\
  exists m, log c = [EUpd Down; ERead pk_active; ERefused (OHand 0) (EUnexpected m);
    ESend OMon 0 (Typed (NewError (Some (NewErrorCode 6)) (cf_rc x_cfg) (cf_na x_cfg) (Some (NewAffectedPointCode [cf_opc x_cfg])) None)) b;
    EUpd Active].
Proof. eexists _, _. split; [vm_compute; reflexivity|]. split; [reflexivity|]. split; [reflexivity|]. eexists. reflexivity. Qed.
(** a second ASP Up on an established connection makes it Inactive, an ASP Down Ack makes it Down *)
Theorem C34_refuted_up : exists c, run x_server (refuse 2 pk_up) = Some c /\ state x_server = Active /\ state c = Inactive.
Proof. eexists. split; [vm_compute; reflexivity|]. split; reflexivity. Qed.
Theorem C34_refuted_down : exists c, run x_server (refuse 2 pk_down_ack) = Some c /\ state x_server = Active /\ state c = Down.
Proof. eexists. split; [vm_compute; reflexivity|]. split; reflexivity. Qed.
(** the hypotheses of C34_refused: an ASP Up has arrived at an established server *)
Example C34_ex : exists c m, run x_server [LArrive pk_up] = Some c /\ reachable c /\ crash c = None /\ mon c = MRead /\ sopen c = true /\ ctxd c = false /\
  inq c = [pk_up] /\ length pk_up <= 1500 /\ valid pk_up m /\ names m = Some Inactive /\ state c = Active /\ reacts (cfg c) (state c) m (Refuse (EUnexpected m)).
Proof.
  eexists _, _. split; [vm_compute; reflexivity|]. split; [exists Server, x_cfg, 3%N, (server_up ++ [LArrive pk_up]); vm_compute; reflexivity|].
  do 4 (split; [reflexivity|]). split; [vm_compute; reflexivity|]. split; [apply Nat.leb_le; vm_compute; reflexivity|].
  split; [split; vm_compute; reflexivity|]. split; [reflexivity|]. split; [reflexivity|].
  apply RC_unexpected; [reflexivity|cbn; intuition discriminate|]. intros l r H. cbn in H. injection H as <- _. cbn. intuition discriminate.
Qed.

(** C35: at most one packet goroutine is running, and none while the monitor updates the state or reads. *)
Theorem C35_one_packet : forall c, reachable c -> crash c = None ->
  (forall i j x k y k', nth_error (hs c) i = Some (x :: k) -> nth_error (hs c) j = Some (y :: k') -> i = j /\ S i = length (hs c)) /\
  (forall i x k, nth_error (hs c) i = Some (x :: k) -> forall s m, mon c <> MRead /\ mon c <> MEst /\ mon c <> MUpd s /\ mon c <> MInit m).
Proof. exact one_packet. Qed.
(** Between two reads there is exactly one state update, the one of the first packet. *)
Theorem C35_between_reads : forall c l1 raw l2 raw' l3, reachable c -> log c = l1 ++ ERead raw :: l2 ++ ERead raw' :: l3 ->
  reads l2 = [] -> exists s m, updates l2 = [s] /\ valid raw m /\
    (names m = Some s \/ (names m = None /\ (Some s = hd_error (rev (updates l1)) \/ s = Down))).
Proof. exact between_reads. Qed.
(** So the sequence of states is the one explained by the packets in their order of arrival. *)
Theorem C35_in_order : forall c, reachable c ->
  (updates (log c) = [] /\ reads (log c) = []) \/
  exists ss rs rest, updates (log c) = Down :: ss /\ reads (log c) = rs ++ rest /\ length rest <= 1 /\
    explains (closes (log c)) Down rs ss.
Proof. exact explained_reachable. Qed.
Print Assumptions C35_one_packet.
Print Assumptions C35_between_reads.
Print Assumptions C35_in_order.
Example C35_ex : reads (log x_client) = [pk_up_ack; pk_active_ack] /\ updates (log x_client) = [Down; Inactive; Active].
Proof. split; vm_compute; reflexivity. Qed.
Example C35_ex_running : exists c, run x_server [LArrive pk_beat; LArrive pk_up; LMon true; LHand 2 true] = Some c /\ crash c = None /\
  exists x k, nth_error (hs c) 2 = Some (x :: k) /\ inq c = [pk_up].
Proof. eexists. split; [vm_compute; reflexivity|]. split; [reflexivity|]. eexists _, _. split; reflexivity. Qed.

(** C36: the state is always Down, Inactive or Active, also as reported by State() and by updates ... *)
Theorem C36_range : forall c, reachable c -> ranged (state c) /\
  forall i s, nth_error (us c) i = Some (UDone (RState s)) -> ranged s.
Proof.
  intros c R. destruct (RInv_reachable c R) as (A & _ & _ & B). split; [exact A|].
  intros i s N. exact (Forall_nth _ _ _ _ B N).
Qed.
Theorem C36_updates : forall c s, reachable c -> In (EUpd s) (log c) -> ranged s.
Proof. exact updates_ranged. Qed.
(** ... and the errors for stream identifiers, unsupported classes and missing ASP identifiers never occur. *)
Theorem C36_errors : forall c o e, reachable c -> In (ERefused o e) (log c) ->
  (forall i, e <> EInvalidStream i) /\ (forall m, e <> EUnsupportedClass m) /\ e <> EAspIDRequired.
Proof. exact refused_kinds. Qed.
Print Assumptions C36_range.
Print Assumptions C36_updates.
Print Assumptions C36_errors.
Example C36_ex : exists c, run x_server ([LCall OpState; LUser 0 true] ++ refuse 2 pk_up) = Some c /\
  nth_error (us c) 0 = Some (UDone (RState Active)) /\ exists m, In (ERefused (OHand 2) (EUnexpected m)) (log c).
Proof. eexists. split; [vm_compute; reflexivity|]. split; [reflexivity|]. eexists. vm_compute. tauto. Qed.

(** C39: a packet that does not decode, or has a version other than 1, is the last one that is ever read. *)
Theorem C39_last : forall c a raw b, reachable c -> reads (log c) = a ++ raw :: b -> (forall m, ~ valid raw m) -> b = [].
Proof. exact invalid_last. Qed.
Print Assumptions C39_last.
Lemma junk_invalid : forall m, ~ valid pk_junk m.
Proof. intros m [H _]. vm_compute in H. discriminate. Qed.
Lemma v2_invalid : forall m, ~ valid pk_v2 m.
Proof. intros m [H V]. vm_compute in H. inversion H; subst. vm_compute in V. discriminate. Qed.
(** nothing is reported: the connection stays Active and open while a valid packet waits in vain *)
Theorem C39_refuted : exists c, run x_server ([LArrive pk_junk; LArrive pk_beat; LMon true; LHand 2 true]) = Some c /\
  state c = Active /\ sopen c = true /\ closed c = false /\ inq c = [pk_beat] /\ mon c = MSelect /\
  forall ls c', run c ls = Some c' -> reads (log c') = reads (log c).
Proof.
  eexists. split; [vm_compute; reflexivity|]. do 5 (split; [reflexivity|]).
  intros ls c' H.
  match type of H with run ?x _ = _ => set (c := x) in * end.
  assert (R : reachable c) by (eapply (reachable_run x_server [LArrive pk_junk; LArrive pk_beat; LMon true; LHand 2 true]);
    [apply x_server_reachable|vm_compute; reflexivity]).
  destruct (log_prefix c ls c' H) as [es E]. rewrite E, reads_app.
  assert (K : reads (log c) = reads (log x_server) ++ [pk_junk]) by (vm_compute; reflexivity).
  rewrite (C39_last c' (reads (log x_server)) pk_junk (reads es)).
  - now rewrite app_nil_r.
  - eapply reachable_run; eauto.
  - rewrite E, reads_app, K, <- app_assoc. reflexivity.
  - exact junk_invalid.
Qed.

(** an ASP Up of version 2 as the last packet read *)
Example C39_ex : exists c, run x_server ([LArrive pk_v2; LArrive pk_beat; LMon true; LHand 2 true]) = Some c /\
  reads (log c) = [pk_up; pk_active] ++ [pk_v2] /\ forall m, ~ valid pk_v2 m.
Proof. eexists. split; [vm_compute; reflexivity|]. split; [reflexivity|exact v2_invalid]. Qed.

(** C42: Dial/Accept succeed only after an ASP Active or ASP Active Ack has been received ... *)
Theorem C42_received : forall c, reachable c -> dial c = DOk -> exists raw t, In raw (reads (log c)) /\ valid raw (Typed t) /\
  (m_kind t = KAspActive \/ m_kind t = KAspActiveAck).
Proof. exact established_read. Qed.
Print Assumptions C42_received.
(** ... but an ASP Active Ack answered with Error 6, without any ASP Up Ack, is enough for Dial *)
Theorem C42_without_asp_up_refuted : exists c, reachable c /\ mode c = Client /\ dial c = DOk /\ reads (log c) = [pk_active_ack] /\
  exists m, In (ERefused (OHand 0) (EUnexpected m)) (log c).
Proof.
  eexists. split; [exists Client, x_cfg, 3%N, (boot_client ++ refuse 0 pk_active_ack ++ [LMon true]); vm_compute; reflexivity|].
  split; [reflexivity|]. split; [reflexivity|]. split; [vm_compute; reflexivity|]. eexists. vm_compute. tauto.
Qed.
Print Assumptions C42_without_asp_up_refuted.
Example C42_ex : dial x_server = DOk /\ reachable x_server.
Proof. split; [reflexivity|apply x_server_reachable]. Qed.

(** C43: an ASP Up or ASP Active that is not sent by the user through WriteSignal is sent by a client, right after
    the state update to Down or Inactive. *)
Theorem C43_handshake : forall c l1 o s m b l2, reachable c -> log c = l1 ++ ESend o s m b :: l2 -> by_user o = false ->
  octets b = (3, 1)%N \/ octets b = (4, 1)%N ->
  o = OMon /\ mode c = Client /\ s = 0%N /\
  exists l0 x l3, l1 = l0 ++ EUpd x :: l3 /\ forallb quiet l3 = true /\
    ((octets b = (3, 1)%N /\ x = Down /\ m = Typed (NewAspUp (cf_aspid (cfg c)) None)) \/
     (octets b = (4, 1)%N /\ x = Inactive /\ m = Typed (NewAspActive (cf_tmt (cfg c)) (cf_rc (cfg c)) None))).
Proof. exact handshake_sends. Qed.
(** Every reply answers the packet just read, with the acknowledgement matching its kind, in a state of the table. *)
Theorem C43_replies : forall c l1 i s r b l2, reachable c -> log c = l1 ++ ESend (OHand i) s r b :: l2 ->
  s = 0%N /\ encodes r b /\ length (reads l1) = S i /\
  exists raw t sts, nth_error (reads l1) i = Some raw /\ valid raw (Typed t) /\
    reply_table (cfg c) t = Some (sts, r) /\ Some (octets b) = ack_octets raw (m_kind t) /\
    (In (current l1) sts \/ (closes l1 = true /\ In Down sts)).
Proof. exact reply_justified. Qed.
(** At most one reply or error per packet. *)
Theorem C43_once : forall c i, reachable c -> length (filter (about i) (log c)) <= 1.
Proof. intros c i R. destruct (trace_reachable c R) as [h H]. exact (proj1 (history_about _ _ _ _ H i)). Qed.
Print Assumptions C43_handshake.
Print Assumptions C43_replies.
Print Assumptions C43_once.
Example C43_ex : exists b1 b2 l, log x_client = [EUpd Down; ESend OMon 0 (Typed (NewAspUp (cf_aspid x_cfg) None)) b1; ERead pk_up_ack; EUpd Inactive;
  ESend OMon 0 (Typed (NewAspActive (cf_tmt x_cfg) (cf_rc x_cfg) None)) b2] ++ l /\ octets b1 = (3, 1)%N /\ octets b2 = (4, 1)%N.
Proof. eexists _, _, _. split; [reflexivity|]. split; reflexivity. Qed.
(** ... and a server's replies to ASP Up and ASP Active *)
Example C43_ex_replies : exists b1 b2 m1 m2, log x_server = [EUpd Down; ERead pk_up; ESend (OHand 0) 0 m1 b1; EUpd Inactive; ERead pk_active;
  ESend (OHand 1) 0 m2 b2; EUpd Active] /\ octets b1 = (3, 4)%N /\ octets b2 = (4, 3)%N /\
  map (fun i => length (filter (about i) (log x_server))) [0; 1; 2] = [1; 1; 0].
Proof. eexists _, _, _, _. split; [reflexivity|]. split; [reflexivity|]. split; reflexivity. Qed.
