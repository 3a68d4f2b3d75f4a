(** Property C97: Dial, Listen and Accept as a whole. *)
From Verif Require Import GoBase MessagesModel ConfigModel ConnModel ConnSpec ConnInv ConnExamples EstModel EstSpec EstProofs.
From Coq Require Import Arith.
Open Scope nat_scope.

(** A connection is returned only for a known network, a configuration with HeartbeatInfo and an association, and it is one of ConnModel. *)
Theorem C97_dial : forall net cfg_ sctp status ls e c, Dial net cfg_ sctp status ls = Some e -> e_out e = OConn c ->
  known_network net /\ usable cfg_ /\ sctp = true /\ (exists o, status = Some o) /\ e_cfg e = Some (cfg c) /\ mode c = Client /\
  reachable c /\ dial c = DOk.
Proof. exact dial_conn. Qed.
Theorem C97_accept : forall cfg_ sctp status ls e c, Accept cfg_ sctp status ls = Some e -> e_out e = OConn c ->
  usable cfg_ /\ sctp = true /\ (exists o, status = Some o) /\ e_cfg e = Some (cfg c) /\ mode c = Server /\ reachable c /\ dial c = DOk.
Proof. exact accept_conn. Qed.
(** An unusable configuration panics before anything else, an unknown network fails before any SCTP call; Listen looks at no configuration. *)
Theorem C97_early : forall net cfg_ sctp status ls,
  (~ usable cfg_ -> Dial net cfg_ sctp status ls = Some (mkEst cfg_ [] (OPanic PNil)) /\
                    Accept cfg_ sctp status ls = Some (mkEst cfg_ [] (OPanic PNil))) /\
  (usable cfg_ -> ~ known_network net -> exists g, Dial net cfg_ sctp status ls = Some (mkEst (Some g) [] (OError XNet))) /\
  (known_network net -> exists n, Listen net cfg_ sctp = ([CListen n sctp], if sctp then inl cfg_ else inr XSctp)).
Proof.
  intros net cfg_ sctp status ls. destruct (dial_early net cfg_ sctp status ls) as (A & B). split; [|split].
  - intros U. split; [exact (A U)|exact (accept_early _ _ _ _ U)].
  - exact B.
  - apply listen_any.
Qed.
(** The caller's configuration is changed, if the interval is zero, whatever the outcome. *)
Theorem C97_config : forall net cfg_ sctp status ls e, Dial net cfg_ sctp status ls = Some e \/ Accept cfg_ sctp status ls = Some e ->
  config_after cfg_ (e_cfg e).
Proof. intros net cfg_ sctp status ls e [D|D]; [exact (dial_config _ _ _ _ _ _ D)|exact (accept_config _ _ _ _ _ D)]. Qed.
(** An association that was made is closed when an error is returned, except exactly if the error is that of GetStatus. *)
Theorem C97_leak : forall net cfg_ sctp status ls e,
  (Dial net cfg_ sctp status ls = Some e -> (leaked e <-> usable cfg_ /\ known_network net /\ sctp = true /\ status = None)) /\
  (Accept cfg_ sctp status ls = Some e -> (leaked e <-> usable cfg_ /\ sctp = true /\ status = None)).
Proof. intros net cfg_ sctp status ls e. split; [apply dial_leak|apply accept_leak]. Qed.
Theorem C97_leak_refuted : exists e, Dial s_m3ua (Some x_cfg) true None [] = Some e /\ leaked e /\ e_out e = OError XStatus.
Proof.
  destruct (Dial s_m3ua (Some x_cfg) true None []) as [e|] eqn:D; [|discriminate D]. exists e. split; [reflexivity|]. split.
  - apply (dial_leak _ _ _ _ _ _ D). repeat split; [do 2 eexists; split; reflexivity|now left].
  - injection D as <-. reflexivity.
Qed.
(** Listen: an unknown network fails before any SCTP call; otherwise the SCTP network of that name is listened on, whatever the configuration. *)
Theorem C97_listen : forall net cfg_ sctp,
  (~ known_network net /\ Listen net cfg_ sctp = ([], inr XNet)) \/
  (exists n, sctp_name net n /\ Listen net cfg_ sctp = ([CListen n sctp], if sctp then inl cfg_ else inr XSctp)).
Proof. exact listen_spec. Qed.
(** The SCTP calls of Dial and Accept: the association first, then its status, at the end - with an error only - Close. *)
Theorem C97_calls : forall net cfg_ sctp status ls e,
  (Dial net cfg_ sctp status ls = Some e -> e_calls e <> [] -> exists n r, sctp_name net n /\ e_calls e = CDial n sctp :: r /\
     (r = [] \/ (sctp = true /\ r = [CStatus status]) \/ (sctp = true /\ r = [CStatus status; CClose] /\ exists x, e_out e = OError x))) /\
  (Accept cfg_ sctp status ls = Some e -> e_calls e <> [] -> exists r, e_calls e = CAccept sctp :: r /\
     (r = [] \/ (sctp = true /\ r = [CStatus status]) \/ (sctp = true /\ r = [CStatus status; CClose] /\ exists x, e_out e = OError x))).
Proof. intros net cfg_ sctp status ls e. split; [apply dial_calls|apply accept_calls]. Qed.
(** Each error says what has failed; ErrFailedToEstablish and ErrTimeout are told apart by the connection. *)
Theorem C97_errors : forall net cfg_ sctp status ls e x, e_out e = OError x ->
  (Dial net cfg_ sctp status ls = Some e -> exists g b, check_interval cfg_ = Ok g /\ (b = true <-> known_network net) /\
     meaning x b sctp status (match status with Some o => run (start Client g o) ls | None => None end)) /\
  (Accept cfg_ sctp status ls = Some e -> exists g, check_interval cfg_ = Ok g /\
     meaning x true sctp status (match status with Some o => run (start Server g o) ls | None => None end)).
Proof. intros net cfg_ sctp status ls e x X. split; intros D; [exact (dial_errors _ _ _ _ _ _ _ D X)|exact (accept_errors _ _ _ _ _ _ D X)]. Qed.
(** They panic for an unusable configuration, or because a goroutine of the connection does. *)
Theorem C97_panics : forall net cfg_ sctp status ls e p, Dial net cfg_ sctp status ls = Some e \/ Accept cfg_ sctp status ls = Some e ->
  e_out e = OPanic p -> (~ usable cfg_ /\ p = PNil) \/ (exists c, reachable c /\ crash c = Some p).
Proof. exact dial_panics. Qed.
Print Assumptions C97_listen.
Print Assumptions C97_calls.
Print Assumptions C97_errors.
Print Assumptions C97_panics.
Print Assumptions C97_dial.
Print Assumptions C97_accept.
Print Assumptions C97_early.
Print Assumptions C97_config.
Print Assumptions C97_leak.
Print Assumptions C97_leak_refuted.

(** a Dial and an Accept that succeed, one that times out and closes its association *)
Example C97_dial_ex : exists e, Dial s_m3ua (Some x_cfg) true (Some 3%N) client_up = Some e /\ e_out e = OConn x_client /\
  e_calls e = [CDial s_sctp true; CStatus (Some 3%N)].
Proof. eexists. split; [vm_compute; reflexivity|]. split; vm_compute; reflexivity. Qed.
Example C97_accept_ex : exists e, Accept (Some x_cfg) true (Some 3%N) server_up = Some e /\ e_out e = OConn x_server.
Proof. eexists. split; [vm_compute; reflexivity|]. vm_compute; reflexivity. Qed.
Example C97_timeout_ex : exists e, Dial s_m3ua (Some x_cfg) true (Some 3%N) (boot_client ++ [LDialTimeout]) = Some e /\
  e_out e = OError XTimeout /\ e_calls e = [CDial s_sctp true; CStatus (Some 3%N); CClose].
Proof. eexists. split; [vm_compute; reflexivity|]. split; reflexivity. Qed.
(** heartbeats that were enabled with an interval of zero are disabled by a Dial to an unknown network *)
Example C97_config_ex : exists e g h, Dial [] (Some (EnableHeartbeat 0 3 (NewConfig 1 2 x00 x00 x00 x00))) true (Some 3%N) [] = Some e /\
  e_out e = OError XNet /\ e_cfg e = Some g /\ cf_hb g = Some h /\ hb_enabled h = false.
Proof. do 3 eexists. split; [vm_compute; reflexivity|]. repeat split. Qed.
(** "m3ua6" is listened on as "sctp6" *)
Example C97_listen_ex : Listen [x6d; x33; x75; x61; x36] None true = ([CListen [x73; x63; x74; x70; x36] true], inl None).
Proof. vm_compute. reflexivity. Qed.
(** a peer that sends a BEAT ACK without data *)
Example C97_panics_ex : exists e, Accept (Some x_cfg) true (Some 3%N) (server_up ++ [LArrive pk_beat_ack_empty; LMon true] ++ hand 2 3) = Some e /\
  e_out e = OPanic PNil.
Proof. eexists. split; [vm_compute; reflexivity|]. reflexivity. Qed.
