(** What a configuration puts on the wire (C68) and the order of logging calls (C69). *)
From Verif Require Import GoBase ParamsModel MessagesModel WireSpec MsgSpec ConfigModel ConfigProofs ConnModel ConnSpec ConfigWire
  LoggerModel LoggerProofs LoggerOrder.
From Coq Require Import String.
Import List.
Open Scope nat_scope.
Opaque max_value_len.

(** C68: the octets of ASP Up, ASP Active and DATA of a configuration made by NewConfig and any
    setters: each parameter holds the argument of the last setter of its kind and is absent
    without one; the point codes and the four octets of the routing label are NewConfig's. *)
Theorem C68_new_config : forall opc dpc si ni mp sls l,
  (forall r, last_of of_routing l = Some r -> (N.of_nat (length r) <= 16382)%N) ->
  puts (built opc dpc si ni mp sls l) (last_of of_asp l) (last_of of_traffic l) (last_of of_network l) (last_of of_corr l)
    (last_of of_routing l) opc dpc si ni mp sls.
Proof. exact built_puts. Qed.
(** NewClientConfig and NewServerConfig: every argument goes into its own field. *)
Theorem C68_client_config : forall hb opc dpc asp tmt na corr rcs si ni mp sls, (N.of_nat (length rcs) <= 16382)%N ->
  puts (NewClientConfig hb opc dpc asp tmt na corr rcs si ni mp sls) (Some asp) (Some tmt) (Some na) (Some corr) (Some rcs) opc dpc si ni mp sls /\
  cf_hb (NewClientConfig hb opc dpc asp tmt na corr rcs si ni mp sls) = hb.
Proof. intros. split; [now apply client_puts|reflexivity]. Qed.
Theorem C68_server_config : forall hb opc dpc asp tmt na corr rcs si ni mp sls, (N.of_nat (length rcs) <= 16382)%N ->
  puts (NewServerConfig hb opc dpc asp tmt na corr rcs si ni mp sls) (Some asp) (Some tmt) (Some na) (Some corr) (Some rcs) opc dpc si ni mp sls /\
  cf_hb (NewServerConfig hb opc dpc asp tmt na corr rcs si ni mp sls) = hb.
Proof. intros. split; [now apply client_puts|reflexivity]. Qed.
(** Dial and Accept hand the configuration on as it is. *)
Theorem C68_dial_accept : forall g g' asp tmt na corr rcs opc dpc si ni mp sls, puts g asp tmt na corr rcs opc dpc si ni mp sls ->
  accept_prologue (Some g) = Ok g' -> puts g' asp tmt na corr rcs opc dpc si ni mp sls.
Proof. exact prologue_puts. Qed.
(** EnableHeartbeat: interval, timer and the text compared with acks that arrive before the first BEAT. *)
Theorem C68_heartbeat : forall i t c, exists h, cf_hb (EnableHeartbeat i t c) = Some h /\ hb_enabled h = true /\
  hb_interval h = i /\ hb_timer h = t /\
  hb_data h = String.list_byte_of_string "Hi, this is a BEAT from go-m3ua. Are you alive?"%string.
Proof. intros. eexists. split; [reflexivity|]. repeat split. Qed.
Print Assumptions C68_heartbeat.
Print Assumptions C68_new_config.
Print Assumptions C68_client_config.
Print Assumptions C68_server_config.
Print Assumptions C68_dial_accept.

Example C68_ex : last_of of_routing [SRouting [1; 2]%N; SAsp 5; SRouting [7]%N] = Some [7%N] /\
  last_of of_traffic [SRouting [1; 2]%N; SAsp 5; SRouting [7]%N] = None /\
  message ASPUP [v32 (Some 5%N); None] = [x01;x00;x03;x01; x00;x00;x00;x10; x00;x11;x00;x08; x00;x00;x00;x05].
Proof. repeat split. Qed.
Example C68_ex_data : message DATA [v32 None; vlist (Some [7%N]); Some (be 4 258 ++ be 4 3 ++ [x03;x02;x00;x01] ++ [xde;xad]); v32 (Some 9%N)] =
  [x01;x00;x01;x01; x00;x00;x00;x2c; x00;x06;x00;x08; x00;x00;x00;x07; x02;x10;x00;x12; x00;x00;x01;x02; x00;x00;x00;x03;
   x03;x02;x00;x01; xde;xad;x00;x00; x00;x13;x00;x08; x00;x00;x00;x09].
Proof. vm_compute. reflexivity. Qed.
Example C68_ex_prologue : exists g', accept_prologue (Some (built 1 2 x03 x02 x00 x01 [SRouting [7%N]; SHeartbeat 3 4; SAsp 5])) = Ok g'.
Proof. eexists. reflexivity. Qed.

(** C69: SetLogger, DisableLogging and logf, called from any number of goroutines, act as if
    executed one after the other: in every execution there is an order of exactly the calls that
    have returned, compatible with the moments at which they were made and returned, such that
    the logger in use, the silenced loggers and the logger used by every message are those of the
    sequential execution; SetLogger(nil) installs the new logger. *)
Theorem C69_linearizable : forall ls s, Forall goodp ls -> lrun lstart ls = Some s -> held s = false ->
  exists o cs, NoDup o /\ (forall i, In i o <-> nth_error (procs s) i = Some []) /\ Forall2 (den ls) o cs /\
    view s = fold_left exec cs v0 /\ real_time ls o.
Proof. exact linearizable. Qed.
Print Assumptions C69_linearizable.
Example C69_ex : exists s, lrun lstart [Call logf; Call (SetLogger None 4); Call DisableLogging; Step 1; Step 1; Step 1; Step 0; Step 0; Step 0] = Some s /\
  held s = false /\ printed_to s = [4] /\ cur s = 4 /\ nth_error (procs s) 2 = Some DisableLogging.
Proof. eexists. split; [vm_compute; reflexivity|]. repeat split. Qed.
