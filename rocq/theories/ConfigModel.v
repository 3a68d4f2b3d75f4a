(** Model of config.go and of the configuration and network-name part of Dial,
    Listen and Accept (client.go:19-39, server.go:24-58). *)
From Verif Require Import GoBase ParamsModel.
Open Scope nat_scope.

(** type HeartbeatInfo — config.go:14-19; durations in nanoseconds *)
Record hbinfo := mkHbInfo {
  hb_enabled : bool; hb_interval : Z; hb_timer : Z; hb_data : list byte }.

(** NewHeartbeatInfo — config.go:22-26 *)
Definition NewHeartbeatInfo (interval timer : Z) (data : list byte) : hbinfo :=
  mkHbInfo true interval timer data.

(** type Config — config.go:29-42; the embedded pointer and the parameter
    pointers may be nil *)
Record config := mkConfig {
  cf_hb : option hbinfo;
  cf_aspid : option param; cf_tmt : option param; cf_na : option param;
  cf_rc : option param; cf_corr : option param;
  cf_opc : N; cf_dpc : N; cf_si : byte; cf_ni : byte; cf_mp : byte; cf_sls : byte }.

(** NewConfig — config.go:50-59 *)
Definition NewConfig (opc dpc : N) (si ni mp sls : byte) : config :=
  mkConfig None None None None None None opc dpc si ni mp sls.

(** the literal of config.go:70, "Hi, this is a BEAT from go-m3ua. Are you alive?" *)
Definition default_beat : list byte :=
  [x48;x69;x2c;x20;x74;x68;x69;x73;x20;x69;x73;x20;x61;x20;x42;x45;x41;x54;x20;x66;x72;x6f;x6d;x20;
   x67;x6f;x2d;x6d;x33;x75;x61;x2e;x20;x41;x72;x65;x20;x79;x6f;x75;x20;x61;x6c;x69;x76;x65;x3f].

(** the setters — config.go:67-103 *)
Definition EnableHeartbeat (interval timer : Z) (c : config) : config :=
  mkConfig (Some (NewHeartbeatInfo interval timer default_beat))
    (cf_aspid c) (cf_tmt c) (cf_na c) (cf_rc c) (cf_corr c)
    (cf_opc c) (cf_dpc c) (cf_si c) (cf_ni c) (cf_mp c) (cf_sls c).
Definition SetAspIdentifier (id : N) (c : config) : config :=
  mkConfig (cf_hb c) (Some (NewAspIdentifier id)) (cf_tmt c) (cf_na c) (cf_rc c) (cf_corr c)
    (cf_opc c) (cf_dpc c) (cf_si c) (cf_ni c) (cf_mp c) (cf_sls c).
Definition SetTrafficModeType (t : N) (c : config) : config :=
  mkConfig (cf_hb c) (cf_aspid c) (Some (NewTrafficModeType t)) (cf_na c) (cf_rc c) (cf_corr c)
    (cf_opc c) (cf_dpc c) (cf_si c) (cf_ni c) (cf_mp c) (cf_sls c).
Definition SetNetworkAppearance (na : N) (c : config) : config :=
  mkConfig (cf_hb c) (cf_aspid c) (cf_tmt c) (Some (NewNetworkAppearance na)) (cf_rc c) (cf_corr c)
    (cf_opc c) (cf_dpc c) (cf_si c) (cf_ni c) (cf_mp c) (cf_sls c).
Definition SetRoutingContexts (rcs : list N) (c : config) : config :=
  mkConfig (cf_hb c) (cf_aspid c) (cf_tmt c) (cf_na c) (Some (NewRoutingContext rcs)) (cf_corr c)
    (cf_opc c) (cf_dpc c) (cf_si c) (cf_ni c) (cf_mp c) (cf_sls c).
Definition SetCorrelationID (id : N) (c : config) : config :=
  mkConfig (cf_hb c) (cf_aspid c) (cf_tmt c) (cf_na c) (cf_rc c) (Some (NewCorrelationID id))
    (cf_opc c) (cf_dpc c) (cf_si c) (cf_ni c) (cf_mp c) (cf_sls c).

(** NewClientConfig, NewServerConfig — config.go:109-124, 130-145 (identical bodies) *)
Definition NewClientConfig (hb : option hbinfo) (opc dpc aspID tmt nwApr corrID : N)
  (rtCtxs : list N) (si ni mp sls : byte) : config :=
  mkConfig hb (Some (NewAspIdentifier aspID)) (Some (NewTrafficModeType tmt))
    (Some (NewNetworkAppearance nwApr)) (Some (NewRoutingContext rtCtxs))
    (Some (NewCorrelationID corrID)) opc dpc si ni mp sls.
Definition NewServerConfig := NewClientConfig.

(** Disable the heartbeat when Interval is zero — client.go:30-32, server.go:53-55.
    A nil *Config or a nil HeartbeatInfo is dereferenced. *)
Definition check_interval (c : option config) : res config :=
  match c with
  | None => Panic PNil
  | Some c =>
      match cf_hb c with
      | None => Panic PNil
      | Some h =>
          if (hb_interval h =? 0)%Z
          then Ok (mkConfig (Some (mkHbInfo false (hb_interval h) (hb_timer h) (hb_data h)))
                 (cf_aspid c) (cf_tmt c) (cf_na c) (cf_rc c) (cf_corr c)
                 (cf_opc c) (cf_dpc c) (cf_si c) (cf_ni c) (cf_mp c) (cf_sls c))
          else Ok c
      end
  end.

(** netMap — conn.go:57-61: "m3ua" -> "sctp", "m3ua4" -> "sctp4", "m3ua6" -> "sctp6" *)
Definition s_m3ua : list byte := [x6d;x33;x75;x61].
Definition s_sctp : list byte := [x73;x63;x74;x70].
Definition netMap (net : list byte) : option (list byte) :=
  if list_eq_dec Byte.byte_eq_dec net s_m3ua then Some s_sctp
  else if list_eq_dec Byte.byte_eq_dec net (s_m3ua ++ [x34]) then Some (s_sctp ++ [x34])
  else if list_eq_dec Byte.byte_eq_dec net (s_m3ua ++ [x36]) then Some (s_sctp ++ [x36])
  else None.

(** What Dial does before creating the SCTP association — client.go:19-39:
    either the network given to DialSCTP and the configuration, or an error
    (None), or a panic. *)
Definition dial_prologue (net : list byte) (c : option config) : res (option (list byte * config)) :=
  let! c := check_interval c in
  match netMap net with
  | None => Ok None
  | Some n => Ok (Some (n, c))
  end.

(** Listen before ListenSCTP — server.go:24-31: only the network name is looked at *)
Definition listen_prologue (net : list byte) : option (list byte) := netMap net.

(** Accept before waiting for an association — server.go:43-55 *)
Definition accept_prologue (c : option config) : res config := check_interval c.
