(** What a caller of Dial, Listen and Accept can rely on *)
From Verif Require Import GoBase MessagesModel ConfigModel ConnModel EstModel.
Open Scope nat_scope.

Definition known_network (net : list byte) : Prop :=
  net = [x6d; x33; x75; x61] \/ net = [x6d; x33; x75; x61; x34] \/ net = [x6d; x33; x75; x61; x36].
(** a configuration that Dial and Accept can use *)
Definition usable (cfg : option config) : Prop := exists g h, cfg = Some g /\ cf_hb g = Some h.
(** an SCTP association has been made *)
Definition associated (e : est) : Prop := (exists n, In (CDial n true) (e_calls e)) \/ In (CAccept true) (e_calls e).
(** ... and neither the caller nor anybody else will ever close it *)
Definition leaked (e : est) : Prop := associated e /\ (exists x, e_out e = OError x) /\ ~ In CClose (e_calls e).
(** only the flag Enabled may have been changed, to false for an interval of zero *)
Definition config_after (cfg cfg' : option config) : Prop :=
  forall g h, cfg = Some g -> cf_hb g = Some h -> exists g' h', cfg' = Some g' /\ cf_hb g' = Some h' /\
    hb_enabled h' = (if (hb_interval h =? 0)%Z then false else hb_enabled h) /\
    hb_interval h' = hb_interval h /\ hb_timer h' = hb_timer h /\ hb_data h' = hb_data h /\
    cf_aspid g' = cf_aspid g /\ cf_tmt g' = cf_tmt g /\ cf_na g' = cf_na g /\ cf_rc g' = cf_rc g /\ cf_corr g' = cf_corr g /\
    cf_opc g' = cf_opc g /\ cf_dpc g' = cf_dpc g /\ cf_si g' = cf_si g /\ cf_ni g' = cf_ni g /\ cf_mp g' = cf_mp g /\ cf_sls g' = cf_sls g.
(** the SCTP network of a network name *)
Definition sctp_name (net n : list byte) : Prop :=
  (net = [x6d; x33; x75; x61] /\ n = [x73; x63; x74; x70]) \/
  (net = [x6d; x33; x75; x61; x34] /\ n = [x73; x63; x74; x70; x34]) \/
  (net = [x6d; x33; x75; x61; x36] /\ n = [x73; x63; x74; x70; x36]).
(** what an error means: the network (Accept has none), the SCTP call, GetStatus, the end of the handshake [c] *)
Definition meaning (x : eerr) (net_ok sctp : bool) (status : option N) (c : option conn) : Prop :=
  match x with
  | XNet => net_ok = false
  | XSctp => net_ok = true /\ sctp = false
  | XStatus => net_ok = true /\ sctp = true /\ status = None
  | XFailed => net_ok = true /\ sctp = true /\ exists y, c = Some y /\ crash y = None /\ dial y = DFailed
  | XTimeout => net_ok = true /\ sctp = true /\ exists y, c = Some y /\ crash y = None /\ dial y = DTimeout
  end.
