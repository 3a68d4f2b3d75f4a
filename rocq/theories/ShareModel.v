(** Model: several goroutines building and encoding messages at the same time from parameters and messages they share.

    The message constructors store the *params.Param pointers they are given in the message (data.go:26-42) and call SetLength, which
    writes param.Length of every one of them (data.go:131-146, params.go:248-250).  The library passes pointers of the Config
    (aspsm.go:11, 28-31; asptm.go:17-19, 74-76, 98-100; errors.go:163-173; conn.go:117-123, 152-157), so goroutines that send at the
    same time write to, and read from, the same parameters.  MarshalTo stores the encoded parameters in Header.Payload of the message
    (data.go:59-87) and then copies that field (header.go:47-56), so goroutines that encode the same message share that field.

    Simplifications: an access to one parameter (Tag, Length and Data together) or to one Header is atomic, and the
    several loops over MarshalLen of one method are one access: they read nothing but Data, which no operation here writes. *)
From Verif Require Import GoBase ParamsModel MessagesModel ConfigModel ConnModel.
From Coq Require Import Arith.
Open Scope nat_scope.

(** the parameters and the messages' headers in memory, by address *)
Record mem := mkMem { cells : nat -> param; msgs : nat -> header }.
Definition put {A} (h : nat -> A) (a : nat) (v : A) : nat -> A := fun b => if a =? b then v else h b.

(** what a goroutine encodes: a message of kind [s_kind] at address [s_msg] with the parameters at [s_refs]; [s_new]: it calls the
    constructor first, otherwise the message exists already *)
Record send := mkSend { s_kind : kind; s_refs : field -> option nat; s_msg : nat; s_new : bool }.

(** the struct fields, dereferenced *)
Definition deref (h : nat -> param) (r : field -> option nat) : fields :=
  let look f := option_map h (r f) in
  mkFields (look FNetworkAppearance) (look FRoutingContext) (look FProtocolData) (look FCorrelationID) (look FAffectedPointCode)
    (look FInfoString) (look FConcernedDestination) (look FCongestionIndications) (look FUserCause) (look FAspIdentifier)
    (look FHeartbeatData) (look FTrafficModeType) (look FErrorCode) (look FDiagnosticInformation) (look FStatus).

Inductive op :=
| OSet (a : nat)   (* param.SetLength() — data.go:132-143 *)
| OHdrLen          (* d.Header.Length = uint32(d.MarshalLen()) — data.go:145 *)
| OMake            (* b := make([]byte, d.MarshalLen()) — data.go:46 *)
| OPayload         (* the length check and d.Header.Payload = make(...) — data.go:55-59 *)
| OPut (a : nat)   (* param.MarshalTo(d.Header.Payload[offset:]); offset += param.MarshalLen() — data.go:62-67 *)
| OHeader.         (* d.Header.MarshalTo(b) — data.go:89 *)

(** the parameters of the fields [l], without the nil ones *)
Definition refs_over (r : field -> option nat) (l : list field) : list nat :=
  flat_map (fun f => match r f with Some a => [a] | None => [] end) l.
(** SetLength at the end of the constructor — data.go:39, 131-146 *)
Definition new_ops (s : send) : list op :=
  if s_new s then map OSet (refs_over (s_refs s) (setlen_fields (s_kind s))) ++ [OHdrLen] else [].
(** MarshalBinary — data.go:45-90; the same operations as the make and MarshalTo of WriteSignal, conn.go:176-178 *)
Definition marshal_ops (s : send) : list op :=
  OMake :: OPayload :: map OPut (refs_over (s_refs s) (marshal_order (s_kind s))) ++ [OHeader].

(** a goroutine: what it has yet to do, its buffer b and offset, and what MarshalBinary has returned *)
Record thr := mkThr { t_ops : list op; t_buf : list byte; t_off : nat; t_end : option (res (list byte)) }.
Definition thr0 (s : send) : thr := mkThr (new_ops s ++ marshal_ops s) [] 0 None.

Definition set_hlen (h : header) (n : N) : header :=
  mkHeader (h_version h) (h_reserved h) (h_class h) (h_type h) n (h_payload h).

Definition op_step (s : send) (o : op) (k : list op) (m : mem) (t : thr) : mem * thr :=
  let h := msgs m (s_msg s) in
  let len := msg_MarshalLen (mkMsg (s_kind s) h (deref (cells m) (s_refs s))) in
  let stop {A} (r : res A) := (m, mkThr [] (t_buf t) (t_off t)
                                    (Some (match r with Panic p => Panic p | Err e => Err e | Ok _ => Ok [] end))) in
  match o with
  | OSet a => (mkMem (put (cells m) a (SetLength (cells m a))) (msgs m), mkThr k (t_buf t) (t_off t) None)
  | OHdrLen => (mkMem (cells m) (put (msgs m) (s_msg s) (set_hlen h (u32 (N.of_nat len)))), mkThr k (t_buf t) (t_off t) None)
  | OMake => (m, mkThr k (zeros len) (t_off t) None)
  | OPayload =>
      if length (t_buf t) <? len then stop (Err (A := unit) EMsgTooShortMarshal)
      else (mkMem (cells m) (put (msgs m) (s_msg s) (set_payload h (zeros (len - 8)))), mkThr k (t_buf t) 0 None)
  | OPut a =>
      let p := cells m a in
      match (let! sub := slice (h_payload h) (t_off t) (length (h_payload h)) in MarshalTo p sub) with
      | Ok sub => (mkMem (cells m) (put (msgs m) (s_msg s) (set_payload h (firstn (t_off t) (h_payload h) ++ sub))),
                   mkThr k (t_buf t) (t_off t + MarshalLen p) None)
      | r => stop r
      end
  | OHeader =>
      match Header_MarshalTo h (t_buf t) with
      | Ok b => (m, mkThr k (t_buf t) (t_off t) (Some (Ok b)))
      | r => stop r
      end
  end.

(** the goroutine number [i] makes its next access *)
Definition sys := (mem * list thr)%type.
Definition sys_step (ss : list send) (y : sys) (i : nat) : option sys :=
  match nth_error ss i, nth_error (snd y) i with
  | Some s, Some t =>
      match t_ops t with
      | [] => None
      | o :: k => let (m, t) := op_step s o k (fst y) t in Some (m, upd (snd y) i t)
      end
  | _, _ => None
  end.
Fixpoint sys_run (ss : list send) (y : sys) (is_ : list nat) : option sys :=
  match is_ with [] => Some y | i :: r => match sys_step ss y i with Some y => sys_run ss y r | None => None end end.
Definition sys0 (m : mem) (ss : list send) : sys := (m, map thr0 ss).

(** ** The messages the library builds from its configuration *)
(** the addresses of the parameters of a Config — config.go:54-70 *)
Record caddr := mkCaddr { ca_na : option nat; ca_rc : option nat; ca_corr : option nat; ca_aspid : option nat; ca_tmt : option nat }.
(** a call of one of the constructors, with the addresses of the parameters that are not of the Config *)
Inductive call :=
| KUp                              (* initiateASPSM — aspsm.go:9-17 *)
| KUpAck                           (* handleAspUp — aspsm.go:27-32 *)
| KAct                             (* initiateASPTM — asptm.go:16-24 *)
| KActAck                          (* handleAspActive — asptm.go:74-76 *)
| KInactAck                        (* handleAspInactive — asptm.go:98-100 *)
| KUnexp (code apc : nat)          (* handleErrors — errors.go:163-173 *)
| KWrite (pd : option nat).        (* WriteToStream, WritePDToStream — conn.go:117-123, 152-157 *)
Definition call_kind (k : call) : kind :=
  match k with
  | KUp => KAspUp | KUpAck => KAspUpAck | KAct => KAspActive | KActAck => KAspActiveAck | KInactAck => KAspInactiveAck
  | KUnexp _ _ => KError | KWrite _ => KData
  end.
Definition call_refs (a : caddr) (k : call) (f : field) : option nat :=
  match k, f with
  | (KUp | KUpAck), FAspIdentifier => ca_aspid a
  | (KAct | KActAck), FTrafficModeType => ca_tmt a
  | (KAct | KActAck | KInactAck | KUnexp _ _ | KWrite _), FRoutingContext => ca_rc a
  | (KUnexp _ _ | KWrite _), FNetworkAppearance => ca_na a
  | KUnexp c _, FErrorCode => Some c
  | KUnexp _ p, FAffectedPointCode => Some p
  | KWrite p, FProtocolData => p
  | KWrite _, FCorrelationID => ca_corr a
  | _, _ => None
  end.
Definition call_send (a : caddr) (x : nat) (k : call) : send := mkSend (call_kind k) (call_refs a k) x true.
