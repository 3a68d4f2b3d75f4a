(** Model of a connection: conn.go, fsm.go, aspsm.go, asptm.go, management.go,
    transfer.go, errors.go and the waiting part of client.go and server.go.

    A connection is a labelled transition system.  Every goroutine of the Go code
    has its own program counter; [step c l] performs the atomic step named by the
    label [l], or is [None] when that step is not possible (the goroutine is blocked
    or not at that point).  The label also resolves every choice made outside the
    program: which packet arrives, whether a system call fails, which timer fires,
    the random bytes, which select case is taken and what the user calls.

    Atomicity: between two steps of the model a goroutine touches shared state at
    most once (channel operation, lock-protected access, SCTP call or access to the
    shared configuration). *)
From Verif Require Import GoBase ParamsModel MessagesModel ConfigModel.
From Coq Require Import Arith.
Open Scope nat_scope.

(** type mode — conn.go:19-24 *)
Inductive cmode := Client | Server.

(** type State — fsm.go:17-26 (only the named constants are ever stored) *)
Inductive st := Down | Inactive | Active | CDI | RI.
Definition st_eqb (a b : st) : bool :=
  match a, b with
  | Down, Down | Inactive, Inactive | Active, Active | CDI, CDI | RI, RI => true
  | _, _ => false
  end.

(** the error values passed on errChan — errors.go:15-29 and 31-131 *)
Inductive cerr :=
| EInvalidVersion (v : byte)        (* *InvalidVersionError *)
| EUnsupportedClass (m : m3ua)      (* *UnsupportedClassError: never constructed by the package *)
| EUnsupportedMessage (m : m3ua)    (* *UnsupportedMessageError *)
| EUnexpected (m : m3ua)            (* *UnexpectedMessageError *)
| EInvalidStream (id : N)           (* *InvalidSCTPStreamIDError *)
| EAspIDRequired                    (* ErrAspIDRequired: never constructed by the package *)
| EWriteSignal                      (* the error of WriteSignal, conn.go:179, 190 *)
| EHeartbeatExpired                 (* ErrHeartbeatExpired *)
| EFailedToPeelOff                  (* ErrFailedToPeelOff *)
| EFailedToWriteSignal              (* ErrFailedToWriteSignal *)
| ERand.                            (* the error of crypto/rand.Read *)

(** ** Goroutines *)

(** instructions of the goroutine started for a received packet (fsm.go:237-246 and
    handleSignals, fsm.go:108-195); the goroutine is a list of them, [] when finished *)
Inductive instr :=
| IParse (raw : list byte)   (* messages.Parse(raw) *)
| ISig (m : m3ua)            (* entry of handleSignals *)
| IHandle (m : msg)          (* the handler of one message type *)
| IWrite (m : m3ua)          (* WriteSignal inside a handler *)
| IErr (e : cerr)            (* c.errChan <- e *)
| IBeatAck                   (* c.beatAckChan <- struct{}{} *)
| ICur                       (* evaluate c.State() for the next send *)
| ISt (s : st).              (* c.stateChan <- s *)

(** handleData — transfer.go:14-39 *)
Inductive dpc :=
| DCheck (m : msg)           (* c.State() != StateAspActive *)
| DErr (e : cerr)            (* c.errChan <- e, then return *)
| DPd (m : msg)              (* data.ProtocolData.ProtocolData() *)
| DSend (p : pdpayload)      (* select: c.dataChan <- pd / ctx.Done() *)
| DDone.

(** which goroutine did something (for the ghost record only) *)
Inductive origin := OMon | OHand (i : nat) | OData (i : nat) | OHb | OUser (i : nat).

(** monitor — fsm.go:197-249 *)
Inductive mpc :=
| MSelect                    (* the select of fsm.go:209 *)
| MErr (o : origin) (e : cerr) (* handleErrors(e), fsm.go:214; e was sent by goroutine o *)
| MUpd (s : st)              (* handleStateUpdate(s) before taking the lock, fsm.go:221 *)
| MInit (m : m3ua)           (* WriteSignal of initiateASPSM/ASPTM, lock held *)
| MEst                       (* established <- struct{}{}, lock held, fsm.go:75, 97 *)
| MRead                      (* SCTPRead, fsm.go:229 *)
| MClose                     (* c.Close() then return, fsm.go:211, 215, 223, 231 *)
| MExit.                     (* returned *)

(** heartbeat — asptm.go:26-67 *)
Inductive bpc :=
| BStart                     (* before beatAllow.Wait() *)
| BWait                      (* in beatAllow.Wait() *)
| BRun                       (* woken up *)
| BRand                      (* rand.Read(data) *)
| BWrite (d : list byte)     (* WriteSignal(beat) *)
| BStore (d : list byte)     (* c.cfg.HeartbeatInfo.Data = data *)
| BAck                       (* the select waiting for the ack *)
| BSleep                     (* the select waiting for the interval *)
| BErr (e : cerr)            (* c.errChan <- e, then return *)
| BDone.

(** calls made by the user of an established connection *)
Inductive uop :=
| OpRead (buf : list byte) | OpReadPD
| OpWrite (b : list byte) (rnd : N)            (* rnd: what Intn returns *)
| OpWriteTo (b : list byte) (stream : N)
| OpWritePD (pd : option param) (rnd : N)
| OpWritePDTo (pd : option param) (stream : N)
| OpWriteSignal (m : m3ua)
| OpClose | OpState.

(** their results *)
Inductive ures :=
| RNotEstablished                         (* ErrNotEstablished *)
| RRead (n : nat) (buf : list byte)       (* n, and the buffer afterwards *)
| RPD (pd : pdpayload)
| RWrote (n : nat)
| RWriteError
| RClosed (first : bool)                  (* whether the SCTP socket was still open *)
| RState (s : st).

Inductive upc :=
| UGo (op : uop)                          (* called *)
| URecv (buf : option (list byte))        (* in <-c.dataChan; None for ReadPD *)
| USend (stream : N) (m : m3ua)           (* after the state check of a write *)
| UDone (r : ures).

(** Dial/Accept waiting for the outcome — client.go:55-65, server.go:80-90 *)
Inductive dialst := DWait | DOk | DFailed | DTimeout.

(** ghost record of what happened, oldest first *)
Inductive event :=
| ERead (raw : list byte)                       (* SCTPRead returned raw *)
| EUpd (s : st)                                 (* handleStateUpdate set the state *)
| ESend (o : origin) (stream : N) (m : m3ua) (b : list byte) (* SCTPWrite of message m succeeded *)
| EDeliver (pd : pdpayload)                     (* Read/ReadPD received pd *)
| ERefused (o : origin) (e : cerr)              (* the monitor handled error e sent by o *)
| EClosed.                                      (* Close was executed *)

(** ** Connection state
    [closed]: the channels established, beatAckChan and dataChan, which are only
    closed together, in Close.  [sopen]: the SCTP socket has not been closed.
    [ini]: the goroutine of client.go:50-52 has not yet sent.  [hbd]:
    cfg.HeartbeatInfo.Data, shared with the other connections using the same
    configuration; [hba]: that slice is the one rand.Read writes into.  The lock
    muState is held across steps only by the monitor, in [MInit] and [MEst]. *)
Record conn := mkConn {
  mode : cmode;
  cfg : config;
  maxs : N;
  state : st;
  closed : bool;
  sopen : bool;
  ctxd : bool;
  inq : list (list byte);
  dq : list pdpayload;
  mon : mpc;
  hb : bpc;
  ini : bool;
  hs : list (list instr);
  ds : list dpc;
  us : list upc;
  dial : dialst;
  hbd : list byte;
  hba : bool;
  crash : option panic;
  log : list event }.

(** field updates *)
Definition set_state (x : st) (c : conn) : conn :=
  mkConn (mode c) (cfg c) (maxs c) x (closed c) (sopen c) (ctxd c) (inq c) (dq c) (mon c) (hb c) (ini c) (hs c) (ds c) (us c) (dial c) (hbd c) (hba c) (crash c) (log c).
Definition set_closed (x : bool) (c : conn) : conn :=
  mkConn (mode c) (cfg c) (maxs c) (state c) x (sopen c) (ctxd c) (inq c) (dq c) (mon c) (hb c) (ini c) (hs c) (ds c) (us c) (dial c) (hbd c) (hba c) (crash c) (log c).
Definition set_sopen (x : bool) (c : conn) : conn :=
  mkConn (mode c) (cfg c) (maxs c) (state c) (closed c) x (ctxd c) (inq c) (dq c) (mon c) (hb c) (ini c) (hs c) (ds c) (us c) (dial c) (hbd c) (hba c) (crash c) (log c).
Definition set_ctxd (x : bool) (c : conn) : conn :=
  mkConn (mode c) (cfg c) (maxs c) (state c) (closed c) (sopen c) x (inq c) (dq c) (mon c) (hb c) (ini c) (hs c) (ds c) (us c) (dial c) (hbd c) (hba c) (crash c) (log c).
Definition set_inq (x : list (list byte)) (c : conn) : conn :=
  mkConn (mode c) (cfg c) (maxs c) (state c) (closed c) (sopen c) (ctxd c) x (dq c) (mon c) (hb c) (ini c) (hs c) (ds c) (us c) (dial c) (hbd c) (hba c) (crash c) (log c).
Definition set_dq (x : list pdpayload) (c : conn) : conn :=
  mkConn (mode c) (cfg c) (maxs c) (state c) (closed c) (sopen c) (ctxd c) (inq c) x (mon c) (hb c) (ini c) (hs c) (ds c) (us c) (dial c) (hbd c) (hba c) (crash c) (log c).
Definition set_mon (x : mpc) (c : conn) : conn :=
  mkConn (mode c) (cfg c) (maxs c) (state c) (closed c) (sopen c) (ctxd c) (inq c) (dq c) x (hb c) (ini c) (hs c) (ds c) (us c) (dial c) (hbd c) (hba c) (crash c) (log c).
Definition set_hb (x : bpc) (c : conn) : conn :=
  mkConn (mode c) (cfg c) (maxs c) (state c) (closed c) (sopen c) (ctxd c) (inq c) (dq c) (mon c) x (ini c) (hs c) (ds c) (us c) (dial c) (hbd c) (hba c) (crash c) (log c).
Definition set_ini (x : bool) (c : conn) : conn :=
  mkConn (mode c) (cfg c) (maxs c) (state c) (closed c) (sopen c) (ctxd c) (inq c) (dq c) (mon c) (hb c) x (hs c) (ds c) (us c) (dial c) (hbd c) (hba c) (crash c) (log c).
Definition set_hs (x : list (list instr)) (c : conn) : conn :=
  mkConn (mode c) (cfg c) (maxs c) (state c) (closed c) (sopen c) (ctxd c) (inq c) (dq c) (mon c) (hb c) (ini c) x (ds c) (us c) (dial c) (hbd c) (hba c) (crash c) (log c).
Definition set_ds (x : list dpc) (c : conn) : conn :=
  mkConn (mode c) (cfg c) (maxs c) (state c) (closed c) (sopen c) (ctxd c) (inq c) (dq c) (mon c) (hb c) (ini c) (hs c) x (us c) (dial c) (hbd c) (hba c) (crash c) (log c).
Definition set_us (x : list upc) (c : conn) : conn :=
  mkConn (mode c) (cfg c) (maxs c) (state c) (closed c) (sopen c) (ctxd c) (inq c) (dq c) (mon c) (hb c) (ini c) (hs c) (ds c) x (dial c) (hbd c) (hba c) (crash c) (log c).
Definition set_dial (x : dialst) (c : conn) : conn :=
  mkConn (mode c) (cfg c) (maxs c) (state c) (closed c) (sopen c) (ctxd c) (inq c) (dq c) (mon c) (hb c) (ini c) (hs c) (ds c) (us c) x (hbd c) (hba c) (crash c) (log c).
Definition set_hbd (x : list byte) (c : conn) : conn :=
  mkConn (mode c) (cfg c) (maxs c) (state c) (closed c) (sopen c) (ctxd c) (inq c) (dq c) (mon c) (hb c) (ini c) (hs c) (ds c) (us c) (dial c) x (hba c) (crash c) (log c).
Definition set_hba (x : bool) (c : conn) : conn :=
  mkConn (mode c) (cfg c) (maxs c) (state c) (closed c) (sopen c) (ctxd c) (inq c) (dq c) (mon c) (hb c) (ini c) (hs c) (ds c) (us c) (dial c) (hbd c) x (crash c) (log c).
Definition set_crash (x : option panic) (c : conn) : conn :=
  mkConn (mode c) (cfg c) (maxs c) (state c) (closed c) (sopen c) (ctxd c) (inq c) (dq c) (mon c) (hb c) (ini c) (hs c) (ds c) (us c) (dial c) (hbd c) (hba c) x (log c).
Definition set_log (x : list event) (c : conn) : conn :=
  mkConn (mode c) (cfg c) (maxs c) (state c) (closed c) (sopen c) (ctxd c) (inq c) (dq c) (mon c) (hb c) (ini c) (hs c) (ds c) (us c) (dial c) (hbd c) (hba c) (crash c) x.

(** Dial/Accept up to starting the goroutines — client.go:21-54, server.go:44-79;
    [g] is the configuration after check_interval *)
Definition start (m : cmode) (g : config) (ostreams : N) : conn :=
  mkConn m g (u16 (ostreams + 65535)) Down false true false [] [] MSelect BStart true [] [] [] DWait
    (match cf_hb g with Some h => hb_data h | None => [] end) false None [].

(** the RW lock is free: State() and Close() can proceed *)
Definition unlocked (c : conn) : bool :=
  match mon c with MInit _ | MEst => false | _ => true end.

(** c.StreamID() — conn.go:246-248: sctpInfo.Stream is 0 from client.go:27/server.go:50
    on and never assigned (conn.go:129, 163, 183 copy the struct first) *)
Definition StreamID : N := 0.

Definition emit (e : event) (c : conn) : conn := set_log (log c ++ [e]) c.
Definition panicking (p : panic) (c : conn) : conn := set_crash (Some p) c.

(** replace element i *)
Fixpoint upd {A} (l : list A) (i : nat) (x : A) : list A :=
  match l, i with
  | [], _ => []
  | _ :: r, 0 => x :: r
  | y :: r, S i => y :: upd r i x
  end.

(** MarshalTo into a buffer of MarshalLen bytes *)
Definition wire (m : m3ua) : res (list byte) :=
  let! (_, b) := m3_MarshalTo m (zeros (m3_MarshalLen m)) in Ok b.

(** SCTPWrite: [ok] is the environment's choice; a closed socket always fails *)
Definition can_write (c : conn) (ok : bool) : bool := ok && sopen c.

(** WriteSignal — conn.go:175-195 *)
Inductive wres := WOk (c : conn) (n : nat) | WErr | WPanic (p : panic).
Definition WriteSignal (o : origin) (c : conn) (m : m3ua) (ok : bool) : wres :=
  match wire m with
  | Ok b =>
      let stream := if (b2n (MessageClass m) =? 1)%N then StreamID else 0%N in
      if can_write c ok then WOk (emit (ESend o stream m b) c) (m3_MarshalLen m + length b) else WErr
  | Err _ => WErr
  | Panic p => WPanic p
  end.

(** Close — conn.go:198-211 (the caller holds the lock for the whole body) *)
Definition Close (c : conn) : conn :=
  let c := emit EClosed c in
  if st_eqb (state c) Down then set_sopen false c
  else if closed c then panicking PCloseClosed c
  else set_sopen false (set_state Down (set_closed true c)).

(** ** Messages built by the connection *)
(** first40Octets — errors.go:62-72, 90-100 *)
Definition first40 (m : m3ua) : res (list byte) :=
  match m3_MarshalBinary m with
  | Ok (_, b) => if length b <? 40 then Ok b else slice b 0 40
  | Err _ => Ok []
  | Panic p => Panic p
  end.

(** handleErrors up to WriteSignal — errors.go:134-187; None: the error is returned.
    Error codes: params/error-code.go *)
Definition error_reply (g : config) (e : cerr) : res (option m3ua) :=
  match e with
  | EInvalidVersion _ =>
      Ok (Some (Typed (NewError (Some (NewErrorCode 1)) None None None None)))
  | EUnsupportedClass m =>
      let! d := first40 m in
      Ok (Some (Typed (NewError (Some (NewErrorCode 3)) None None None (Some (NewDiagnosticInformation d)))))
  | EUnsupportedMessage m =>
      let! d := first40 m in
      Ok (Some (Typed (NewError (Some (NewErrorCode 4)) None None None (Some (NewDiagnosticInformation d)))))
  | EUnexpected _ =>
      Ok (Some (Typed (NewError (Some (NewErrorCode 6)) (cf_rc g) (cf_na g)
        (Some (NewAffectedPointCode [cf_opc g])) None)))
  | EInvalidStream _ =>
      Ok (Some (Typed (NewError (Some (NewErrorCode 9)) None None None None)))
  | EAspIDRequired =>
      Ok (Some (Typed (NewError (Some (NewErrorCode 14)) None None None None)))
  | _ => Ok None
  end.

(** initiateASPSM, initiateASPTM — aspsm.go:9-17, asptm.go:16-24 *)
Definition asp_up (g : config) : m3ua := Typed (NewAspUp (cf_aspid g) None).
Definition asp_active (g : config) : m3ua := Typed (NewAspActive (cf_tmt g) (cf_rc g) None).

(** the BEAT of asptm.go:32, 38: built once, then its parameter is replaced *)
Definition beat (d : list byte) : m3ua :=
  let m := NewHeartbeat (Some (NewHeartbeatData (zeros 128))) in
  Typed (mkMsg (m_kind m) (m_hdr m) (fset FHeartbeatData (Some (NewHeartbeatData d)) (m_f m))).

(** handleHeartbeat's reply: the received message with Type overwritten — asptm.go:123 *)
Definition beat_ack_of (m : msg) : m3ua :=
  Typed (mkMsg (m_kind m)
    (mkHeader (h_version (m_hdr m)) (h_reserved (m_hdr m)) (h_class (m_hdr m))
       (kind_type KHeartbeatAck) (h_length (m_hdr m)) (h_payload (m_hdr m)))
    (m_f m)).

(** ** The handlers: what each does in state [s] *)
Inductive hres := HNil | HErr (e : cerr) | HReply (m : m3ua) | HPanic (p : panic).
Definition stream_check (k : hres) : hres :=
  if negb (StreamID =? 0)%N then HErr (EInvalidStream StreamID) else k.

Definition handle (g : config) (hbd : list byte) (s : st) (m : msg) : hres :=
  let unexpected := HErr (EUnexpected (Typed m)) in
  match m_kind m with
  | KAspUp =>                                                  (* aspsm.go:18-37 *)
      if negb (st_eqb s Down) then unexpected
      else stream_check (HReply (Typed (NewAspUpAck (cf_aspid g) None)))
  | KAspUpAck =>                                               (* aspsm.go:39-48 *)
      if negb (st_eqb s Down) then unexpected else stream_check HNil
  | KAspDown =>                                                (* aspsm.go:50-68 *)
      match s with
      | Inactive | Active => stream_check (HReply (Typed (NewAspDownAck None)))
      | _ => unexpected
      end
  | KAspDownAck =>                                             (* aspsm.go:70-80 *)
      match s with
      | Inactive | Active => unexpected
      | _ => stream_check HNil
      end
  | KAspActive =>                                              (* asptm.go:69-81 *)
      if negb (st_eqb s Inactive) then unexpected
      else HReply (Typed (NewAspActiveAck (cf_tmt g) (cf_rc g) None))
  | KAspActiveAck =>                                           (* asptm.go:83-91 *)
      if negb (st_eqb s Inactive) then unexpected else HNil
  | KAspInactive =>                                            (* asptm.go:93-105 *)
      if negb (st_eqb s Active) then unexpected
      else HReply (Typed (NewAspInactiveAck (cf_rc g) None))
  | KAspInactiveAck =>                                         (* asptm.go:107-115 *)
      if negb (st_eqb s Active) then unexpected else HNil
  | KHeartbeat =>                                              (* asptm.go:117-128 *)
      if negb (st_eqb s Active) then unexpected else HReply (beat_ack_of m)
  | KHeartbeatAck =>                                           (* asptm.go:130-147 *)
      if negb (st_eqb s Active) then unexpected
      else match fget FHeartbeatData (m_f m) with
           | None => HPanic PNil
           | Some p =>
               if list_eq_dec Byte.byte_eq_dec (HeartbeatData p) hbd then HNil else unexpected
           end
  | KError | KNotify =>                                        (* management.go:10-27 *)
      match s with CDI | RI => unexpected | _ => HNil end
  | _ => HNil
  end.

(** handleSignals after the version check — fsm.go:121-194: the data goroutine to
    start, and the remaining instructions *)
Definition plan (m : m3ua) : option msg * list instr :=
  match m with
  | Typed t =>
      match m_kind t with
      | KData => (Some t, [ICur])
      | KAspUp | KAspUpAck | KAspInactive | KAspInactiveAck => (None, [IHandle t; ISt Inactive])
      | KAspDown | KAspDownAck => (None, [IHandle t; ISt Down])
      | KAspActive | KAspActiveAck => (None, [IHandle t; ISt Active])
      | KHeartbeat | KError | KNotify => (None, [IHandle t; ICur])
      | KHeartbeatAck => (None, [IHandle t; IBeatAck; ICur])
      | _ => (None, [IErr (EUnsupportedMessage m); ICur])
      end
  | Gen _ => (None, [IErr (EUnsupportedMessage m); ICur])
  end.

(** ** Steps *)
Inductive label :=
| LArrive (p : list byte)      (* a packet reaches the receive queue *)
| LCancel                      (* the context is cancelled *)
| LOtherBeat (d : list byte)   (* another connection with this configuration stores its beat data *)
| LInit                        (* client.go:50-52, server.go:75-77 *)
| LMon (ok : bool)             (* the monitor; ok: its system call succeeds *)
| LMonCtx                      (* the monitor takes the ctx.Done() case *)
| LHand (i : nat) (ok : bool)  (* packet goroutine i *)
| LData (i : nat)              (* data goroutine i *)
| LDataCtx (i : nat)           (* ... takes the ctx.Done() case *)
| LHb (ok : bool)              (* the heartbeat goroutine *)
| LHbRand (d : list byte)      (* rand.Read succeeds with d *)
| LHbTimer                     (* its current timer fires *)
| LHbCtx                       (* ... takes the ctx.Done() case *)
| LDialClosed                  (* Dial/Accept sees established closed *)
| LDialTimeout                 (* the 10 s timer of Dial/Accept *)
| LCall (op : uop)             (* the user makes a call *)
| LUser (i : nat) (ok : bool). (* user call i proceeds *)

(** Broadcast on beatAllow *)
Definition broadcast (c : conn) : conn :=
  match hb c with BWait => set_hb BRun c | _ => c end.

(** handleStateUpdate — fsm.go:45-106, up to the first blocking operation *)
Definition state_update (s : st) (c : conn) : conn :=
  let previous := state c in
  let c := emit (EUpd s) (set_state s c) in
  match s with
  | Down => match mode c with Client => set_mon (MInit (asp_up (cfg c))) c | Server => set_mon MRead c end
  | Inactive => match mode c with Client => set_mon (MInit (asp_active (cfg c))) c | Server => set_mon MRead c end
  | Active => if st_eqb previous Active then set_mon MRead c else set_mon MEst c
  | CDI | RI => set_mon MClose c                    (* ErrSCTPNotAlive — fsm.go:222-225 *)
  end.

(** the monitor's buffer size — fsm.go:207 *)
Definition bufsize : nat := 1500.

Definition step_mon (c : conn) (ok : bool) : option conn :=
  match mon c with
  | MSelect | MExit => None
  | MErr o e =>
      let c := emit (ERefused o e) c in
      match error_reply (cfg c) e with
      | Panic p => Some (panicking p c)
      | Ok (Some m) =>
          match WriteSignal OMon c m ok with
          | WOk c _ => Some (set_mon MSelect c)
          | WErr => Some (set_mon MClose c)
          | WPanic p => Some (panicking p c)
          end
      | Ok None | Err _ => Some (set_mon MClose c)
      end
  | MUpd s => Some (state_update s c)
  | MInit m =>                                     (* the error is ignored — fsm.go:221-226 *)
      match WriteSignal OMon c m ok with
      | WOk c _ => Some (set_mon MRead c)
      | WErr => Some (set_mon MRead c)
      | WPanic p => Some (panicking p c)
      end
  | MEst =>
      if closed c then Some (panicking PSendClosed c)
      else match dial c with
           | DWait => Some (set_mon MRead (broadcast (set_dial DOk c)))
           | _ => None
           end
  | MRead =>
      if ok && sopen c then
        match inq c with
        | [] => None
        | p :: q =>
            let raw := firstn bufsize p in
            let rest := skipn bufsize p in
            let c := set_inq (match rest with [] => q | _ => rest :: q end) c in
            Some (set_mon MSelect (set_hs (hs c ++ [[IParse raw]]) (emit (ERead raw) c)))
        end
      else Some (set_mon MClose c)
  | MClose =>
      let c := Close c in
      match crash c with
      | Some _ => Some c
      | None => Some (set_mon MExit (broadcast c))
      end
  end.

(** deliver error [e] to the monitor's select *)
Definition recv_err (o : origin) (e : cerr) (c : conn) : option conn :=
  match mon c with MSelect => Some (set_mon (MErr o e) c) | _ => None end.

Definition step_hand (c : conn) (i : nat) (ok : bool) : option conn :=
  match nth_error (hs c) i with
  | None | Some [] => None
  | Some (x :: k) =>
      let goto l c := set_hs (upd (hs c) i l) c in
      match x with
      | IParse raw =>
          match Parse raw with
          | Ok m => Some (goto [ISig m] c)
          | Err _ => Some (goto [] c)
          | Panic p => Some (panicking p c)
          end
      | ISig m =>
          if ctxd c then Some (goto [] c)
          else if negb (b2n (Version m) =? 1)%N then Some (goto [IErr (EInvalidVersion (Version m))] c)
          else let (d, l) := plan m in
               let c := goto l c in
               match d with None => Some c | Some t => Some (set_ds (ds c ++ [DCheck t]) c) end
      | IHandle m =>
          if unlocked c then
            match handle (cfg c) (hbd c) (state c) m with
            | HNil => Some (goto k c)
            | HErr e => Some (goto (IErr e :: k) c)
            | HReply r => Some (goto (IWrite r :: k) c)
            | HPanic p => Some (panicking p c)
            end
          else None
      | IWrite m =>
          match WriteSignal (OHand i) c m ok with
          | WOk c _ => Some (goto k c)
          | WErr => Some (goto (IErr EWriteSignal :: k) c)
          | WPanic p => Some (panicking p c)
          end
      | IErr e => recv_err (OHand i) e (goto k c)
      | IBeatAck =>
          if closed c then Some (panicking PSendClosed c)
          else match hb c with BAck => Some (set_hb BSleep (goto k c)) | _ => None end
      | ICur => if unlocked c then Some (goto (ISt (state c) :: k) c) else None
      | ISt s => match mon c with MSelect => Some (set_mon (MUpd s) (goto k c)) | _ => None end
      end
  end.

(** capacity of dataChan — fsm.go:199 *)
Definition data_cap : N := 65535.

Definition step_data (c : conn) (i : nat) : option conn :=
  match nth_error (ds c) i with
  | None | Some DDone => None
  | Some x =>
      let goto d c := set_ds (upd (ds c) i d) c in
      match x with
      | DCheck m =>
          if unlocked c then
            Some (goto (if st_eqb (state c) Active then DPd m else DErr (EUnexpected (Typed m))) c)
          else None
      | DErr e => recv_err (OData i) e (goto DDone c)
      | DPd m =>
          match fget FProtocolData (m_f m) with
          | None => Some (panicking PNil c)
          | Some p =>
              match ProtocolData p with
              | Ok pd => Some (goto (DSend pd) c)
              | Err _ => Some (goto (DErr EFailedToPeelOff) c)
              | Panic q => Some (panicking q c)
              end
          end
      | DSend pd =>
          if closed c then Some (panicking PSendClosed c)
          else if (N.of_nat (length (dq c)) <? data_cap)%N then Some (goto DDone (set_dq (dq c ++ [pd]) c))
          else None
      | DDone => None
      end
  end.

Definition hb_on (g : config) : bool :=
  match cf_hb g with Some h => hb_enabled h | None => false end.

Definition step_hb (c : conn) (ok : bool) : option conn :=
  match hb c with
  | BStart => Some (set_hb BWait c)
  | BRun => Some (set_hb (if hb_on (cfg c) then BRand else BDone) c)
  | BRand => if ok then None else Some (set_hb (BErr ERand) c)
  | BWrite d =>
      match WriteSignal OHb c (beat d) ok with
      | WOk c _ => Some (set_hb (BStore d) c)
      | WErr => Some (set_hb (BErr EFailedToWriteSignal) c)
      | WPanic p => Some (panicking p c)
      end
  | BStore d => Some (set_hb BAck (set_hba true (set_hbd d c)))
  | BAck => if closed c then Some (set_hb BDone c) else None
  | BErr e => recv_err OHb e (set_hb BDone c)
  | BWait | BSleep | BDone => None
  end.

(** chooseStreamID — conn.go:257-264 *)
Definition choose_stream (max rnd : N) : res (option N) :=
  if (max =? 1)%N then Ok (Some 1%N)
  else if (max =? 0)%N then Panic PIntn
  else if (rnd <? max)%N then Ok (Some (u16 (u16 rnd + 1))) else Ok None.

(** the DATA message of WriteToStream — conn.go:117-123 *)
Definition data_msg (g : config) (b : list byte) : m3ua :=
  Typed (NewData (cf_na g) (cf_rc g)
    (Some (NewProtocolData (cf_opc g) (cf_dpc g) (cf_si g) (cf_ni g) (cf_mp g) (cf_sls g) b)) (cf_corr g)).
(** ... and of WritePDToStream — conn.go:152-157 *)
Definition pd_msg (g : config) (pd : option param) : m3ua :=
  Typed (NewData (cf_na g) (cf_rc g) pd (cf_corr g)).

(** Read's copy(b, pd.Data) — conn.go:80-81 *)
Definition read_result (buf : option (list byte)) (pd : pdpayload) : ures :=
  match buf with
  | None => RPD pd
  | Some b => RRead (length (pd_data pd))
                (firstn (length b) (pd_data pd) ++ skipn (length (pd_data pd)) b)
  end.

Definition step_user (c : conn) (i : nat) (ok : bool) : option conn :=
  match nth_error (us c) i with
  | None | Some (UDone _) => None
  | Some x =>
      let goto u c := set_us (upd (us c) i u) c in
      match x with
      | UGo op =>
          match op with
          | OpRead b =>                               (* conn.go:64-73 *)
              if unlocked c then
                Some (goto (if st_eqb (state c) Active then URecv (Some b) else UDone RNotEstablished) c)
              else None
          | OpReadPD =>                               (* conn.go:86-95 *)
              if unlocked c then
                Some (goto (if st_eqb (state c) Active then URecv None else UDone RNotEstablished) c)
              else None
          | OpWrite b rnd =>                          (* conn.go:106-110 *)
              match choose_stream (maxs c) rnd with
              | Ok (Some s) => Some (goto (UGo (OpWriteTo b s)) c)
              | Ok None | Err _ => None               (* not a value Intn can return *)
              | Panic p => Some (panicking p c)
              end
          | OpWritePD pd rnd =>                       (* conn.go:141-145 *)
              match choose_stream (maxs c) rnd with
              | Ok (Some s) => Some (goto (UGo (OpWritePDTo pd s)) c)
              | Ok None | Err _ => None
              | Panic p => Some (panicking p c)
              end
          | OpWriteTo b s =>                          (* conn.go:113-116 *)
              if unlocked c then
                Some (goto (if st_eqb (state c) Active then USend s (data_msg (cfg c) b) else UDone RNotEstablished) c)
              else None
          | OpWritePDTo pd s =>                       (* conn.go:148-151 *)
              if unlocked c then
                Some (goto (if st_eqb (state c) Active then USend s (pd_msg (cfg c) pd) else UDone RNotEstablished) c)
              else None
          | OpWriteSignal m =>
              match WriteSignal (OUser i) c m ok with
              | WOk c n => Some (goto (UDone (RWrote n)) c)
              | WErr => Some (goto (UDone RWriteError) c)
              | WPanic p => Some (panicking p c)
              end
          | OpClose =>
              if unlocked c then
                let c' := Close c in
                match crash c' with
                | Some _ => Some c'
                | None => Some (goto (UDone (RClosed (sopen c))) c')
                end
              else None
          | OpState => if unlocked c then Some (goto (UDone (RState (state c))) c) else None
          end
      | URecv buf =>                                  (* conn.go:75-81, 97-102 *)
          match dq c with
          | pd :: r => Some (goto (UDone (read_result buf pd)) (emit (EDeliver pd) (set_dq r c)))
          | [] => if closed c then Some (goto (UDone RNotEstablished) c) else None
          end
      | USend s m =>                                  (* conn.go:117-137, 152-171 *)
          match m3_MarshalBinary m with
          | Ok (_, b) =>
              if can_write c ok
              then Some (goto (UDone (RWrote (length b + length b))) (emit (ESend (OUser i) s m b) c))
              else Some (goto (UDone RWriteError) c)
          | Err _ => Some (goto (UDone RWriteError) c)
          | Panic p => Some (panicking p c)
          end
      | UDone _ => None
      end
  end.

Definition step (c : conn) (l : label) : option conn :=
  match crash c with
  | Some _ => None
  | None =>
  match l with
  | LArrive p => Some (set_inq (inq c ++ [p]) c)
  | LCancel => Some (set_ctxd true c)
  | LOtherBeat d => Some (set_hba false (set_hbd d c))
  | LInit =>
      match ini c, mon c with
      | true, MSelect => Some (set_mon (MUpd Down) (set_ini false c))
      | _, _ => None
      end
  | LMon ok => step_mon c ok
  | LMonCtx =>
      match mon c, ctxd c with
      | MSelect, true => Some (set_mon MClose c)
      | _, _ => None
      end
  | LHand i ok => step_hand c i ok
  | LData i => step_data c i
  | LDataCtx i =>
      match nth_error (ds c) i, ctxd c with
      | Some (DSend _), true => Some (set_ds (upd (ds c) i DDone) c)
      | _, _ => None
      end
  | LHb ok => step_hb c ok
  | LHbRand d =>
      match hb c with
      | BRand => if length d =? 128
                 then Some (set_hb (BWrite d) (if hba c then set_hbd d c else c)) else None
      | _ => None
      end
  | LHbTimer =>
      match hb c with
      | BAck => Some (set_hb (BErr EHeartbeatExpired) c)
      | BSleep => Some (set_hb BRand c)
      | _ => None
      end
  | LHbCtx =>
      match hb c, ctxd c with
      | (BAck | BSleep), true => Some (set_hb BDone c)
      | _, _ => None
      end
  | LDialClosed =>
      match dial c, closed c with
      | DWait, true => Some (set_sopen false (set_dial DFailed c))
      | _, _ => None
      end
  | LDialTimeout =>
      match dial c with
      | DWait => Some (set_sopen false (set_dial DTimeout c))
      | _ => None
      end
  | LCall op =>
      match dial c with
      | DOk => Some (set_us (us c ++ [UGo op]) c)
      | _ => None
      end
  | LUser i ok => step_user c i ok
  end
  end.

Fixpoint run (c : conn) (ls : list label) : option conn :=
  match ls with
  | [] => Some c
  | l :: r => match step c l with Some c => run c r | None => None end
  end.
