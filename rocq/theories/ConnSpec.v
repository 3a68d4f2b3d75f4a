(** Specification of a connection's behaviour as a set of traces, written without
    the transition system of ConnModel.v: which sequences of events (packets read,
    messages sent, state updates, errors, payloads delivered, Close) are possible. *)
From Verif Require Import GoBase ParamsModel MessagesModel ConfigModel ConnModel.
From Coq Require Import Arith.
Open Scope nat_scope.

(** ** Reading a log *)
Definition reads (l : list event) : list (list byte) :=
  flat_map (fun e => match e with ERead r => [r] | _ => [] end) l.
Definition updates (l : list event) : list st :=
  flat_map (fun e => match e with EUpd s => [s] | _ => [] end) l.
Definition delivered (l : list event) : list pdpayload :=
  flat_map (fun e => match e with EDeliver p => [p] | _ => [] end) l.

(** Close was executed *)
Definition closes (l : list event) : bool :=
  existsb (fun e => match e with EClosed => true | _ => false end) l.

(** b is the encoding of m *)
Definition encodes (m : m3ua) (b : list byte) : Prop := exists m', m3_MarshalBinary m = Ok (m', b).

(** a received packet that this version of the protocol understands *)
Definition valid (raw : list byte) (m : m3ua) : Prop :=
  Parse raw = Ok m /\ b2n (Version m) = 1%N.

(** ** The tables of the protocol *)
(** the state that a message asks for, if any *)
Definition names (m : m3ua) : option st :=
  match m with
  | Typed t =>
      match m_kind t with
      | KAspUp | KAspUpAck | KAspInactive | KAspInactiveAck => Some Inactive
      | KAspDown | KAspDownAck => Some Down
      | KAspActive | KAspActiveAck => Some Active
      | _ => None
      end
  | Gen _ => None
  end.

(** [explains cl p raws ss]: starting in state p, the packets raws lead to the states ss one after
    the other: each is the state its packet names or, if it names none, the state before; [cl]: Close
    was executed, so it can also be Down *)
Inductive explains (cl : bool) : st -> list (list byte) -> list st -> Prop :=
| EX_nil p : explains cl p [] []
| EX_cons p raw m s rs ss : valid raw m ->
    names m = Some s \/ (names m = None /\ (s = p \/ (cl = true /\ s = Down))) ->
    explains cl s rs ss -> explains cl p (raw :: rs) (s :: ss).

(** the reply to a request, with the states in which it is given *)
Definition reply_table (g : config) (t : msg) : option (list st * m3ua) :=
  match m_kind t with
  | KAspUp => Some ([Down], Typed (NewAspUpAck (cf_aspid g) None))
  | KAspDown => Some ([Inactive; Active], Typed (NewAspDownAck None))
  | KAspActive => Some ([Inactive], Typed (NewAspActiveAck (cf_tmt g) (cf_rc g) None))
  | KAspInactive => Some ([Active], Typed (NewAspInactiveAck (cf_rc g) None))
  | KHeartbeat => Some ([Active], beat_ack_of t)
  | _ => None
  end.
(** the states in which a message is accepted without reply *)
Definition silent_table (t : msg) : list st :=
  match m_kind t with
  | KAspUpAck => [Down]
  | KAspDownAck => [Down]
  | KAspActiveAck => [Inactive]
  | KAspInactiveAck => [Active]
  | KHeartbeatAck => [Active]
  | KError | KNotify | KData => [Down; Inactive; Active]
  | _ => []
  end.
(** messages that are never accepted: generic ones and SSNM *)
Definition supported (m : m3ua) : bool :=
  match m with
  | Typed t => match m_kind t with KDUNA | KDAVA | KDAUD | KSCON | KDUPU | KDRST => false | _ => true end
  | Gen _ => false
  end.

Inductive reaction := Consume | Reply (r : m3ua) | Refuse (e : cerr).
(** what the endpoint does with message m in state s *)
Inductive reacts (g : config) (s : st) : m3ua -> reaction -> Prop :=
| RC_silent t : In s (silent_table t) -> reacts g s (Typed t) Consume
| RC_reply t l r : reply_table g t = Some (l, r) -> In s l -> reacts g s (Typed t) (Reply r)
| RC_unexpected t : supported (Typed t) = true -> ~ In s (silent_table t) ->
    (forall l r, reply_table g t = Some (l, r) -> ~ In s l) ->
    reacts g s (Typed t) (Refuse (EUnexpected (Typed t)))
| RC_unsupported m : supported m = false -> reacts g s m (Refuse (EUnsupportedMessage m))
(* a BEAT ACK in Active may also be refused: its data is compared *)
| RC_beat_ack t : m_kind t = KHeartbeatAck -> s = Active -> reacts g s (Typed t) (Refuse (EUnexpected (Typed t))).

(** the Error message sent for an error *)
Inductive answers (g : config) : cerr -> m3ua -> Prop :=
| AN_version v : answers g (EInvalidVersion v)
    (Typed (NewError (Some (NewErrorCode 1)) None None None None))
| AN_unsupported m b : encodes m b -> answers g (EUnsupportedMessage m)
    (Typed (NewError (Some (NewErrorCode 4)) None None None (Some (NewDiagnosticInformation (firstn 40 b)))))
| AN_unexpected m : answers g (EUnexpected m)
    (Typed (NewError (Some (NewErrorCode 6)) (cf_rc g) (cf_na g) (Some (NewAffectedPointCode [cf_opc g])) None)).

(** the message a client sends when it enters (or is again put into) a state *)
Definition initial (m : cmode) (g : config) (s : st) : option m3ua :=
  match m, s with
  | Client, Down => Some (asp_up g)
  | Client, Inactive => Some (asp_active g)
  | _, _ => None
  end.

(** ** Traces
    [h_due = Some None]: the initial update has not happened; [Some (Some raw)]: packet raw was
    read and its state update has not happened; [None]: no packet is being processed.
    [h_n]: number of packets read.  [h_cur]: the state set by the last update; [h_cl]: Close was
    executed since.  [h_out]: the packet being processed has been replied to or refused.
    [h_may]: what the monitor may send now. *)
Record hstate := mkH {
  h_due : option (option (list byte)); h_n : nat; h_cur : st; h_cl : bool; h_out : bool; h_may : option m3ua }.
Definition h0 : hstate := mkH (Some None) 0 Down false false None.

(** a state that a goroutine may have seen since the last update *)
Definition seen (h : hstate) (s : st) : Prop := s = h_cur h \/ (h_cl h = true /\ s = Down).

(** the state update that processing [m] may lead to *)
Definition allowed (h : hstate) (m : m3ua) (s : st) : Prop :=
  names m = Some s \/ (names m = None /\ seen h s).

(** why the goroutine of packet [raw] may report error [e] *)
Inductive justified (g : config) (h : hstate) (raw : list byte) : cerr -> Prop :=
| J_version m : Parse raw = Ok m -> b2n (Version m) <> 1%N -> justified g h raw (EInvalidVersion (Version m))
| J_refuse m s e : valid raw m -> seen h s -> reacts g s m (Refuse e) -> justified g h raw e
| J_write m s r : valid raw m -> seen h s -> reacts g s m (Reply r) -> justified g h raw EWriteSignal.

(** heartbeats are switched on in the configuration *)
Definition beats_enabled (g : config) : bool := match cf_hb g with Some h => hb_enabled h | None => false end.
(** errors of the data and heartbeat goroutines *)
Inductive other_error : origin -> cerr -> Prop :=
| OE_data i t : m_kind t = KData -> other_error (OData i) (EUnexpected (Typed t))
| OE_peel i : other_error (OData i) EFailedToPeelOff
| OE_hb e : In e [ERand; EFailedToWriteSignal; EHeartbeatExpired] -> other_error OHb e.

Inductive hnext (mo : cmode) (g : config) : hstate -> event -> hstate -> Prop :=
(* the first update, and the update after a packet has been processed *)
| H_first n cur cl out may : hnext mo g (mkH (Some None) n cur cl out may) (EUpd Down)
    (mkH None n Down false false (initial mo g Down))
| H_upd raw m s n cur cl out may : valid raw m ->
    let h := mkH (Some (Some raw)) n cur cl out may in
    allowed h m s ->
    (out = true \/ exists s', seen h s' /\ reacts g s' m Consume) ->
    hnext mo g h (EUpd s) (mkH None n s false false (initial mo g s))
(* reading a packet *)
| H_read raw n cur cl out may : hnext mo g (mkH None n cur cl out may) (ERead raw) (mkH (Some (Some raw)) (S n) cur cl false None)
(* Close *)
| H_close d n cur cl out may : hnext mo g (mkH d n cur cl out may) EClosed (mkH d n cur true out may)
(* the reply to a packet: at most one, on stream 0 *)
| H_reply raw m s r b n cur cl may : valid raw m ->
    let h := mkH (Some (Some raw)) (S n) cur cl false may in
    seen h s -> reacts g s m (Reply r) -> encodes r b ->
    hnext mo g h (ESend (OHand n) 0 r b) (mkH (Some (Some raw)) (S n) cur cl true may)
(* an error about a packet: at most one; the monitor may answer it *)
| H_refuse raw e n cur cl may may' :
    justified g (mkH (Some (Some raw)) (S n) cur cl false may) raw e ->
    (forall r, may' = Some r -> answers g e r) ->
    hnext mo g (mkH (Some (Some raw)) (S n) cur cl false may) (ERefused (OHand n) e) (mkH (Some (Some raw)) (S n) cur cl true may')
(* an error of another goroutine *)
| H_other o e d n cur cl out may may' : other_error o e ->
    (forall r, may' = Some r -> answers g e r) ->
    hnext mo g (mkH d n cur cl out may) (ERefused o e) (mkH d n cur cl out may')
(* the monitor sends what it may send, once, on stream 0 *)
| H_mon r b d n cur cl out : encodes r b ->
    hnext mo g (mkH d n cur cl out (Some r)) (ESend OMon 0 r b) (mkH d n cur cl out None)
(* a heartbeat *)
| H_beat h x b : beats_enabled g = true -> length x = 128 -> encodes (beat x) b -> hnext mo g h (ESend OHb 0 (beat x) b) h
(* what the user sends, and payloads handed to the user *)
| H_user h i s m b : encodes m b -> hnext mo g h (ESend (OUser i) s m b) h
| H_deliver h p : hnext mo g h (EDeliver p) h.

(** [history mo g l h]: the log l is a trace and leads to h *)
Inductive history (mo : cmode) (g : config) : list event -> hstate -> Prop :=
| HI_nil : history mo g [] h0
| HI_snoc l h e h' : history mo g l h -> hnext mo g h e h' -> history mo g (l ++ [e]) h'.

(** the observable ASP state *)
Definition observed (h : hstate) : st := if h_cl h then Down else h_cur h.

(** ** Predicates on logs used in the property statements *)
(** class and type octets of a packet *)
Definition octets (b : list byte) : N * N := (b2n (nth 2 b x00), b2n (nth 3 b x00)).
(** an event of the packet goroutine i: a reply or a reported error *)
Definition about (i : nat) (e : event) : bool :=
  match e with ESend (OHand j) _ _ _ | ERefused (OHand j) _ => i =? j | _ => false end.
Definition by_user (o : origin) : bool := match o with OUser _ => true | _ => false end.
(** neither a packet nor an update nor an error nor a message of the monitor *)
Definition quiet (e : event) : bool :=
  match e with ERead _ | EUpd _ | ERefused _ _ | ESend OMon _ _ _ => false | _ => true end.
(** the state set by the last update *)
Definition current (l : list event) : st := last (updates l) Down.
(** class and type octets of the acknowledgement of a request; a BEAT's class octet is copied from
    the packet, because Parse also accepts other class octets for a BEAT *)
Definition ack_octets (raw : list byte) (k : kind) : option (N * N) :=
  match k with
  | KAspUp => Some (3, 4)%N
  | KAspDown => Some (3, 5)%N
  | KHeartbeat => Some (fst (octets raw), 6%N)
  | KAspActive => Some (4, 3)%N
  | KAspInactive => Some (4, 4)%N
  | _ => None
  end.

(** ** User calls *)
(** the messages sent by user call i: stream, message, bytes *)
Definition usends (i : nat) (l : list event) : list (N * m3ua * list byte) :=
  flat_map (fun e => match e with ESend (OUser j) s m b => if i =? j then [(s, m, b)] else [] | _ => [] end) l.
(** the DATA message a write call sends with configuration g *)
Inductive carries (g : config) : uop -> m3ua -> Prop :=
| CA_write b rnd : carries g (OpWrite b rnd) (Typed (NewData (cf_na g) (cf_rc g)
    (Some (NewProtocolData (cf_opc g) (cf_dpc g) (cf_si g) (cf_ni g) (cf_mp g) (cf_sls g) b)) (cf_corr g)))
| CA_write_to b s : carries g (OpWriteTo b s) (Typed (NewData (cf_na g) (cf_rc g)
    (Some (NewProtocolData (cf_opc g) (cf_dpc g) (cf_si g) (cf_ni g) (cf_mp g) (cf_sls g) b)) (cf_corr g)))
| CA_pd pd rnd : carries g (OpWritePD pd rnd) (Typed (NewData (cf_na g) (cf_rc g) pd (cf_corr g)))
| CA_pd_to pd s : carries g (OpWritePDTo pd s) (Typed (NewData (cf_na g) (cf_rc g) pd (cf_corr g))).
(** the stream it may use, [max] being the largest stream identifier *)
Definition stream_for (max : N) (op : uop) (s : N) : Prop :=
  match op with
  | OpWrite _ _ | OpWritePD _ _ => (1 <= s <= max)%N
  | OpWriteTo _ x | OpWritePDTo _ x => s = x
  | _ => False
  end.
(** the result of Read(buf) (Some buf) or ReadPD (None) for payload p *)
Definition read_as (buf : option (list byte)) (p : pdpayload) (r : ures) : Prop :=
  match buf with
  | None => r = RPD p
  | Some b => exists b', r = RRead (length (pd_data p)) b' /\ length b' = length b /\
      forall j, nth_error b' j =
        if j <? length b then (if j <? length (pd_data p) then nth_error (pd_data p) j else nth_error b j) else None
  end.
(** between configuration c and c' some configuration satisfies P *)
Definition via (P : conn -> Prop) (c c' : conn) : Prop :=
  exists l1 c1 l2, run c l1 = Some c1 /\ P c1 /\ run c1 l2 = Some c'.

(** the events of packet goroutine i that reaction rc to a packet amounts to; a reply whose
    transmission fails is reported as an error instead *)
Definition does (i : nat) (rc : reaction) (es : list event) : Prop :=
  match rc with
  | Consume => es = []
  | Reply r => (exists b, encodes r b /\ es = [ESend (OHand i) 0 r b]) \/ es = [ERefused (OHand i) EWriteSignal]
  | Refuse e => es = [ERefused (OHand i) e]
  end.
(** the state after processing m in state s *)
Definition next_state (m : m3ua) (s : st) : st := match names m with Some s' => s' | None => s end.

(** states a goroutine can have seen after the events l1, with l2 following without update *)
Definition was_current (l1 l2 : list event) (s : st) : Prop := s = current l1 \/ (closes (l1 ++ l2) = true /\ s = Down).

(** the packet's messages: nothing, the reply, or the error and the Error message answering it *)
Definition outcome (g : config) (n : nat) (rc : reaction) (evs : list event) : Prop :=
  match rc with
  | Consume => evs = []
  | Reply r => exists b, encodes r b /\ evs = [ESend (OHand n) 0 r b]
  | Refuse e => exists r b, answers g e r /\ encodes r b /\ evs = [ERefused (OHand n) e; ESend OMon 0 r b]
  end.

(** the connection is going down *)
Definition ending (c : conn) : Prop := mon c = MClose \/ mon c = MExit \/ crash c <> None.

(** steps of the monitor and the packet goroutines whose system calls succeed *)
Definition smooth (l : label) : Prop := match l with LMon true | LHand _ true => True | _ => False end.
(** what processing a packet leaves alone *)
Definition kept (c c' : conn) : Prop :=
  mode c' = mode c /\ cfg c' = cfg c /\ maxs c' = maxs c /\ closed c' = closed c /\ sopen c' = sopen c /\
  ctxd c' = ctxd c /\ dq c' = dq c /\ hb c' = hb c /\ ini c' = ini c /\ us c' = us c /\ dial c' = dial c /\
  hbd c' = hbd c /\ hba c' = hba c /\ crash c' = crash c.
