(** Specification: an endpoint that only answers, as a function from the octets it receives to the octets it sends. *)
From Verif Require Import GoBase ParamsModel MessagesModel ConfigModel ConnModel ConnSpec.
From Coq Require Import Arith.
Open Scope nat_scope.

(** what has become of it; [told]: Dial or Accept has returned *)
Inductive fin :=
| Waits (s : st) (told : bool)   (* it waits for the next packet *)
| Blocked                        (* blocked for ever in a second transition to Active *)
| Deaf (s : st) (told : bool)    (* it will never read again, nor close *)
| Panicked.
Definition dial_of (told : bool) : dialst := if told then DOk else DWait.
(** the state asked for by m *)
Definition asked (s : st) (m : m3ua) : st := match names m with Some s' => s' | None => s end.
Definition entering (s s' : st) (told : bool) : fin :=
  match s' with
  | Active => match s with Active => Waits Active told | _ => if told then Blocked else Waits Active true end
  | _ => Waits s' told
  end.

(** the packets sent because of a reaction *)
Inductive because (g : config) : reaction -> list (list byte) -> Prop :=
| BC_consume : because g Consume []
| BC_reply r b : encodes r b -> because g (Reply r) [b]
| BC_refuse e r b : answers g e r -> encodes r b -> because g (Refuse e) [b].
(** the packet sent when (again) put into state s *)
Inductive greeting (mo : cmode) (g : config) (s : st) : list (list byte) -> Prop :=
| GR_none : initial mo g s = None -> greeting mo g s []
| GR_some m b : initial mo g s = Some m -> encodes m b -> greeting mo g s [b].

Definition is_data (raw : list byte) : Prop := exists t, valid raw (Typed t) /\ m_kind t = KData.
Definition is_beat_ack (m : m3ua) : Prop := exists t, m = Typed t /\ m_kind t = KHeartbeatAck.
Definition is_data_msg (m : m3ua) : Prop := exists t, m = Typed t /\ m_kind t = KData.

(** [responds mo g d f raw bs f']: in f the packet raw makes it send bs and leads to f'; d is HeartbeatInfo.Data *)
Inductive responds (mo : cmode) (g : config) (d : list byte) : fin -> list byte -> list (list byte) -> fin -> Prop :=
| RS_undecodable s told raw e : Parse raw = Err e -> responds mo g d (Waits s told) raw [] (Deaf s told)
| RS_version s told raw m bs : Parse raw = Ok m -> b2n (Version m) <> 1%N -> because g (Refuse (EInvalidVersion (Version m))) bs ->
    responds mo g d (Waits s told) raw bs (Deaf s told)
| RS_message s told raw m x bs gs : valid raw m -> ~ is_beat_ack m -> ~ is_data_msg m -> reacts g s m x -> because g x bs -> greeting mo g (asked s m) gs ->
    responds mo g d (Waits s told) raw (bs ++ gs) (entering s (asked s m) told)
| RS_ack_early s told raw t bs : valid raw (Typed t) -> m_kind t = KHeartbeatAck -> s <> Active -> because g (Refuse (EUnexpected (Typed t))) bs ->
    responds mo g d (Waits s told) raw bs (Deaf s told)
| RS_ack_empty told raw t : valid raw (Typed t) -> m_kind t = KHeartbeatAck -> fget FHeartbeatData (m_f t) = None ->
    responds mo g d (Waits Active told) raw [] Panicked
| RS_ack_same told raw t p : valid raw (Typed t) -> m_kind t = KHeartbeatAck -> fget FHeartbeatData (m_f t) = Some p -> HeartbeatData p = d ->
    responds mo g d (Waits Active told) raw [] (Deaf Active told)
| RS_ack_other told raw t p bs : valid raw (Typed t) -> m_kind t = KHeartbeatAck -> fget FHeartbeatData (m_f t) = Some p -> HeartbeatData p <> d ->
    because g (Refuse (EUnexpected (Typed t))) bs -> responds mo g d (Waits Active told) raw bs (Deaf Active told)
| RS_lost f raw : (forall s told, f <> Waits s told) -> responds mo g d f raw [] f.

(** all packets it sends when it receives rs, and what becomes of it *)
Inductive transcript (mo : cmode) (g : config) (d : list byte) : list (list byte) -> list (list byte) -> fin -> Prop :=
| TR_new gs : greeting mo g Down gs -> transcript mo g d [] gs (Waits Down false)
| TR_packet rs bs f raw os f' : transcript mo g d rs bs f -> responds mo g d f raw os f' -> transcript mo g d (rs ++ [raw]) (bs ++ os) f'.

(** an endpoint in f *)
Definition became (c : conn) (f : fin) : Prop :=
  match f with
  | Waits s told => crash c = None /\ mon c = MRead /\ inq c = [] /\ state c = s /\ dial c = dial_of told
  | Blocked => crash c = None /\ mon c = MEst /\ state c = Active /\ dial c = DOk
  | Deaf s told => crash c = None /\ mon c = MSelect /\ state c = s /\ dial c = dial_of told
  | Panicked => crash c = Some PNil
  end.
(** the text of HeartbeatInfo.Data *)
Definition beat_text (g : config) : list byte := match cf_hb g with Some h => hb_data h | None => [] end.
