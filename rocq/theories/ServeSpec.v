(** Specification: what an established connection does for a peer that no longer changes its state. *)
From Verif Require Import GoBase ParamsModel MessagesModel ConfigModel ConnModel ConnSpec ConnData WorkSpec.
From Coq Require Import Arith Permutation.
Open Scope nat_scope.

(** a message of the traffic: a BEAT, NTFY, ERR, a DATA message with a Protocol Data that can be decoded, or a message the library
    does not support (SSNM, RKM, unknown classes and types). ASPSM and ASPTM requests and acks, and BEAT ACK, are not. *)
Definition traffic_msg (m : m3ua) : Prop :=
  match m with
  | Gen _ => True
  | Typed t =>
      match m_kind t with
      | KHeartbeat | KNotify | KError => True
      | KData => exists q pd, fget FProtocolData (m_f t) = Some q /\ ProtocolData q = Ok pd
      | _ => supported m = false
      end
  end.
Definition traffic (raw : list byte) : Prop := length raw <= 1500 /\ exists m, valid raw m /\ traffic_msg m.

(** the peer sends traffic only; nobody cancels the context or calls Close; the system calls made by the library's own goroutines
    succeed (those made by the user's calls may fail); no heartbeat timer fires *)
Definition peaceful (l : label) : Prop :=
  match l with
  | LArrive raw => traffic raw
  | LCancel | LMon false | LHand _ false | LHb false | LHbTimer | LDialTimeout | LCall OpClose => False
  | _ => True
  end.

(** Dial or Accept has returned the connection, and it waits for a packet *)
Record serving (c : conn) : Prop := {
  sv_crash : crash c = None; sv_dial : dial c = DOk; sv_state : state c = Active; sv_mon : mon c = MRead; sv_inq : inq c = [];
  sv_open : closed c = false /\ sopen c = true /\ ctxd c = false;
  sv_ds : Forall (fun d => d = DDone) (ds c);
  sv_hb : forall e, hb c <> BErr e;
  sv_us : Forall (fun u => u <> UGo OpClose) (us c) }.

(** what the library sends by itself (the heartbeats apart) *)
Definition own (l : list event) : list (list byte) :=
  flat_map (fun e => match e with ESend (OMon | OHand _ | OData _) _ _ b => [b] | _ => [] end) l.

(** the packets sent in return for packets of the traffic: to every BEAT its ack, to every message that is not supported an Error,
    to the rest nothing *)
Inductive served (g : config) : list (list byte) -> list (list byte) -> Prop :=
| SV_nil : served g [] []
| SV_beat raw t b rs bs : valid raw (Typed t) -> m_kind t = KHeartbeat -> encodes (beat_ack_of t) b ->
    served g rs bs -> served g (raw :: rs) (b :: bs)
| SV_unsupported raw m r b rs bs : valid raw m -> supported m = false -> ConnSpec.answers g (EUnsupportedMessage m) r -> encodes r b ->
    served g rs bs -> served g (raw :: rs) (b :: bs)
| SV_silent raw t rs bs : valid raw (Typed t) -> In (m_kind t) [KData; KNotify; KError] ->
    served g rs bs -> served g (raw :: rs) bs.

(** nothing is left to do for the library *)
Definition at_rest (c : conn) : Prop := forall l, inner l = true -> peaceful l -> step c l = None.

(** the payloads of DATA messages waiting for room in the queue of received data, which holds 65535 *)
Definition waiting (d : list dpc) : list pdpayload := flat_map (fun x => match x with DSend pd => [pd] | _ => [] end) d.
(** c' has done all there is to do for the packets rs that arrived after c: they were read in their order, what is due was sent in return,
    in the same order and nothing else, and every payload was delivered or is in the queue, once *)
Record all_done (c : conn) (rs : list (list byte)) (c' : conn) : Prop := {
  ad_read : reads (log c') = reads (log c) ++ rs;
  ad_sent : exists bs, own (log c') = own (log c) ++ bs /\ served (cfg c) rs bs;
  ad_data : exists new, delivered (log c') = delivered (log c) ++ new /\
    Permutation (new ++ dq c' ++ waiting (ds c')) (dq c ++ flat_map payload rs) /\
    ((N.of_nat (length (dq c')) < 65535)%N -> waiting (ds c') = []) }.
