(** Specification: two endpoints from Dial and Accept on, with heartbeats and traffic. *)
From Verif Require Import GoBase MessagesModel ConfigModel ConnModel ConnSpec CfgSpec ConnPair TalkSpec.
From Coq Require Import Arith.
Open Scope nat_scope.

(** A step of one of the goroutines other than the firing of a timer, or the arrival of a packet. Packets for the server arrive in any
    order; so do those for the client once Dial has returned; before that they arrive in the order in which they were sent, lest a message
    of the server's user overtake the ASP ACTIVE ACK. *)
Inductive lstep : talk -> talk -> Prop :=
| L_client a b u d l a' new : fair l -> l <> LHbTimer -> step a l = Some a' -> packets (log a') = packets (log a) ++ new ->
    lstep (mkTalk a b u d) (mkTalk a' b (u ++ new) d)
| L_server a b u d l b' new : fair l -> l <> LHbTimer -> step b l = Some b' -> packets (log b') = packets (log b) ++ new ->
    lstep (mkTalk a b u d) (mkTalk a b' u (d ++ new))
| L_to_server a b u1 raw u2 d b' : step b (LArrive raw) = Some b' -> lstep (mkTalk a b (u1 ++ raw :: u2) d) (mkTalk a b' (u1 ++ u2) d)
| L_to_client a b u d1 raw d2 a' : d1 = [] \/ dial a = DOk -> step a (LArrive raw) = Some a' ->
    lstep (mkTalk a b u (d1 ++ raw :: d2)) (mkTalk a' b u (d1 ++ d2)).
(** the Interval of a heartbeat goroutine elapses *)
Inductive tick : talk -> talk -> Prop :=
| K_client a b u d a' : hb a = BSleep -> step a LHbTimer = Some a' -> tick (mkTalk a b u d) (mkTalk a' b u d)
| K_server a b u d b' : hb b = BSleep -> step b LHbTimer = Some b' -> tick (mkTalk a b u d) (mkTalk a b' u d).
(** n steps, i intervals, and the calls of the two users *)
Inductive lives : nat -> nat -> list uop -> list uop -> talk -> talk -> Prop :=
| LV_0 t : lives 0 0 [] [] t t
| LV_S n i p q t t1 t2 : lives n i p q t t1 -> lstep t1 t2 -> lives (S n) i p q t t2
| LV_tick n i p q t t1 t2 : lives n i p q t t1 -> tick t1 t2 -> lives n (S i) p q t t2
| LV_client n i p q t a b u d op a' : lives n i p q t (mkTalk a b u d) -> sane a op -> step a (LCall op) = Some a' -> lives n i (p ++ [op]) q t (mkTalk a' b u d)
| LV_server n i p q t a b u d op b' : lives n i p q t (mkTalk a b u d) -> sane b op -> step b (LCall op) = Some b' -> lives n i p (q ++ [op]) t (mkTalk a b' u d).
(** m steps without calls or intervals *)
Inductive lsteps : nat -> talk -> talk -> Prop :=
| LL_0 t : lsteps 0 t t
| LL_S m t t1 t2 : lsteps m t t1 -> lstep t1 t2 -> lsteps (S m) t t2.
Definition lstart (gc gs : config) (oc os : N) : talk := mkTalk (start Client gc oc) (start Server gs os) [] [].
(** what may be in the log: nothing is closed, and what is refused is a BEAT ACK *)
Definition refusal (e : event) : bool := match e with ERefused _ _ => true | _ => false end.
Definition gentle (e : event) : Prop :=
  match e with
  | EClosed => False
  | ERefused o x => exists i t, o = OHand i /\ x = EUnexpected (Typed t) /\ m_kind t = KHeartbeatAck
  | _ => True
  end.
(** no BEAT of the endpoint is unanswered *)
Definition unworried (c : conn) : Prop := hb c = BWait \/ hb c = BSleep \/ hb c = BDone.
(** an endpoint without a refusal other than that of one BEAT ACK, and of none when its heartbeats are disabled *)
Definition few (g : config) (c : conn) : Prop :=
  Forall gentle (log c) /\ length (filter refusal (log c)) <= 1 /\ (beats_enabled g = false -> filter refusal (log c) = []).
(** an established endpoint at rest *)
Record calm_end (ops : list uop) (c : conn) : Prop := {
  ce_dial : dial c = DOk; ce_state : state c = Active; ce_mon : mon c = MRead; ce_inq : inq c = []; ce_hb : unworried c;
  ce_us : Forall2 (answered c) ops (us c) }.
