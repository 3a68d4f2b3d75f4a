(** Specification: two endpoints from Dial and Accept on, with a clock. *)
From Verif Require Import GoBase MessagesModel ConfigModel ConnModel ConnSpec CfgSpec ConnPair TalkSpec LifeSpec TimeModel.
From Coq Require Import ZArith List.
Open Scope Z_scope.

(** The two endpoints with their clocks, the packets on their way, the time, when a step was last made or became possible after a time of
    rest, and the calls of the users to be served since that rest. *)
Record timed := mkTimed { m_cl : tconn; m_sv : tconn; m_up : list (list byte); m_dn : list (list byte); m_now : Z; m_last : Z; m_calls : nat }.
Definition untimed (s : timed) : talk := mkTalk (tc (m_cl s)) (tc (m_sv s)) (m_up s) (m_dn s).
Definition timed_start (gc gs : config) (oc os : N) (t : Z) : timed := mkTimed (tstart Client gc oc t) (tstart Server gs os t) [] [] t t 0.

(** a goroutine can make a step, or a packet is on its way *)
Definition can_move (t : talk) : Prop := exists t', lstep t t'.
(** the calls that have not returned and the payloads that wait for room in the queue *)
Definition open_calls (c : conn) : nat :=
  (length (filter (fun u => match u with UDone _ => false | _ => true end) (us c)) + length (filter (fun d => match d with DDone => false | _ => true end) (ds c)))%nat.
(** [d] is the responsiveness: what is possible goes on within [d]. A call or a timer at time [t], with the new [m_last] and [m_calls] *)
Inductive goes_on (d : Z) (s : timed) (t : Z) : Z -> nat -> Prop :=
| G_busy : can_move (untimed s) -> t <= m_last s + d -> goes_on d s t (m_last s) (m_calls s)
| G_rest : ~ can_move (untimed s) -> goes_on d s t t (open_calls (tc (m_cl s)) + open_calls (tc (m_sv s))).
Definition timer (l : label) : Prop := l = LHbTimer \/ l = LDialTimeout.

(** What may happen at time [t], when no more than [c] calls are to be served between two times of rest: the steps of [lstep], any timer that has
    elapsed (that of Dial and of Accept, and Interval and Timer of the heartbeats), and the calls of the users *)
Inductive occurs (d : Z) (c : nat) : timed -> Z -> timed -> Prop :=
| O_client x y u w n s k t l x' new : n <= t <= s + d -> fair l -> l <> LHbTimer -> TimeModel.tstep x t l = Some x' -> packets (log (tc x')) = packets (log (tc x)) ++ new ->
    occurs d c (mkTimed x y u w n s k) t (mkTimed x' y (u ++ new) w t t k)
| O_server x y u w n s k t l y' new : n <= t <= s + d -> fair l -> l <> LHbTimer -> TimeModel.tstep y t l = Some y' -> packets (log (tc y')) = packets (log (tc y)) ++ new ->
    occurs d c (mkTimed x y u w n s k) t (mkTimed x y' u (w ++ new) t t k)
| O_to_server x y u1 raw u2 w n s k t y' : n <= t <= s + d -> TimeModel.tstep y t (LArrive raw) = Some y' ->
    occurs d c (mkTimed x y (u1 ++ raw :: u2) w n s k) t (mkTimed x y' (u1 ++ u2) w t t k)
| O_to_client x y u w1 raw w2 n s k t x' : n <= t <= s + d -> w1 = [] \/ dial (tc x) = DOk -> TimeModel.tstep x t (LArrive raw) = Some x' ->
    occurs d c (mkTimed x y u (w1 ++ raw :: w2) n s k) t (mkTimed x' y u (w1 ++ w2) t t k)
| O_timer_client x y u w n s k t l x' s' k' : n <= t -> goes_on d (mkTimed x y u w n s k) t s' k' -> (k' <= c)%nat -> timer l -> TimeModel.tstep x t l = Some x' ->
    occurs d c (mkTimed x y u w n s k) t (mkTimed x' y u w t s' k')
| O_timer_server x y u w n s k t l y' s' k' : n <= t -> goes_on d (mkTimed x y u w n s k) t s' k' -> (k' <= c)%nat -> timer l -> TimeModel.tstep y t l = Some y' ->
    occurs d c (mkTimed x y u w n s k) t (mkTimed x y' u w t s' k')
| O_call_client x y u w n s k t op x' s' k' : n <= t -> goes_on d (mkTimed x y u w n s k) t s' k' -> (S k' <= c)%nat -> sane (tc x) op -> TimeModel.tstep x t (LCall op) = Some x' ->
    occurs d c (mkTimed x y u w n s k) t (mkTimed x' y u w t s' (S k'))
| O_call_server x y u w n s k t op y' s' k' : n <= t -> goes_on d (mkTimed x y u w n s k) t s' k' -> (S k' <= c)%nat -> sane (tc y) op -> TimeModel.tstep y t (LCall op) = Some y' ->
    occurs d c (mkTimed x y u w n s k) t (mkTimed x y' u w t s' (S k')).
Inductive history (d : Z) (c : nat) : timed -> timed -> Prop :=
| Y_0 s : history d c s s
| Y_S s s1 t s2 : history d c s s1 -> occurs d c s1 t s2 -> history d c s s2.

(** how long the two may be at work without rest *)
Definition span (d : Z) (c : nat) : Z := (136 + 13 * Z.of_nat c) * d.
(** the heartbeats of the endpoint, if enabled, are set to wait longer than [L] *)
Definition patient (L : Z) (g : config) : Prop := forall h, cf_hb g = Some h -> hb_enabled h = true -> L < hb_timer h /\ L < hb_interval h.
