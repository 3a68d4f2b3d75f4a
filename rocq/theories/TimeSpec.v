(** What is said about time. *)
From Verif Require Import GoBase ConfigModel ConnModel TimeModel.
From Coq Require Import ZArith.
Open Scope Z_scope.

(** the times at which BEATs of the connection's own were sent *)
Definition beat_times (l : list (Z * event)) : list Z :=
  flat_map (fun e => match e with (t, ESend OHb _ _ _) => [t] | _ => [] end) l.
(** those of a span of time *)
Definition within (a b : Z) (l : list Z) : list Z := filter (fun t => (a <=? t) && (t <=? b)) l.
(** the configured duration, nothing when heartbeats are not configured *)
Definition interval (g : config) : Z := match cf_hb g with Some h => Z.max 0 (hb_interval h) | None => 0 end.
Definition patience (g : config) : Z := match cf_hb g with Some h => Z.max 0 (hb_timer h) | None => 0 end.
(** neighbours are at least [d] apart *)
Definition spaced (d : Z) (l : list Z) : Prop := forall l1 a b l2, l = l1 ++ a :: b :: l2 -> a + d <= b.
(** nothing comes from the peer, the association does not break, the caller does not give up *)
Definition hears_nothing (l : label) : Prop :=
  match l with LArrive _ => False | LMon ok => ok = true | LCancel => False | _ => True end.
(** a call of Accept for a peer that says nothing *)
Definition silent_call (k : N * list (Z * label)) : Prop := Forall (fun e => hears_nothing (snd e)) (snd k).
(** the heartbeat goroutine stays where it is, at [b], along these steps *)
Fixpoint stays (b : bpc) (x : tconn) (ls : list (Z * label)) : Prop :=
  hb (tc x) = b /\ match ls with [] => True | (t, l) :: r => match tstep x t l with Some y => stays b y r | None => False end end.
