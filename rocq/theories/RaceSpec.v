(** Accesses to cfg.HeartbeatInfo.Data, the only memory of a connection that more
    than one goroutine uses without a lock or a channel and whose value changes (the
    Length fields of shared parameters are in ShareModel).  Which steps read and
    write it is not written down by hand: a step writes it if it changes it, and
    reads it if its effect on the rest of the connection depends on it. *)
From Verif Require Import GoBase ConnModel.
Open Scope nat_scope.

(** who makes a step *)
Inductive gor := GEnv | GOther | GInit | GMon | GHand (i : nat) | GData (i : nat) | GBeat | GDial | GUser (i : nat).
Definition by_ (l : label) : gor :=
  match l with
  | LArrive _ | LCancel | LCall _ => GEnv
  | LOtherBeat _ => GOther                 (* another connection of the same Config *)
  | LInit => GInit
  | LMon _ | LMonCtx => GMon
  | LHand i _ => GHand i
  | LData i | LDataCtx i => GData i
  | LHb _ | LHbRand _ | LHbTimer | LHbCtx => GBeat
  | LDialClosed | LDialTimeout => GDial
  | LUser i _ => GUser i
  end.

Definition writes (c : conn) (l : label) : Prop :=
  exists c', step c l = Some c' /\ hbd c' <> hbd c.

(** everything but the heartbeat data *)
Definition rest (o : option conn) : option conn :=
  match o with Some c => Some (set_hbd [] c) | None => None end.
Definition reads (c : conn) (l : label) : Prop :=
  exists v, rest (step c l) <> rest (step (set_hbd v c) l).

(** two goroutines are about to access the data, one of them writing *)
Definition race (c : conn) : Prop :=
  exists l l', by_ l <> by_ l' /\ writes c l /\ (reads c l' \/ writes c l').
