(** Specification for C118: calls that return, and calls that do not. *)
From Verif Require Import GoBase MessagesModel ConfigModel ConnModel WorkSpec.
From Coq Require Import Arith.
Open Scope nat_scope.

(** the random number of Write and WritePD is one that rand.Intn returns *)
Definition drawn (c : conn) (u : upc) : Prop :=
  match u with UGo (OpWrite _ r) | UGo (OpWritePD _ r) => (1 < maxs c -> r < maxs c)%N | _ => True end.

(** the call has returned, or it is a Read or ReadPD with nothing to read and no end of the connection *)
Definition returned (c : conn) (i : nat) : Prop := exists r, nth_error (us c) i = Some (UDone r).
Definition awaits (c : conn) (i : nat) : Prop := (exists b, nth_error (us c) i = Some (URecv b)) /\ dq c = [] /\ closed c = false.
(** the second activation: the monitor reports to nobody, holding the lock *)
Definition jammed (c : conn) : Prop := mon c = MEst /\ dial c = DOk /\ closed c = false.

(** the monitor and the call take steps, whatever the system calls in them return; after at most n of them the call is over *)
Fixpoint over_within (i n : nat) (c : conn) : Prop :=
  (returned c i \/ awaits c i \/ crash c <> None) \/
  match n with
  | 0 => False
  | S n => exists l, (l = LUser i \/ l = LMon) /\ forall ok, exists c', step c (l ok) = Some c' /\ over_within i n c'
  end.
Definition needed (op : uop) : nat := match op with OpWriteSignal _ => 1 | OpWrite _ _ | OpWritePD _ _ => 3 | _ => 2 end.

(** nothing is left to do: the library's goroutines and the calls cannot make a step, unless a system call fails *)
Definition healthy (l : label) : bool := match l with LMon ok | LHand _ ok | LHb ok | LUser _ ok => ok | _ => true end.
Definition at_rest (c : conn) : Prop := forall l, inner l = true -> healthy l = true -> step c l = None.
