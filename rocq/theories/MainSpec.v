(** Specification: the example server as a whole. *)
From Verif Require Import GoBase ParamsModel ConfigModel ConnModel ConnSpec ProcModel DemoModel DemoSpec MainModel.
From Coq Require Import Arith.
Open Scope nat_scope.

Definition srv_reachable (g : config) (s : server) : Prop := exists xs, srv_run (server_start g) xs = Some s.
(** association i and its goroutine serve *)
Definition at_pair (s : server) (i : nat) (c : conn) (g : prog) : Prop := conn_at (s_proc s) i = Some c /\ nth_error (s_progs s) i = Some g.
(** how many associations there have been *)
Definition accepted (s : server) : nat := length (p_conns (s_proc s)).
(** no packet arrives on association i *)
Definition nothing_arrives (i : nat) (xs : list slabel) : Prop := forall p, ~ In (VLib i (LArrive p)) xs.
(** no packet has arrived on it so far *)
Definition nothing_yet (s : server) (i : nat) : Prop := exists c, conn_at (s_proc s) i = Some c /\ inq c = [] /\ reads (log c) = [].
(** the process has ended: nothing happens any more *)
Definition over (s : server) : Prop := forall x, srv_step s x = None.
(** steps of the library and the network: neither calls of the program nor the context *)
Definition lib_label (l : label) : Prop := own l = true /\ l <> LCancel /\ forall op, l <> LCall op.
(** a course of events on a new association, alone, with which its Accept fails, whatever heartbeat data other connections have stored *)
Definition failing (g : config) (o : N) (ls : list label) : Prop :=
  forall d, exists c, run (set_hbd d (start Server g o)) ls = Some c /\ crash c = None /\ (dial c = DFailed \/ dial c = DTimeout).
