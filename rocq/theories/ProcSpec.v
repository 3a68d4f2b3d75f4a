(** Specification: what happens to one of the connections of a process. *)
From Verif Require Import GoBase MessagesModel ConfigModel ConnModel ProcModel.
From Coq Require Import Arith.
Open Scope nat_scope.

(** the connections opened, and the steps of the i-th of them *)
Definition opens (xs : list plabel) : list (cmode * N) := flat_map (fun x => match x with POpen m o => [(m, o)] | PDo _ _ => [] end) xs.
Definition labels_of (i : nat) (xs : list plabel) : list label := flat_map (fun x => match x with PDo j l => if i =? j then [l] else [] | POpen _ _ => [] end) xs.
(** no connection makes a step before it is opened *)
Definition in_order (xs : list plabel) : Prop := forall xs1 i l xs2, xs = xs1 ++ PDo i l :: xs2 -> own l = true /\ i < length (opens xs1).
