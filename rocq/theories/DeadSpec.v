(** Specification: deadlines. *)
From Verif Require Import GoBase ConnModel DeadModel.
From Coq Require Import ZArith.

(** a deadline that has passed at t *)
Definition past (d : option Z) (t : Z) : Prop := exists u, d = Some u /\ (u <= t)%Z.
(** an action that leaves the write deadline alone *)
Definition keeps_write (a : dact) : Prop := match a with ASetWrite _ | ASet _ => False | _ => True end.
(** the read (write) deadline after some actions: the one set last *)
Definition sets (read : bool) (a : dact) : option (option Z) :=
  match a with ASet d => Some d | ASetRead d => if read then Some d else None | ASetWrite d => if read then None else Some d | ADo _ => None end.
Inductive last_set (read : bool) (first : option Z) : list (Z * dact) -> option Z -> Prop :=
| LS_none : last_set read first [] first
| LS_set ls t a d d0 : last_set read first ls d0 -> sets read a = Some d -> last_set read first (ls ++ [(t, a)]) d
| LS_keep ls t a d : last_set read first ls d -> sets read a = None -> last_set read first (ls ++ [(t, a)]) d.
