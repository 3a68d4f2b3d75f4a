(** Deadlines: SetDeadline, SetReadDeadline and SetWriteDeadline — conn.go:223-236.

    They are handed on to the association.  Assumption about the SCTP package, when it accepts a deadline (returns nil): from the time set on,
    SCTPRead (SCTPWrite) fails until another deadline is set; the zero time sets none.  Every step of ConnModel happens at a time that never goes back. *)
From Verif Require Import GoBase ConfigModel ConnModel.
From Coq Require Import ZArith.
Open Scope Z_scope.

Record dconn := mkD { dc : conn; d_now : Z; d_read : option Z; d_write : option Z }.
Definition dstart (m : cmode) (g : config) (ostreams : N) (t : Z) : dconn := mkD (start m g ostreams) t None None.

Inductive dact :=
| ASetRead (d : option Z)     (* conn.go:228-231 *)
| ASetWrite (d : option Z)    (* conn.go:233-236 *)
| ASet (d : option Z)         (* conn.go:223-226 *)
| ADo (l : label).            (* a step of ConnModel *)

(** the deadline has passed at t *)
Definition passed (d : option Z) (t : Z) : bool := match d with Some x => x <=? t | None => false end.
(** the system call of the step l succeeds *)
Definition ok_of (l : label) : bool := match l with LMon ok | LHand _ ok | LHb ok | LUser _ ok => ok | _ => true end.
(** it is SCTPRead — fsm.go:229 *)
Definition reading (c : conn) (l : label) : bool := match l, mon c with LMon _, MRead => true | _, _ => false end.
(** it is SCTPWrite — conn.go:131, 165, 188; where handleErrors sends nothing, [ok] makes no difference *)
Definition writing (c : conn) (l : label) : bool :=
  match l with
  | LMon _ => match mon c with MErr _ _ | MInit _ => true | _ => false end
  | LHand i _ => match nth_error (hs c) i with Some (IWrite _ :: _) => true | _ => false end
  | LHb _ => match hb c with BWrite _ => true | _ => false end
  | LUser i _ => match nth_error (us c) i with Some (USend _ _) | Some (UGo (OpWriteSignal _)) => true | _ => false end
  | _ => false
  end.
Definition too_late (x : dconn) (t : Z) (l : label) : bool :=
  (reading (dc x) l && passed (d_read x) t) || (writing (dc x) l && passed (d_write x) t).

Definition dstep (x : dconn) (t : Z) (a : dact) : option dconn :=
  if d_now x <=? t then
    match a with
    | ASetRead d => Some (mkD (dc x) t d (d_write x))
    | ASetWrite d => Some (mkD (dc x) t (d_read x) d)
    | ASet d => Some (mkD (dc x) t d d)
    | ADo l => if ok_of l && too_late x t l then None
               else match step (dc x) l with Some c => Some (mkD c t (d_read x) (d_write x)) | None => None end
    end
  else None.
Fixpoint drun (x : dconn) (ls : list (Z * dact)) : option dconn :=
  match ls with
  | [] => Some x
  | (t, a) :: r => match dstep x t a with Some x => drun x r | None => None end
  end.
