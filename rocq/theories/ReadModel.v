(** Reading the parameters of a received message: the accessors of params.Param
    called on a struct field that may be nil. *)
From Verif Require Import GoBase ParamsModel MessagesModel.

(** An accessor called on the field [o].  All accessors of a parameter start by
    reading p.Tag (e.g. asp-identifier.go:15, routing-context.go:16,
    protocol-data.go:73, status.go:39): with a nil receiver that read is a nil
    pointer dereference.  Of the methods of Param only String asks for nil first
    (params.go:254). *)
Definition on {A} (f : param -> res A) (o : option param) : res A :=
  match o with
  | None => Panic PNil
  | Some p => f p
  end.
(** an accessor that cannot fail *)
Definition plain {A} (f : param -> A) (p : param) : res A := Ok (f p).
