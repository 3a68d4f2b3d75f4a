(** Model of the fuzz entry points: messages/fuzz.go:14-20, messages/params/fuzz.go:14-24 (build tag gofuzz). *)
From Verif Require Import GoBase ParamsModel MessagesModel.

(** messages/fuzz.go:14-20 *)
Definition FuzzMessage (data : list byte) : res nat :=
  match Parse data with Ok _ => Ok 1 | Err _ => Ok 0 | Panic p => Panic p end.
(** messages/params/fuzz.go:14-24 *)
Definition FuzzParams (data : list byte) : res nat :=
  match ParseParam data with
  | Panic p => Panic p
  | Err _ => Ok 0
  | Ok _ => match ParseMultiParams data with Ok _ => Ok 1 | Err _ => Ok 0 | Panic p => Panic p end
  end.
