(** Vocabulary for what the calls of Read and ReadPD hand to the user (C120, C121). *)
From Verif Require Import GoBase ParamsModel MessagesModel ConfigModel ConnModel ConnSpec ConnE2E.
Open Scope nat_scope.

(** [gives op u ps]: the call op, which has got as far as u, has given its user the payloads ps: one if it is a Read or ReadPD that has
    returned data, none otherwise *)
Inductive gives : uop -> upc -> list pdpayload -> Prop :=
| G_read buf pd r : read_as (Some buf) pd r -> gives (OpRead buf) (UDone r) [pd]
| G_read_pd pd : gives OpReadPD (UDone (RPD pd)) [pd]
| G_nothing op u : (forall n b, u <> UDone (RRead n b)) -> (forall pd, u <> UDone (RPD pd)) -> gives op u [].
(** all calls, in the order in which they were made *)
Inductive gains : list uop -> list upc -> list (list pdpayload) -> Prop :=
| G_nil : gains [] [] []
| G_cons op u ps ops us pss : gives op u ps -> gains ops us pss -> gains (op :: ops) (u :: us) (ps :: pss).
(** Read and ReadPD *)
Definition a_read (op : uop) : bool := match op with OpRead _ | OpReadPD => true | _ => false end.
(** along the execution ls from c, the user calls Read or ReadPD only when the earlier such calls have returned *)
Definition reads_in_turn (c : conn) (ls : list label) : Prop :=
  forall pre op post a, ls = pre ++ LCall op :: post -> run c pre = Some a -> a_read op = true ->
  forall i op' u, nth_error (calls pre) i = Some op' -> a_read op' = true -> nth_error (us a) i = Some u -> exists r, u = UDone r.
Definition n_reads (ops : list uop) : nat := length (filter a_read ops).
Definition over_with (u : upc) : Prop := exists r, u = UDone r.
