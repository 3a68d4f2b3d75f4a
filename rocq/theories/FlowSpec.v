(** Vocabulary for the order of user data between two endpoints (C116). *)
From Verif Require Import GoBase ParamsModel MessagesModel ConfigModel ConnModel ConnSpec ConnE2E.
Open Scope nat_scope.

(** Write and WriteToStream *)
Definition a_write (op : uop) : bool := match op with OpWrite _ _ | OpWriteTo _ _ => true | _ => false end.
(** [in_turn c ls]: along the execution ls from c, the user calls Write or WriteToStream only when the earlier such calls have returned
    (as one goroutine does); the other calls may be under way at any time *)
Definition in_turn (c : conn) (ls : list label) : Prop :=
  forall pre op post a, ls = pre ++ LCall op :: post -> run c pre = Some a -> a_write op = true ->
  forall i op' u, nth_error (calls pre) i = Some op' -> a_write op' = true -> nth_error (us a) i = Some u -> exists r, u = UDone r.
