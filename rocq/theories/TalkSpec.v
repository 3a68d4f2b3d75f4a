(** Specification: two established endpoints whose users exchange data. *)
From Verif Require Import GoBase MessagesModel ConfigModel ConnModel ConnSpec CfgSpec ConnPair.
From Coq Require Import Arith.
Open Scope nat_scope.

(** the environment is benign and the system calls of the user's goroutines succeed *)
Definition fair (l : label) : Prop := benign l /\ forall i, l <> LUser i false.
(** the calls: Read, ReadPD, State, and writes whose packet fits the receive buffer; Write needs two outbound streams *)
Definition sane (c : conn) (op : uop) : Prop :=
  match op with
  | OpRead _ | OpReadPD | OpState => True
  | OpWriteTo b _ => data_overhead (cfg c) + length b <= 1500
  | OpWrite b rnd => data_overhead (cfg c) + length b <= 1500 /\ (maxs c = 1%N \/ (rnd < maxs c)%N)
  | _ => False
  end.
(** the endpoints and the packets on their way to each of them, which arrive in any order *)
Record talk := mkTalk { t_cl : conn; t_sv : conn; t_up : list (list byte); t_dn : list (list byte) }.
Inductive tstep : talk -> talk -> Prop :=
| T_client a b u d l a' new : fair l -> step a l = Some a' -> packets (log a') = packets (log a) ++ new ->
    tstep (mkTalk a b u d) (mkTalk a' b (u ++ new) d)
| T_server a b u d l b' new : fair l -> step b l = Some b' -> packets (log b') = packets (log b) ++ new ->
    tstep (mkTalk a b u d) (mkTalk a b' u (d ++ new))
| T_to_server a b u1 raw u2 d b' : step b (LArrive raw) = Some b' -> tstep (mkTalk a b (u1 ++ raw :: u2) d) (mkTalk a b' (u1 ++ u2) d)
| T_to_client a b u d1 raw d2 a' : step a (LArrive raw) = Some a' -> tstep (mkTalk a b u (d1 ++ raw :: d2)) (mkTalk a' b u (d1 ++ d2)).
(** n steps and the calls made by the user of the client and of the server *)
Inductive talks : nat -> list uop -> list uop -> talk -> talk -> Prop :=
| TS_0 t : talks 0 [] [] t t
| TS_S n p q t t1 t2 : talks n p q t t1 -> tstep t1 t2 -> talks (S n) p q t t2
| TS_client n p q t a b u d op a' : talks n p q t (mkTalk a b u d) -> sane a op -> step a (LCall op) = Some a' -> talks n (p ++ [op]) q t (mkTalk a' b u d)
| TS_server n p q t a b u d op b' : talks n p q t (mkTalk a b u d) -> sane b op -> step b (LCall op) = Some b' -> talks n p (q ++ [op]) t (mkTalk a b' u d).
(** m steps without further calls *)
Inductive tsteps : nat -> talk -> talk -> Prop :=
| TT_0 t : tsteps 0 t t
| TT_S m t t1 t2 : tsteps m t t1 -> tstep t1 t2 -> tsteps (S m) t t2.

(** what the calls write *)
Definition written (ops : list uop) : list (list byte) :=
  flat_map (fun op => match op with OpWrite b _ | OpWriteTo b _ => [b] | _ => [] end) ops.
(** a call that has returned as it should, or a Read waiting for data *)
Definition answered (c : conn) (op : uop) (u : upc) : Prop :=
  match op with
  | OpWrite b _ | OpWriteTo b _ => exists n, u = UDone (RWrote n)
  | OpRead buf => (exists pd, u = UDone (read_result (Some buf) pd)) \/ (u = URecv (Some buf) /\ dq c = [])
  | OpReadPD => (exists pd, u = UDone (RPD pd)) \/ (u = URecv None /\ dq c = [])
  | OpState => u = UDone (RState Active)
  | _ => False
  end.
