(** Model: the comparison of a BEAT ACK with the stored heartbeat data, without assuming that it is atomic.

    handleHeartbeatAck (asptm.go:130-147) first asks for the state (131), then reads cfg.HeartbeatInfo.Data and compares it octet by octet
    with the octets received (135-144).  ConnModel.v does all of this in one step.  In between and during the comparison other goroutines
    may run: Close may change the state, rand.Read (asptm.go:34) and the assignment (asptm.go:43) of this connection's and of other
    connections' heartbeat goroutines may change the data, and the comparison may see a mixture of old and new octets.  Here the check and
    the comparison are two steps, and the outcome of the comparison is arbitrary. *)
From Verif Require Import GoBase ParamsModel MessagesModel ConfigModel ConnModel.
From Coq Require Import Arith.
Open Scope nat_scope.

(** a connection, and the packet goroutines that are between the check and the end of the comparison *)
Record loose := mkLoose { l_conn : conn; l_cmp : list nat }.
Definition comparing (s : loose) (i : nat) : bool := existsb (Nat.eqb i) (l_cmp s).

(** the packet goroutine i is about to execute handleHeartbeatAck *)
Definition at_ack (c : conn) (i : nat) : option (msg * list instr) :=
  match nth_error (hs c) i with
  | Some (IHandle m :: k) => match m_kind m with KHeartbeatAck => Some (m, k) | _ => None end
  | _ => None
  end.

Inductive xlabel :=
| XStep (l : label)                  (* any other step *)
| XCheck (i : nat)                   (* asptm.go:131-133 *)
| XCompare (i : nat) (equal : bool). (* asptm.go:135-146 *)

Definition hand_of (l : label) : option nat := match l with LHand i _ => Some i | _ => None end.
Definition loose_step (s : loose) (x : xlabel) : option loose :=
  let c := l_conn s in
  match x with
  | XStep l =>
      match hand_of l with
      | Some i => match at_ack c i with Some _ => None | None => option_map (fun c' => mkLoose c' (l_cmp s)) (step c l) end
      | None => option_map (fun c' => mkLoose c' (l_cmp s)) (step c l)
      end
  | XCheck i =>
      match crash c, at_ack c i with
      | None, Some (m, k) =>
          if comparing s i then None
          else if unlocked c then
            if st_eqb (state c) Active then Some (mkLoose c (i :: l_cmp s))
            else Some (mkLoose (set_hs (upd (hs c) i (IErr (EUnexpected (Typed m)) :: k)) c) (l_cmp s))
          else None
      | _, _ => None
      end
  | XCompare i equal =>
      match crash c, at_ack c i with
      | None, Some (m, k) =>
          if comparing s i then
            match fget FHeartbeatData (m_f m) with
            | None => Some (mkLoose (panicking PNil c) (l_cmp s))
            | Some _ => Some (mkLoose (set_hs (upd (hs c) i (if equal then k else IErr (EUnexpected (Typed m)) :: k)) c)
                                (filter (fun j => negb (Nat.eqb i j)) (l_cmp s)))
            end
          else None
      | _, _ => None
      end
  end.
Fixpoint loose_run (s : loose) (xs : list xlabel) : option loose :=
  match xs with [] => Some s | x :: r => match loose_step s x with Some s => loose_run s r | None => None end end.
Definition loose_start (m : cmode) (g : config) (o : N) : loose := mkLoose (start m g o) [].
