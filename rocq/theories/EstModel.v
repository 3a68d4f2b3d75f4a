(** Model: Dial, Listen and Accept as a whole — client.go:19-66, server.go:24-91.  The SCTP package is the environment: whether its calls
    succeed is given; the waiting part is a run of ConnModel. *)
From Verif Require Import GoBase MessagesModel ConfigModel ConnModel.
From Coq Require Import Arith.
Open Scope nat_scope.

(** calls to the SCTP package, with their result *)
Inductive scall :=
| CDial (n : list byte) (ok : bool)      (* sctp.DialSCTP *)
| CListen (n : list byte) (ok : bool)    (* sctp.ListenSCTP *)
| CAccept (ok : bool)                    (* sctpListener.Accept *)
| CStatus (o : option N)                 (* GetStatus: the number of outbound streams *)
| CClose.                                (* sctpConn.Close *)
Inductive eerr := XNet | XSctp | XStatus | XFailed | XTimeout.
Inductive eout :=
| OPanic (p : panic)
| OError (e : eerr)
| OConn (c : conn)      (* returned, nil error *)
| OWaits (c : conn).    (* still in the select *)
(** the caller's configuration afterwards, the SCTP calls, the outcome *)
Record est := mkEst { e_cfg : option config; e_calls : list scall; e_out : eout }.

(** the select at the end, after the steps [ls] of the connection — client.go:55-65, server.go:80-90 *)
Definition waited (g : config) (calls : list scall) (c : conn) : est :=
  match crash c with
  | Some p => mkEst (Some g) calls (OPanic p)
  | None =>
      match dial c with
      | DWait => mkEst (Some g) calls (OWaits c)
      | DOk => mkEst (Some g) calls (OConn c)
      | DFailed => mkEst (Some g) (calls ++ [CClose]) (OError XFailed)
      | DTimeout => mkEst (Some g) (calls ++ [CClose]) (OError XTimeout)
      end
  end.

(** from GetStatus on — client.go:44-65, server.go:69-90 *)
Definition from_status (m : cmode) (g : config) (calls : list scall) (status : option N) (ls : list label) : option est :=
  match status with
  | None => Some (mkEst (Some g) (calls ++ [CStatus None]) (OError XStatus))
  | Some o => option_map (waited g (calls ++ [CStatus (Some o)])) (run (start m g o) ls)
  end.

(** Dial — client.go:19-66 *)
Definition Dial (net : list byte) (cfg : option config) (sctp : bool) (status : option N) (ls : list label) : option est :=
  match check_interval cfg with
  | Panic p => Some (mkEst cfg [] (OPanic p))
  | Err _ => None
  | Ok g =>
      match netMap net with
      | None => Some (mkEst (Some g) [] (OError XNet))
      | Some n =>
          if sctp then from_status Client g [CDial n true] status ls
          else Some (mkEst (Some g) [CDial n false] (OError XSctp))
      end
  end.

(** Listen — server.go:24-38: the configuration of the listener, or an error *)
Definition Listen (net : list byte) (cfg : option config) (sctp : bool) : list scall * (option config + eerr) :=
  match netMap net with
  | None => ([], inr XNet)
  | Some n => if sctp then ([CListen n true], inl cfg) else ([CListen n false], inr XSctp)
  end.

(** Accept — server.go:43-91; [cfg] is the Config of the listener.  The type assertion of server.go:63-67 cannot fail: the listener's
    connections are *sctp.SCTPConn. *)
Definition Accept (cfg : option config) (sctp : bool) (status : option N) (ls : list label) : option est :=
  match check_interval cfg with
  | Panic p => Some (mkEst cfg [] (OPanic p))
  | Err _ => None
  | Ok g =>
      if sctp then from_status Server g [CAccept true] status ls
      else Some (mkEst (Some g) [CAccept false] (OError XSctp))
  end.
