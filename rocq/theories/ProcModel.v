(** Model: the connections of one process that share a configuration.

    A Listener holds one *Config (server.go:18-21) and hands that pointer to every connection it accepts (server.go:50); connections made
    by Dial with the same *Config share it in the same way (client.go:27). The only field of it that is written after Dial or Accept is
    HeartbeatInfo.Data (asptm.go:43): it is set to the slice [data] local to the heartbeat goroutine of one connection, and rand.Read
    (asptm.go:34) of the same goroutine writes into that slice later. Simplification: as in ConnModel each access is atomic.
    [p_cfg] is the configuration after the check of the interval (client.go:30-32, server.go:53-55), which always writes the same value;
    the model has it done once, before the first connection. An unrecovered panic in any goroutine ends the process. *)
From Verif Require Import GoBase MessagesModel ConfigModel ConnModel.
From Coq Require Import Arith.
Open Scope nat_scope.

(** [p_data]: the contents of HeartbeatInfo.Data; [p_owner]: the connection whose heartbeat goroutine writes into that slice *)
Record proc := mkProc { p_cfg : config; p_data : list byte; p_owner : option nat; p_conns : list conn }.
Definition pinit (g : config) : proc := mkProc g (match cf_hb g with Some h => hb_data h | None => [] end) None [].
(** the connection as it is, i.e. with the shared data *)
Definition owns (p : proc) (i : nat) : bool := match p_owner p with Some j => i =? j | None => false end.
Definition view (p : proc) (i : nat) (c : conn) : conn := set_hba (owns p i) (set_hbd (p_data p) c).
Definition conn_at (p : proc) (i : nat) : option conn := option_map (view p i) (nth_error (p_conns p) i).
Inductive plabel :=
| POpen (m : cmode) (ostreams : N)   (* Dial or Accept has got an association: client.go:21-54, server.go:44-79 *)
| PDo (i : nat) (l : label).         (* a step of the i-th connection *)
Definition alive (p : proc) : bool := forallb (fun c => match crash c with None => true | Some _ => false end) (p_conns p).
Definition own (l : label) : bool := match l with LOtherBeat _ => false | _ => true end.
Definition proc_step (p : proc) (x : plabel) : option proc :=
  if alive p then
    match x with
    | POpen m o => Some (mkProc (p_cfg p) (p_data p) (p_owner p) (p_conns p ++ [start m (p_cfg p) o]))
    | PDo i l =>
        if own l then
          match conn_at p i with
          | Some c =>
              match step c l with
              | Some c' => Some (mkProc (p_cfg p) (hbd c') (if hba c' then Some i else p_owner p) (upd (p_conns p) i c'))
              | None => None
              end
          | None => None
          end
        else None
    end
  else None.
Fixpoint proc_run (p : proc) (xs : list plabel) : option proc :=
  match xs with [] => Some p | x :: xs => match proc_step p x with Some p' => proc_run p' xs | None => None end end.
