(** Model of examples/server/m3ua-server.go as a whole: the loop of main (91-99) and one goroutine serve (23-42) for each association.

    main calls Accept again only when the Accept before it has returned, so that at most one handshake is under way, and [log.Fatalf] (94)
    ends the process with all its goroutines when an Accept fails. The library's goroutines and serve are those of ConnModel.v, ProcModel.v and
    DemoModel.v. The context (87-89) is cancelled only when main returns, which it never does. Not modelled: what DemoModel.v leaves out,
    except that main goes on. *)
From Verif Require Import GoBase ParamsModel ConfigModel ConnModel ProcModel DemoModel.
From Coq Require Import Arith.
Open Scope nat_scope.

(** main waits for an association, or for the handshake on association i, or has ended the process *)
Inductive mplace := MListen | MHandshake (i : nat) | MFatal.
(** [s_progs]: the goroutine serve of each association and, before Accept has returned, the place it will start from *)
Record server := mkServer { s_proc : proc; s_main : mplace; s_progs : list prog }.
Definition server_start (g : config) : server := mkServer (pinit g) MListen [].

Inductive slabel :=
| VAssoc (ostreams : N)   (* the Accept and the GetStatus of the SCTP package succeed — server.go:57-73 *)
| VAcceptError            (* one of them fails — server.go:58-60, 69-72 *)
| VMain                   (* Accept returns — server.go:80-90 — and main goes on — m3ua-server.go:92-98 *)
| VServe (i : nat)        (* serve for association i *)
| VLib (i : nat) (l : label). (* the library and the network on association i *)

(** connection i is now c — as in proc_step *)
Definition put (p : proc) (i : nat) (c : conn) : proc := mkProc (p_cfg p) (hbd c) (if hba c then Some i else p_owner p) (upd (p_conns p) i c).

Definition srv_step (s : server) (x : slabel) : option server :=
  if alive (s_proc s) then
    match s_main s with
    | MFatal => None
    | m =>
      match x with
      | VAssoc o =>
          match m with
          | MListen =>
              match proc_step (s_proc s) (POpen Server o) with
              | Some p => Some (mkServer p (MHandshake (length (p_conns (s_proc s)))) (s_progs s ++ [serve_start 1500]))
              | None => None
              end
          | _ => None
          end
      | VAcceptError => match m with MListen => Some (mkServer (s_proc s) MFatal (s_progs s)) | _ => None end
      | VMain =>
          match m with
          | MHandshake i =>
              match conn_at (s_proc s) i, nth_error (s_progs s) i with
              | Some c, Some g =>
                  match dial c with
                  | DWait => None
                  | DOk => Some (mkServer (s_proc s) MListen (upd (s_progs s) i (mkProg ACall (g_buf g) (g_out g))))
                  | DFailed | DTimeout => Some (mkServer (s_proc s) MFatal (upd (s_progs s) i (mkProg AEnd (g_buf g) (g_out g ++ [PFatalEstablish]))))
                  end
              | _, _ => None
              end
          | _ => None
          end
      | VServe i =>
          match conn_at (s_proc s) i, nth_error (s_progs s) i with
          | Some c, Some g =>
              match g_at g with
              | AEstablish => None
              | _ => match serve_step c g with
                     | Some (c', g') => Some (mkServer (put (s_proc s) i c') m (upd (s_progs s) i g'))
                     | None => None
                     end
              end
          | _, _ => None
          end
      | VLib _ (LCall _) | VLib _ LCancel => None
      | VLib i l => match proc_step (s_proc s) (PDo i l) with Some p => Some (mkServer p m (s_progs s)) | None => None end
      end
    end
  else None.
Fixpoint srv_run (s : server) (xs : list slabel) : option server :=
  match xs with [] => Some s | x :: xs => match srv_step s x with Some s' => srv_run s' xs | None => None end end.
