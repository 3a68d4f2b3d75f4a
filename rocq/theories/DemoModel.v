(** Model of the example programs on top of the connection model: examples/client/m3ua-client.go and examples/server/m3ua-server.go, each
    with one association. Not modelled: the parsing of the command line, the resolution of addresses, the texts around the
    octets and the errors that are printed, the Sleep between two Writes (it may take any time), and, in the server, that main goes
    on to accept further associations (their goroutines share nothing but the configuration, see ProcModel.v). *)
From Verif Require Import GoBase ParamsModel ConfigModel ConnModel.
From Coq Require Import Arith.
Open Scope nat_scope.

Definition second : Z := 1000000000.

(** the configuration of the client — examples/client/m3ua-client.go:38-51 *)
Definition client_config (hbInt : Z) : config :=
  SetRoutingContexts [1%N; 2%N] (SetNetworkAppearance 0 (SetTrafficModeType 2 (SetAspIdentifier 1
    (EnableHeartbeat hbInt (10 * second) (NewConfig 0x11111111 0x22222222 x03 x00 x00 x01))))).

(** the configuration of the server — examples/server/m3ua-server.go:53-73 *)
Definition server_config (hbInt hbTimer : Z) : config :=
  let c := NewServerConfig (Some (mkHbInfo true hbInt hbTimer [])) 0x22222222 0x11111111 1 2 0 0 [1%N; 2%N] x03 x00 x00 x01 in
  mkConfig (cf_hb c) None (cf_tmt c) (cf_na c) (cf_rc c) None (cf_opc c) (cf_dpc c) (cf_si c) (cf_ni c) (cf_mp c) (cf_sls c).

(** what is printed: the octets of a Read or a Write, an error of Read, and the errors that end the process *)
Inductive line :=
| PRead (b : list byte) | PSent (b : list byte) | PReadError | PFatalEstablish | PFatalWrite.

(** where a program is: waiting for Dial or Accept, about to call Read or Write, waiting for call i, waiting for Close, at its end *)
Inductive place := AEstablish | ACall | AReturn (i : nat) | AClosing (i : nat) | AEnd.

(** the program, its buffer and what it printed *)
Record prog := mkProg { g_at : place; g_buf : list byte; g_out : list line }.

(** serve — examples/server/m3ua-server.go:23-42 — after the Accept of main, 91-99. [buf[:n]] panics when n exceeds the capacity of
    buf, which is its length. The deferred Close follows the error of Read. *)
Definition serve_step (c : conn) (g : prog) : option (conn * prog) :=
  match crash c with
  | Some _ => None
  | None =>
  match g_at g with
  | AEstablish =>
      match dial c with
      | DOk => Some (c, mkProg ACall (g_buf g) (g_out g))
      | DFailed | DTimeout => Some (c, mkProg AEnd (g_buf g) (g_out g ++ [PFatalEstablish]))
      | DWait => None
      end
  | ACall =>
      match step c (LCall (OpRead (g_buf g))) with
      | Some c' => Some (c', mkProg (AReturn (length (us c))) (g_buf g) (g_out g))
      | None => None
      end
  | AReturn i =>
      match nth_error (us c) i with
      | Some (UDone (RRead n b)) =>
          if n <=? length b then Some (c, mkProg ACall b (g_out g ++ [PRead (firstn n b)]))
          else Some (panicking PSlice c, g)
      | Some (UDone RNotEstablished) =>
          match step c (LCall OpClose) with
          | Some c' => Some (c', mkProg (AClosing (length (us c))) (g_buf g) (g_out g ++ [PReadError]))
          | None => None
          end
      | _ => None
      end
  | AClosing i =>
      match nth_error (us c) i with
      | Some (UDone _) => Some (c, mkProg AEnd (g_buf g) (g_out g))
      | _ => None
      end
  | AEnd => None
  end
  end.
(** make([]byte, 1500) — examples/server/m3ua-server.go:26; other sizes for comparison *)
Definition serve_start (size : nat) : prog := mkProg AEstablish (repeat x00 size) [].

(** the loop of the client — examples/client/m3ua-client.go:85-100. [d] are the octets of the flag -data, [rnd] is what rand.Intn returns.
    log.Fatalf ends the process; the deferred Close is not executed. *)
Definition client_step (d : list byte) (rnd : N) (c : conn) (g : prog) : option (conn * prog) :=
  match crash c with
  | Some _ => None
  | None =>
  match g_at g with
  | AEstablish =>
      match dial c with
      | DOk => Some (c, mkProg ACall (g_buf g) (g_out g))
      | DFailed | DTimeout => Some (c, mkProg AEnd (g_buf g) (g_out g ++ [PFatalEstablish]))
      | DWait => None
      end
  | ACall =>
      match step c (LCall (OpWrite d rnd)) with
      | Some c' => Some (c', mkProg (AReturn (length (us c))) (g_buf g) (g_out g))
      | None => None
      end
  | AReturn i =>
      match nth_error (us c) i with
      | Some (UDone (RWrote _)) => Some (c, mkProg ACall (g_buf g) (g_out g ++ [PSent d]))
      | Some (UDone _) => Some (c, mkProg AEnd (g_buf g) (g_out g ++ [PFatalWrite]))
      | _ => None
      end
  | AClosing _ | AEnd => None
  end
  end.
Definition client_start : prog := mkProg AEstablish [] [].

(** a program and its connection: a step of the library, or a step of the program *)
Inductive alabel := ALib (l : label) | AProg.
Definition serve_run1 (s : conn * prog) (l : alabel) : option (conn * prog) :=
  match l with
  | ALib (LCall _) => None                 (* only the program makes calls *)
  | ALib l => match step (fst s) l with Some c => Some (c, snd s) | None => None end
  | AProg => serve_step (fst s) (snd s)
  end.
Fixpoint serve_run (s : conn * prog) (ls : list alabel) : option (conn * prog) :=
  match ls with
  | [] => Some s
  | l :: ls => match serve_run1 s l with Some s => serve_run s ls | None => None end
  end.
(** the same for the client; the label of a step of the program carries what rand.Intn returns *)
Inductive clabel := CLib (l : label) | CProg (rnd : N).
Definition client_run1 (d : list byte) (s : conn * prog) (l : clabel) : option (conn * prog) :=
  match l with
  | CLib (LCall _) => None                 (* only the program makes calls *)
  | CLib l => match step (fst s) l with Some c => Some (c, snd s) | None => None end
  | CProg rnd => client_step d rnd (fst s) (snd s)
  end.
Fixpoint client_run (d : list byte) (s : conn * prog) (ls : list clabel) : option (conn * prog) :=
  match ls with
  | [] => Some s
  | l :: ls => match client_run1 d s l with Some s => client_run d s ls | None => None end
  end.
