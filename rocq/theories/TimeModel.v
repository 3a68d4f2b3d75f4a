(** Time: the connection of ConnModel with a clock.

    ConnModel lets a timer fire at any moment.  Here every step happens at a time (nanoseconds, never going back), and
    the timers of the code fire no earlier than they are set to: time.After(HeartbeatInfo.Timer) of asptm.go:54,
    time.After(HeartbeatInfo.Interval) of asptm.go:63 and time.After(10 * time.Second) of client.go:62 and server.go:87.
    A timer is created when the select waiting for it is entered or later, so that it fires no earlier than its duration
    after that; how late it fires is left open.  A timer of a negative duration fires at once, as in Go. *)
From Verif Require Import GoBase ConfigModel ConnModel.
From Coq Require Import ZArith.
Open Scope Z_scope.

(** 10 * time.Second — client.go:62, server.go:87 *)
Definition dial_limit : Z := 10000000000.

(** [since]: when the heartbeat goroutine entered the select it is in; [born]: when Dial/Accept started the goroutines;
    [tlog]: ghost, the events of [log] with their times *)
Record tconn := mkT { tc : conn; now : Z; since : Z; born : Z; tlog : list (Z * event) }.

Definition tstart (m : cmode) (g : config) (ostreams : N) (t : Z) : tconn := mkT (start m g ostreams) t t t [].

(** the duration of the timer the heartbeat goroutine waits for — asptm.go:54, 63 *)
Definition wait_of (c : conn) : Z :=
  match cf_hb (cfg c), hb c with
  | Some h, BAck => hb_timer h
  | Some h, BSleep => hb_interval h
  | _, _ => 0
  end.

(** the timer of the step [l] may have fired at time [t] *)
Definition due (x : tconn) (l : label) (t : Z) : bool :=
  match l with
  | LHbTimer => since x + wait_of (tc x) <=? t
  | LDialTimeout => born x + dial_limit <=? t
  | _ => true
  end.

(** the heartbeat goroutine enters a select — asptm.go:46, 60 *)
Definition enters (b b' : bpc) : bool :=
  match b, b' with
  | BAck, BAck => false
  | BSleep, BSleep => false
  | _, BAck => true
  | _, BSleep => true
  | _, _ => false
  end.

Definition tstep (x : tconn) (t : Z) (l : label) : option tconn :=
  if (now x <=? t) && due x l t then
    match step (tc x) l with
    | Some c => Some (mkT c t (if enters (hb (tc x)) (hb c) then t else since x) (born x)
                        (tlog x ++ map (pair t) (skipn (length (log (tc x))) (log c))))
    | None => None
    end
  else None.

Fixpoint trun (x : tconn) (ls : list (Z * label)) : option tconn :=
  match ls with
  | [] => Some x
  | (t, l) :: r => match tstep x t l with Some x => trun x r | None => None end
  end.

(** ** A server that calls Accept in a loop, as in examples/server/m3ua-server.go:91-99 (which gives up at the first
    error; here the loop goes on): the next call starts when the last one has returned.  Each element of the list is one call: the number of streams, the steps taken until it returns. *)
Fixpoint accept_loop (g : config) (t : Z) (calls : list (N * list (Z * label))) : option (list dialst * Z) :=
  match calls with
  | [] => Some ([], t)
  | (o, ls) :: r =>
      match trun (tstart Server g o t) ls with
      | Some x =>
          match dial (tc x) with
          | DWait => None
          | d => match accept_loop g (now x) r with Some (ds, t) => Some (d :: ds, t) | None => None end
          end
      | None => None
      end
  end.
