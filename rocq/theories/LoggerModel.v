(** Model of logger.go: a mutex that is either free or held, and each function as
    the sequence of lock/unlock/assignment steps it performs.  A goroutine is a list of
    remaining instructions; several run concurrently. *)
From Verif Require Import GoBase.
Open Scope nat_scope.

(** a *log.Logger: nil, or some logger (identified by a number); 0 is the
    package's default logger *)
Definition loggerv := nat.
Inductive linstr :=
| Lock                       (* logMu.Lock() *)
| Unlock                     (* (deferred) logMu.Unlock() *)
| Assign (l : loggerv)       (* logger = l *)
| Discard                    (* logger.SetOutput(io.Discard) *)
| Printf.                    (* logger.Printf(...) *)

(** setLogger — logger.go:53-62; nil is replaced by a new stderr logger (here: [fresh]) *)
Definition setLogger (l : option loggerv) (fresh : loggerv) : list linstr :=
  let l := match l with None => fresh | Some l => l end in
  [Lock; Assign l; Unlock].
(** SetLogger — logger.go:24-30 (the warning printed for nil goes to the log package) *)
Definition SetLogger (l : option loggerv) (fresh : loggerv) : list linstr := setLogger l fresh.
(** EnableLogging — logger.go:37-42 *)
Definition EnableLogging (l : option loggerv) (fresh : loggerv) : list linstr :=
  [Lock] ++ setLogger l fresh ++ [Unlock].
(** DisableLogging — logger.go:46-51 *)
Definition DisableLogging : list linstr := [Lock; Discard; Unlock].
(** logf — logger.go:63-68 *)
Definition logf : list linstr := [Lock; Printf; Unlock].

Record lstate := mkL {
  held : bool;                  (* logMu *)
  cur : loggerv;                (* logger *)
  discarded : list loggerv;     (* loggers whose output was set to io.Discard *)
  printed_to : list loggerv;    (* ghost: the logger used by each Printf, last first *)
  procs : list (list linstr) }.

Definition upd {A} (l : list A) (i : nat) (x : A) : list A :=
  firstn i l ++ x :: skipn (S i) l.

(** one step of goroutine i; None = it is finished or blocked *)
Definition lstep (s : lstate) (i : nat) : option lstate :=
  match nth_error (procs s) i with
  | None | Some [] => None
  | Some (x :: r) =>
      let ps := upd (procs s) i r in
      match x with
      | Lock => if held s then None else Some (mkL true (cur s) (discarded s) (printed_to s) ps)
      | Unlock => Some (mkL false (cur s) (discarded s) (printed_to s) ps)
      | Assign l => Some (mkL (held s) l (discarded s) (printed_to s) ps)
      | Discard => Some (mkL (held s) (cur s) (cur s :: discarded s) (printed_to s) ps)
      | Printf => Some (mkL (held s) (cur s) (discarded s) (cur s :: printed_to s) ps)
      end
  end.

(** a run: which goroutine moves, or a new call *)
Inductive lact := Step (i : nat) | Call (p : list linstr).
Definition lact_step (s : lstate) (a : lact) : option lstate :=
  match a with
  | Step i => lstep s i
  | Call p => Some (mkL (held s) (cur s) (discarded s) (printed_to s) (procs s ++ [p]))
  end.
Fixpoint lrun (s : lstate) (l : list lact) : option lstate :=
  match l with
  | [] => Some s
  | a :: r => match lact_step s a with Some s => lrun s r | None => None end
  end.

(** the package's functions *)
Definition is_call (p : list linstr) : Prop :=
  (exists l f, p = SetLogger l f) \/ (exists l f, p = EnableLogging l f) \/ p = DisableLogging \/ p = logf.
Definition lstart : lstate := mkL false 0 [] [] [].
