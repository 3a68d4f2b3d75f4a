(** Specification of what the example programs print. *)
From Verif Require Import GoBase ParamsModel ConfigModel ConnModel ConnSpec ConnPair TalkSpec LifeSpec DemoModel.
From Coq Require Import Arith.
Open Scope nat_scope.

(** the lines for the payloads handed over by Read *)
Definition lines (ps : list pdpayload) : list line := map (fun p => PRead (pd_data p)) ps.
Definition told (l : list event) : list line := lines (delivered l).

(** What serve has printed: one line for each payload handed over by Read, except for the last one when that Read has returned and its line is
    not yet printed; then the line of an error. *)
Definition printed_right (c : conn) (p : prog) : Prop :=
  match g_at p with
  | AEstablish => g_out p = [] /\ told (log c) = []
  | ACall => g_out p = told (log c)
  | AReturn i => exists rest, told (log c) = g_out p ++ rest /\
      match nth_error (us c) i with Some (UDone (RRead n b)) => length b = length (g_buf p) /\ rest = [PRead (firstn n b)] /\ n <= length b | _ => rest = [] end
  | AClosing _ => g_out p = told (log c) ++ [PReadError]
  | AEnd => g_out p = told (log c) ++ [PReadError] \/ (g_out p = [PFatalEstablish] /\ told (log c) = [])
  end.

(** ** The two programs connected to each other *)
Record demo := mkDemo { e_talk : talk; e_cl : prog; e_sv : prog }.
(** a value that rand.Intn may return for a connection with three or more outbound streams; with fewer it is not called or panics *)
Definition drawn (c : conn) (rnd : N) : Prop := (maxs c <= 1)%N \/ (rnd < maxs c)%N.
(** a step of the library, the network or a program; an Interval elapses; the client calls Write *)
Inductive kind := KStep | KTick | KWrite.
Definition client_kind (p : prog) : kind := match g_at p with ACall => KWrite | _ => KStep end.
Inductive dstep (d : list byte) : kind -> demo -> demo -> Prop :=
| D_lib t t' p q : lstep t t' -> dstep d KStep (mkDemo t p q) (mkDemo t' p q)
| D_tick t t' p q : tick t t' -> dstep d KTick (mkDemo t p q) (mkDemo t' p q)
| D_client a b u v p q rnd a' p' : drawn a rnd -> client_step d rnd a p = Some (a', p') ->
    dstep d (client_kind p) (mkDemo (mkTalk a b u v) p q) (mkDemo (mkTalk a' b u v) p' q)
| D_server a b u v p q b' q' : serve_step b q = Some (b', q') ->
    dstep d KStep (mkDemo (mkTalk a b u v) p q) (mkDemo (mkTalk a b' u v) p q').
(** n steps, i Intervals and w calls of Write *)
Inductive dsteps (d : list byte) : nat -> nat -> nat -> demo -> demo -> Prop :=
| DS_0 x : dsteps d 0 0 0 x x
| DS_step n i w x y z : dsteps d n i w x y -> dstep d KStep y z -> dsteps d (S n) i w x z
| DS_tick n i w x y z : dsteps d n i w x y -> dstep d KTick y z -> dsteps d n (S i) w x z
| DS_write n i w x y z : dsteps d n i w x y -> dstep d KWrite y z -> dsteps d n i (S w) x z.
Definition demo_start (gc gs : config) (oc os : N) : demo := mkDemo (lstart gc gs oc os) client_start (serve_start 1500).
(** the programs have not given up *)
Definition going (p : prog) : Prop := match g_at p with AEstablish | ACall | AReturn _ => True | _ => False end.
(** the number of outbound streams *)
Definition streams (o : N) : Prop := (2 <= o < 65536)%N.
(** what the two programs have come to when nothing happens but Intervals and further calls of Write *)
Definition caught_up (d : list byte) (w : nat) (x : demo) : Prop :=
  g_at (e_cl x) = ACall /\ g_out (e_cl x) = repeat (PSent d) w /\ g_out (e_sv x) = repeat (PRead d) w /\
  t_up (e_talk x) = [] /\ t_dn (e_talk x) = [] /\ dq (t_sv (e_talk x)) = [] /\ inq (t_sv (e_talk x)) = [] /\ inq (t_cl (e_talk x)) = [] /\
  state (t_cl (e_talk x)) = Active /\ state (t_sv (e_talk x)) = Active.
