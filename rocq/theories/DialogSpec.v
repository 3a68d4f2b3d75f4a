(** Specification: the dialogue of two endpoints on the level of message kinds.

    An endpoint is either at rest in a state or hung; hearing a message it says some
    messages and comes to rest again or hangs.  Nothing here refers to goroutines,
    channels or octets. *)
From Verif Require Import GoBase MessagesModel ConfigModel ConnModel ConnSpec.
From Coq Require Import Arith.
Open Scope nat_scope.

(** the messages of such a dialogue; [SOther]: a message the library does not support *)
Inductive sig := SUp | SUpAck | SDown | SDownAck | SActive | SActiveAck | SInactive | SInactiveAck | SErr | SNtfy | SOther.
Definition sym (m : m3ua) : option sig :=
  match m with
  | Typed t =>
      match m_kind t with
      | KAspUp => Some SUp | KAspUpAck => Some SUpAck
      | KAspDown => Some SDown | KAspDownAck => Some SDownAck
      | KAspActive => Some SActive | KAspActiveAck => Some SActiveAck
      | KAspInactive => Some SInactive | KAspInactiveAck => Some SInactiveAck
      | KError => Some SErr | KNotify => Some SNtfy
      | KData | KHeartbeat | KHeartbeatAck => None
      | _ => Some SOther
      end
  | Gen _ => Some SOther
  end.

(** the state after a message *)
Definition goal (s : st) (x : sig) : st :=
  match x with
  | SUp | SUpAck | SInactive | SInactiveAck => Inactive
  | SDown | SDownAck => Down
  | SActive | SActiveAck => Active
  | _ => s
  end.
(** the answer to a message in state s *)
Definition react (s : st) (x : sig) : list sig :=
  match x, s with
  | SUp, Down => [SUpAck] | SUpAck, Down => []
  | SDown, (Inactive | Active) => [SDownAck]
  | SDownAck, (Inactive | Active) => [SErr] | SDownAck, _ => []
  | SActive, Inactive => [SActiveAck] | SActiveAck, Inactive => []
  | SInactive, Active => [SInactiveAck] | SInactiveAck, Active => []
  | (SErr | SNtfy), (Down | Inactive | Active) => []
  | _, _ => [SErr]
  end.
(** what an endpoint says when it is put into state s *)
Definition hello (mo : cmode) (s : st) : list sig :=
  match mo, s with Client, Down => [SUp] | Client, Inactive => [SActive] | _, _ => [] end.

(** [told]: Dial or Accept has returned *)
Inductive abs := Rest (s : st) (told : bool) | Hung.
Definition settle (s s' : st) (told : bool) : abs :=
  if st_eqb s' Active && negb (st_eqb s Active) then (if told then Hung else Rest Active true) else Rest s' told.
Definition hears (mo : cmode) (s : st) (told : bool) (x : sig) : list sig * abs :=
  (react s x ++ hello mo (goal s x), settle s (goal s x) told).

(** two endpoints of modes ma and mb, and what is on its way to each of them; in C79, C80 the first is a client and the second a server *)
Record duo := mkDuo { d_cl : abs; d_sv : abs; to_cl : list sig; to_sv : list sig }.
Inductive dstep (ma mb : cmode) : duo -> duo -> Prop :=
| D_1 s t b x qa qb : dstep ma mb (mkDuo (Rest s t) b (x :: qa) qb) (mkDuo (snd (hears ma s t x)) b qa (qb ++ fst (hears ma s t x)))
| D_2 a s t qa x qb : dstep ma mb (mkDuo a (Rest s t) qa (x :: qb)) (mkDuo a (snd (hears mb s t x)) (qa ++ fst (hears mb s t x)) qb).
Inductive dsteps (ma mb : cmode) : nat -> duo -> duo -> Prop :=
| DS_0 d : dsteps ma mb 0 d d
| DS_S n d e f : dsteps ma mb n d e -> dstep ma mb e f -> dsteps ma mb (S n) d f.
(** the same with a record of all that each of them has said *)
Inductive tstep (ma mb : cmode) : duo -> list sig -> list sig -> duo -> list sig -> list sig -> Prop :=
| T_1 s t b x qa qb ua ub : tstep ma mb (mkDuo (Rest s t) b (x :: qa) qb) ua ub
    (mkDuo (snd (hears ma s t x)) b qa (qb ++ fst (hears ma s t x))) (ua ++ fst (hears ma s t x)) ub
| T_2 a s t qa x qb ua ub : tstep ma mb (mkDuo a (Rest s t) qa (x :: qb)) ua ub
    (mkDuo a (snd (hears mb s t x)) (qa ++ fst (hears mb s t x)) qb) ua (ub ++ fst (hears mb s t x)).
Inductive tsteps (ma mb : cmode) : nat -> duo -> list sig -> list sig -> duo -> list sig -> list sig -> Prop :=
| TS_0 d ua ub : tsteps ma mb 0 d ua ub d ua ub
| TS_S n d ua ub e va vb f xa xb : tsteps ma mb n d ua ub e va vb -> tstep ma mb e va vb f xa xb -> tsteps ma mb (S n) d ua ub f xa xb.
Definition dstart (ma mb : cmode) : duo := mkDuo (Rest Down false) (Rest Down false) (hello mb Down) (hello ma Down).

(** a packet that says x to its receiver *)
Definition denotes (raw : list byte) (x : sig) : Prop := exists m, valid raw m /\ sym m = Some x /\ length raw <= 1500.
(** writing m sends a packet that says x *)
Definition says (m : m3ua) (x : sig) : Prop := exists b, wire m = Ok b /\ denotes b x.

(** ** What becomes of two connected endpoints after one of them has sent one more signal *)
Inductive fate :=
| Ends (cl sv : st)       (* the exchange ends, both wait for packets in these states *)
| BothHang                (* the exchange ends with both endpoints blocked for ever *)
| Endless.                (* the exchange never ends *)
Definition fate_of (by_cl : bool) (x : sig) : fate :=
  match x, by_cl with
  | (SActive | SActiveAck | SErr | SNtfy | SOther), _ => Ends Active Active
  | (SDown | SInactive), _ => BothHang
  | (SUp | SUpAck | SInactiveAck), true => Ends Active Inactive
  | SDownAck, true => Ends Active Down
  | (SUp | SUpAck | SInactiveAck | SDownAck), false => Endless
  end.

(** what each of two clients connected to each other says until the exchange ends: its own ASP Up and ASP Active, the acknowledgements of the
    other's, and complaints about the other's ASP Up Ack, its second ASP Active and its ASP Active Ack *)
Definition said_by_client_to_client : list sig := [SUp; SUpAck; SActive; SErr; SActive; SActiveAck; SErr; SErr].

(** ** The same for two clients, after their exchange has ended; by symmetry the side does not matter *)
Inductive fate2 :=
| Both (s : st)           (* the exchange ends, both wait for packets in state s *)
| AllHang                 (* ... both are blocked for ever *)
| PeerHangs (s : st)      (* ... the sender of the signal waits for packets in state s, the other one is blocked for ever *)
| Forever.                (* the exchange never ends *)
Definition fate2_of (x : sig) : fate2 :=
  match x with
  | SActive | SActiveAck | SErr | SNtfy | SOther => Both Active
  | SDown | SInactive => AllHang
  | SDownAck => PeerHangs Inactive
  | SUp | SUpAck | SInactiveAck => Forever
  end.
