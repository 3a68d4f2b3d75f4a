(** Specification: an endpoint as a machine that turns what it hears into what it says, and the procedures of a signalling gateway. *)
From Verif Require Import GoBase MessagesModel ConfigModel ConnModel ConnSpec ConnPair DialogSpec.
From Coq Require Import Arith.
Open Scope nat_scope.

(** what an endpoint in a says when it hears xs, one after the other, and where it ends *)
Fixpoint utter (mo : cmode) (a : abs) (xs : list sig) : list sig * abs :=
  match a, xs with
  | Rest s t, x :: xs => let (o, a') := hears mo s t x in let (o', a'') := utter mo a' xs in (o ++ o', a'')
  | _, _ => ([], a)
  end.
(** a new endpoint *)
Definition speech (mo : cmode) (xs : list sig) : list sig := hello mo Down ++ fst (utter mo (Rest Down false) xs).
Definition outcome (mo : cmode) (xs : list sig) : abs := snd (utter mo (Rest Down false) xs).

(** ** A signalling gateway process and one ASP: RFC 4666, 4.3.4.1 (ASP Up), 4.3.4.3 (ASP Active) *)
(** messages a gateway may send at any time: NTFY, ERR, and those the library does not support (SSNM, RKM) *)
Definition indication (x : sig) : Prop := match x with SNtfy | SErr | SOther => True | _ => False end.
(** [sgp s x ys s']: in state s (of the ASP, as the gateway sees it) x is answered by ys and leads to s' *)
Inductive sgp : st -> sig -> list sig -> st -> Prop :=
| G_up s i j : s = Down \/ s = Inactive -> Forall indication i -> Forall indication j -> sgp s SUp (i ++ SUpAck :: j) Inactive
| G_up_again i j : Forall indication i -> Forall indication j -> sgp Active SUp (i ++ SUpAck :: SErr :: j) Inactive
| G_active s i j : s = Inactive \/ s = Active -> Forall indication i -> Forall indication j -> sgp s SActive (i ++ SActiveAck :: j) Active
| G_active_early : sgp Down SActive [SErr] Down
| G_err s i : Forall indication i -> sgp s SErr i s.
(** the client, the gateway, how many of the client's packets it has got, and its packets on their way *)
Record meet := mkMeet { m_cl : conn; m_sg : st; m_got : nat; m_dn : list (list byte) }.
Definition indications (ys : list sig) : nat := length (filter (fun x => match x with SNtfy | SErr | SOther => true | _ => false end) ys).
(** [mstep k]: a step in which the gateway sends k indications *)
Inductive mstep : nat -> meet -> meet -> Prop :=
| M_client c s n d l c' : benign l -> step c l = Some c' -> mstep 0 (mkMeet c s n d) (mkMeet c' s n d)
| M_gateway c s n d raw x ys s' bs : nth_error (packets (log c)) n = Some raw -> denotes raw x -> sgp s x ys s' -> Forall2 denotes bs ys ->
    mstep (indications ys) (mkMeet c s n d) (mkMeet c s' (S n) (d ++ bs))
| M_arrive c s n raw d c' : step c (LArrive raw) = Some c' -> mstep 0 (mkMeet c s n (raw :: d)) (mkMeet c' s n d).
(** [msteps n k]: n steps, and k indications sent in them or spontaneously in between *)
Inductive msteps : nat -> nat -> meet -> meet -> Prop :=
| MS_0 m : msteps 0 0 m m
| MS_S n k j m1 m2 m3 : msteps n k m1 m2 -> mstep j m2 m3 -> msteps (S n) (k + j) m1 m3
| MS_ind n k m c s r d raw x : msteps n k m (mkMeet c s r d) -> indication x -> denotes raw x -> msteps n (S k) m (mkMeet c s r (d ++ [raw])).
Definition mstart (g : config) (o : N) : meet := mkMeet (start Client g o) Down 0 [].
