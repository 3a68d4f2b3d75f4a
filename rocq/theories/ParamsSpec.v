(** Predicates used to state the parameter properties. *)
From Verif Require Import GoBase ParamsModel WireSpec.
From Coq Require Import Arith.
Open Scope nat_scope.

(** a parameter as the API's constructors and decoder produce it: 16-bit tag and
    a Length field that agrees with its value *)
Definition wf_param (p : param) : Prop :=
  (p_tag p < 65536)%N /\ length (p_data p) <= max_value_len /\
  p_length p = N.of_nat (4 + length (p_data p)).

(** the (tag, value) pair of a parameter *)
Definition tv (p : param) : N * list byte := (p_tag p, p_data p).

(** an optional parameter of the given tag whose value fits the wire format *)
Definition slot_ok (tag : N) (o : option param) : Prop :=
  match o with
  | None => True
  | Some p => p_tag p = tag /\ length (p_data p) <= max_value_len
  end.

(** the parameters actually present *)
Definition present (l : list (option param)) : list param :=
  flat_map (fun o => match o with Some p => [p] | None => [] end) l.

(** the parameter's encoding, followed by any bytes, decodes to the parameter *)
Definition travels (p : param) : Prop :=
  exists bs, MarshalBinary p = Ok bs /\ forall rest, ParseParam (bs ++ rest) = Ok p.

(** present parameters carry the given tag *)
Definition tagged (tag : N) (o : option param) : Prop :=
  match o with None => True | Some p => p_tag p = tag end.

Definition rk_tagged (r : rkpayload) : Prop :=
  tagged 0x20a (rk_lrki r) /\ tagged 6 (rk_rc r) /\ tagged 11 (rk_tmt r) /\
  tagged 0x20b (rk_dpc r) /\ tagged 0x200 (rk_na r) /\ tagged 0x20c (rk_si r) /\
  tagged 0x20e (rk_opcl r).

(** the last of the parameters that carries the tag *)
Definition last_with (tag : N) (ps : list param) : option param :=
  find (fun q => (p_tag q =? tag)%N) (rev ps).

(** a Routing Key, Registration Result and Deregistration Result that a receiver
    takes from the value [d] of the parameter *)
Definition rk_read (d : list byte) (r : rkpayload) : Prop :=
  exists ps, Forall wf_param ps /\ TLVs d (map tv ps) /\ 3 <= length ps /\
    Forall (fun q => In (p_tag q) [0x20a; 6; 11; 0x20b; 0x200; 0x20c; 0x20e]%N) ps /\
    r = mkRK (last_with 0x20a ps) (last_with 6 ps) (last_with 11 ps) (last_with 0x20b ps)
             (last_with 0x200 ps) (last_with 0x20c ps) (last_with 0x20e ps).
Definition rr_read (d : list byte) (r : rrpayload) : Prop :=
  exists a b c, Forall wf_param [a; b; c] /\ TLVs d [tv a; tv b; tv c] /\
    r = mkRR (Some a) (Some b) (Some c).
Definition dr_read (d : list byte) (r : drpayload) : Prop :=
  exists a b, Forall wf_param [a; b] /\ TLVs d [tv a; tv b] /\
    r = mkDR (last_with 6 [a; b]) (last_with 0x213 [a; b]).
