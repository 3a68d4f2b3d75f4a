(** Predicates on configurations used in the property statements. *)
From Verif Require Import GoBase ParamsModel MessagesModel ConfigModel WireSpec ParamsSpec.
From Coq Require Import Arith.
Open Scope nat_scope.

(** the parameters of the configuration have their proper tags and fit the wire format,
    and the point codes are uint32 values *)
Definition cfg_ok (g : config) : Prop :=
  slot_ok 17 (cf_aspid g) /\ slot_ok 11 (cf_tmt g) /\ slot_ok 0x200 (cf_na g) /\ slot_ok 6 (cf_rc g) /\
  slot_ok 19 (cf_corr g) /\ (cf_opc g < 4294967296)%N /\ (cf_dpc g < 4294967296)%N.

(** octets an optional parameter takes in a message *)
Definition slot_size (o : option param) : nat :=
  match o with None => 0 | Some p => 4 + length (p_data p) + pad_len (length (p_data p)) end.

(** octets of a DATA message other than the user data and its padding: common header, optional
    parameters, and the header of Protocol Data *)
Definition data_overhead (g : config) : nat :=
  8 + slot_size (cf_na g) + slot_size (cf_rc g) + slot_size (cf_corr g) + 16.

(** the DATA message for user data b *)
Definition user_data (g : config) (b : list byte) : m3ua :=
  Typed (NewData (cf_na g) (cf_rc g)
    (Some (NewProtocolData (cf_opc g) (cf_dpc g) (cf_si g) (cf_ni g) (cf_mp g) (cf_sls g) b)) (cf_corr g)).
