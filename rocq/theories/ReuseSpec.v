(** Vocabulary for the properties of re-used and edited message values. *)
From Verif Require Import GoBase ParamsModel MessagesModel ReuseModel WireSpec ParamsSpec MsgSpec.
Open Scope nat_scope.

(** the parameters held by a value of type [t], in RFC order *)
Definition slots_are (t : mtype) (fs : fields) (slots : list (option param)) : Prop :=
  Forall2 (fun tag o => forall f, field_tag f = tag -> fget f fs = o) (rfc_params t) slots.

(** the octets of a parameter with the Length it happens to hold *)
Definition as_stored (p : param) : list byte :=
  be 2 (p_tag p) ++ be 2 (p_length p) ++ p_data p ++ repeat x00 (pad_len (length (p_data p))).

(** views lying one behind the other, each after a 4-octet head and with padding
    in between, from offset [lo] up to at most [hi] *)
Fixpoint chain (lo : nat) (ws : list view) (hi : nat) : Prop :=
  match ws with
  | [] => True
  | w :: r => w_off w = lo + 4 /\ w_off w + w_len w <= hi /\
              chain (w_off w + w_len w + pad_len (w_len w)) r hi
  end.
