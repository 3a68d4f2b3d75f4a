(** Notions used to state C124. *)
From Verif Require Import GoBase WireSpec MemModel AliasModel.
From Coq Require Import Arith.
Open Scope nat_scope.

(** tag and value of the parameter that a constructor makes from the octets [b] *)
Definition tag_value (k : maker) (b : list byte) : N * list byte :=
  match k with
  | FromParam tag => (Z.to_N (tag mod 65536), b)
  | FromHeartbeat => (9%N, b)
  | FromDiagnostic => (7%N, b)
  | FromProtocol opc dpc si ni mp sls => (0x210%N, be 4 opc ++ be 4 dpc ++ [si; ni; mp; sls] ++ b)
  | FromIndicators => (0x20c%N, b ++ repeat x00 (4 - length b mod 4))
  end.
Definition octets_of (k : maker) (b : list byte) : list byte := tlv (fst (tag_value k b)) (snd (tag_value k b)).

(** the constructors that keep the slice *)
Definition keeps (k : maker) : bool :=
  match k with FromParam _ | FromHeartbeat | FromDiagnostic => true | FromProtocol _ _ _ _ _ _ | FromIndicators => false end.

(** the program writes through slice [i] or lets something else refer to its memory *)
Definition uses_slice (a : act) (i : nat) : Prop :=
  match a with ASub x _ _ | AStore x _ _ => x = i | ANew k x => x = i /\ keeps k = true | _ => False end.
(** the program takes a slice of the value of parameter [j] *)
Definition opens (a : act) (j : nat) : Prop := match a with AData x | APayload x => x = j | _ => False end.

(** what the program sees: the octets of its slice [i] *)
Definition sees (y : prog) (i : nat) (b : list byte) : Prop := exists s, nth_error (g_slices y) i = Some s /\ load (g_heap y) s = b.
(** MarshalBinary of parameter [j] returns [b] (as the newest slice) *)
Definition encodes_to (y : prog) (j : nat) (b : list byte) : Prop :=
  exists y', act_step y (AEncode j) = Some y' /\ sees y' (length (g_slices y)) b.
