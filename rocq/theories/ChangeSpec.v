(** Specification: which part of a packet an octet belongs to. *)
From Verif Require Import GoBase WireSpec ParamsModel ParamsSpec MessagesModel MsgSpec NormSpec.
From Coq Require Import Arith.
Open Scope nat_scope.

(** the octet at position k replaced by x *)
Fixpoint changed (k : nat) (x : byte) (b : list byte) : list byte :=
  match b, k with
  | [], _ => []
  | _ :: b, 0 => x :: b
  | y :: b, S k => y :: changed k x b
  end.

(** octet j of the tag, of the length, of the value of parameter i, an octet of padding, or none *)
Inductive spot := STag (i j : nat) | SLen (i j : nat) | SVal (i j : nat) | SPad | SNone.
(** position k of parameters with these tags and values, of which the first has number i *)
Fixpoint spot_at (i : nat) (l : list (N * list byte)) (k : nat) : spot :=
  match l with
  | [] => SNone
  | (_, v) :: l =>
      let n := length v in
      if k <? 2 then STag i k
      else if k <? 4 then SLen i (k - 2)
      else if k <? 4 + n then SVal i (k - 4)
      else if k <? 4 + n + pad_len n then SPad
      else spot_at (S i) l (k - (4 + n + pad_len n))
  end.

(** no later parameter has the same tag *)
Definition is_last (i : nat) (l : list (N * list byte)) (t : N) : bool := negb (existsb (fun y => (fst y =? t)%N) (skipn (S i) l)).
(** m' is m (but for the copy of the body in the header) with octet j of the value v of parameter i (of l) replaced *)
Definition alters (i j : nat) (x : byte) (l : list (N * list byte)) (m m' : m3ua) : Prop :=
  exists t v, nth_error l i = Some (t, v) /\ j < length v /\
  let p := mkParam t (N.of_nat (4 + length v)) (changed j x v) in
  match m, m' with
  | Typed a, Typed a' => m_kind a' = m_kind a /\ same_head (m_hdr a) (m_hdr a') /\
      forall f, fget f (m_f a') = if (field_tag f =? t)%N && is_last i l t then Some p else fget f (m_f a)
  | Gen g, Gen g' => same_head (g_hdr g) (g_hdr g') /\ g_params g' = firstn i (g_params g) ++ p :: skipn (S i) (g_params g)
  | _, _ => False
  end.
(** m' is m but for the header *)
Definition same_inside (m m' : m3ua) : Prop :=
  match m, m' with
  | Typed a, Typed a' => m_kind a' = m_kind a /\ m_f a' = m_f a
  | Gen g, Gen g' => g_params g' = g_params g
  | _, _ => False
  end.
