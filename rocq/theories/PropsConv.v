(** C103: the program pc-conv. *)
From Verif Require Import GoBase PcModel PcSpec PcProofs ConvModel ConvProofs.
From Coq Require Import Arith Lia Strings.String.
Open Scope nat_scope.

(** -raw n, n > 0: one line with n modulo the width of the variant and its canonical text ... *)
Theorem C103_number : forall v raw, (0 < raw)%Z ->
  exists t, printed v (Z.to_N raw mod 2 ^ bits v) t /\ pc_conv raw [] (vname v) = ([Conv (Z.to_N raw mod 2 ^ bits v) t (vname v)], CReturned).
Proof. exact conv_number. Qed.
(** ... and -str with that text prints the same line. *)
Theorem C103_back : forall v raw t, (0 < raw)%Z -> printed v (Z.to_N raw mod 2 ^ bits v) t ->
  pc_conv (-1) t (vname v) = pc_conv raw [] (vname v).
Proof. exact conv_back. Qed.
(** -str: one line with the number that the components make up and the text as given *)
Theorem C103_text : forall v f ds cs raw, (raw <= 0)%Z -> text ds f -> Forall2 decimal ds cs -> in_range (widths v) cs ->
  pc_conv raw f (vname v) = ([Conv (compose (widths v) cs) f (vname v)], CReturned).
Proof. exact conv_text. Qed.
(** How it ends, for all flags: with an error for no flags and for a text without a dash, with a panic for -raw with an empty variant and for a text that
    is not one of its variant (C25_nil says which those are). *)
Theorem C103_ends : forall raw f v,
  (snd (pc_conv raw f v) = CFatalFlags <-> (raw < 0)%Z /\ f = []) /\
  (snd (pc_conv raw f v) = CFatalText <-> f <> [] /\ ~ In x2d f /\ ((0 < raw)%Z -> v <> [])) /\
  (snd (pc_conv raw f v) = CNil <-> ((0 < raw)%Z /\ v = []) \/ (In x2d f /\ NewPointCodeFrom f v = None)).
Proof. exact conv_ends. Qed.
(** A variant other than the nine turns every number into 0 ("successfully converted"). *)
Theorem C103_unknown_refuted : forall v raw, v <> [] -> (forall w, v <> vname w) -> (0 < raw)%Z ->
  exists k, pc_conv raw [] v = ([Conv 0 (join_dash (repeat [x30] k)) v], CReturned).
Proof. exact conv_unknown. Qed.
(** The point code 0 has a text in every variant, but -raw 0 prints nothing and reports no error. *)
Theorem C103_zero_refuted : forall v, (exists t, printed v 0 t) /\ pc_conv 0 [] (vname v) = ([], CReturned).
Proof.
  intros v. split; [|reflexivity]. destruct (pc_number_text_number v 0) as (p & q & _ & _ & _ & P & _). rewrite N.mod_0_l in P by (apply N.pow_nonzero; discriminate). eauto.
Qed.
Print Assumptions C103_number.
Print Assumptions C103_back.
Print Assumptions C103_text.
Print Assumptions C103_ends.
Print Assumptions C103_unknown_refuted.
Print Assumptions C103_zero_refuted.

Example C103_ex : pc_conv 1234 [] (lit "3-8-3") = ([Conv 1234 (lit "0-154-2") (lit "3-8-3")], CReturned) /\
  pc_conv (-1) (lit "0-154-2") (lit "3-8-3") = ([Conv 1234 (lit "0-154-2") (lit "3-8-3")], CReturned) /\
  pc_conv 4294967297 [] (lit "8-8-8") = ([Conv 1 (lit "0-0-1") (lit "8-8-8")], CReturned) /\
  pc_conv 5 (lit "1-1-82") (lit "4-3-7") = ([Conv 5 (lit "0-0-5") (lit "4-3-7"); Conv 1234 (lit "1-1-82") (lit "4-3-7")], CReturned).
Proof. vm_compute. repeat split. Qed.
Example C103_ex_ends : pc_conv (-1) [] (lit "3-8-3") = ([], CFatalFlags) /\ pc_conv (-1) (lit "123") (lit "3-8-3") = ([], CFatalText) /\
  pc_conv 7 [] [] = ([], CNil) /\ pc_conv 7 (lit "1-2") (lit "3-8-3") = ([Conv 7 (lit "0-0-7") (lit "3-8-3")], CNil).
Proof. vm_compute. repeat split. Qed.
(** 4-4-6 is one of these: pc.go defines it without a width *)
Example C103_ex_unknown : lit "4-4-6" <> [] /\ (forall w, lit "4-4-6" <> vname w) /\ pc_conv 1234 [] (lit "4-4-6") = ([Conv 0 (lit "0-0-0") (lit "4-4-6")], CReturned).
Proof. split; [discriminate|]. split; [intros []; discriminate|]. vm_compute. reflexivity. Qed.
