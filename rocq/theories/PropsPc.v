(** C24-C27: point codes. *)
From Verif Require Import GoBase PcModel PcSpec PcProofs.
From Coq Require Import Arith Lia Strings.String.
Open Scope nat_scope.

(** * C24 *)
Theorem C24_number_text_number : forall v raw,
  exists p q, NewPointCode raw (vname v) = Some p /\
    Uint32_ p = (raw mod 2 ^ bits v)%N /\
    Variant p = vname v /\
    printed v (raw mod 2 ^ bits v) (String_ p) /\
    NewPointCodeFrom (String_ p) (vname v) = Some q /\
    Uint32_ q = (raw mod 2 ^ bits v)%N /\ String_ q = String_ p.
Proof. exact pc_number_text_number. Qed.
Print Assumptions C24_number_text_number.

(** the canonical text is unique, so the previous theorem determines String() *)
Theorem C24_text_unique : forall v n s t, printed v n s -> printed v n t -> s = t.
Proof. exact printed_unique. Qed.
Print Assumptions C24_text_unique.

Example C24_ex :
  option_map String_ (NewPointCode 1234 (vname V383)) = Some (lit "0-154-2") /\
  option_map String_ (NewPointCode 1234 (vname V437)) = Some (lit "1-1-82") /\
  option_map String_ (NewPointCode 4294967295 (vname V4343)) = Some (lit "15-7-15-7") /\
  option_map Uint32_ (NewPointCode 4294967295 (vname V745)) = Some 65535%N.
Proof. now vm_compute. Qed.

(** * C25 *)
Theorem C25_text_number : forall v f ds cs,
  text ds f -> Forall2 decimal ds cs -> in_range (widths v) cs ->
  exists p, NewPointCodeFrom f (vname v) = Some p /\
    Uint32_ p = compose (widths v) cs /\ (Uint32_ p < 2 ^ bits v)%N /\ String_ p = f /\ Variant p = vname v.
Proof. exact pc_text_number. Qed.
Print Assumptions C25_text_number.

Theorem C25_canonical : forall v f ds cs,
  text ds f -> Forall2 decimal ds cs -> Forall canonical ds -> in_range (widths v) cs ->
  exists p, NewPointCode (compose (widths v) cs) (vname v) = Some p /\ String_ p = f.
Proof. exact pc_canonical_text. Qed.
Print Assumptions C25_canonical.

(** nil is returned exactly for a wrong component count or a non-numeric component *)
Theorem C25_nil : forall v f,
  NewPointCodeFrom f (vname v) = None <->
  (forall ds, text ds f -> Forall no_dash ds ->
     List.length ds <> List.length (widths v) \/ Exists (fun d => ~ numeric d) ds).
Proof. exact pc_text_nil. Qed.
Print Assumptions C25_nil.

Example C25_ex_text :
  text [lit "1"; lit "007"; lit "5"] (lit "1-007-5") /\
  Forall2 decimal [lit "1"; lit "007"; lit "5"] [1; 7; 5]%N /\
  in_range (widths V437) [1; 7; 5]%N /\ compose (widths V437) [1; 7; 5]%N = 1925%N /\
  option_map Uint32_ (NewPointCodeFrom (lit "1-007-5") (vname V437)) = Some 1925%N.
Proof.
  split; [apply (text_cons (lit "1")), (text_cons (lit "007")), text_one|].
  split; [repeat apply Forall2_cons; try apply Forall2_nil;
          (split; [discriminate|split; [repeat apply Forall_cons; try apply Forall_nil; now vm_compute|reflexivity]])|].
  split; [repeat apply Forall2_cons; try apply Forall2_nil; reflexivity|]. now vm_compute.
Qed.
Example C25_ex_nil :
  NewPointCodeFrom (lit "1-2") (vname V383) = None /\ NewPointCodeFrom (lit "1-x-3") (vname V383) = None /\
  NewPointCodeFrom (lit "1--3") (vname V383) = None /\ NewPointCodeFrom [] (vname V77) = None /\
  option_map Uint32_ (NewPointCodeFrom (lit "+1-2-3") (vname V383)) = Some 2067%N.
Proof. now vm_compute. Qed.

(** * C26 *)
(** a point code made from text may exceed the variant's width *)
Theorem C26_width_refuted :
  exists v f p, NewPointCodeFrom f (vname v) = Some p /\ Uint32_ p = 29957%N /\ (2 ^ bits v <= Uint32_ p)%N /\
    f = lit "1-234-5" /\ v = V437.
Proof. exists V437, (lit "1-234-5"). eexists. split; [reflexivity|]. now vm_compute. Qed.
Print Assumptions C26_width_refuted.

(** and its text is then not the formatting of its number *)
Theorem C26_text_refuted :
  exists v f p s, NewPointCodeFrom f (vname v) = Some p /\ String_ p = f /\
    fst (ConvertTo p (vname v)) = Some s /\ s <> f.
Proof. exists V437, (lit "1-234-5"). do 2 eexists. split; [reflexivity|]. split; [reflexivity|]. split; [reflexivity|]. discriminate. Qed.
Print Assumptions C26_text_refuted.

(** different components, same number *)
Theorem C26_alias_refuted :
  exists v f g p q, NewPointCodeFrom f (vname v) = Some p /\ NewPointCodeFrom g (vname v) = Some q /\
    f = lit "0-234-5" /\ g = lit "1-234-5" /\ Uint32_ p = Uint32_ q.
Proof. exists V437, (lit "0-234-5"), (lit "1-234-5"). do 2 eexists. do 2 (split; [reflexivity|]). now vm_compute. Qed.
Print Assumptions C26_alias_refuted.

(** variant 4-4-6 maps every number and every text to 0 *)
Theorem C26_446_numbers : forall raw,
  exists p, NewPointCode raw (lit "4-4-6") = Some p /\ Uint32_ p = 0%N /\ String_ p = lit "0-0-0".
Proof. intros raw. eexists. split; [apply (new_446 raw)|]. now vm_compute. Qed.
Print Assumptions C26_446_numbers.

Theorem C26_446_texts : forall f p, NewPointCodeFrom f (lit "4-4-6") = Some p -> Uint32_ p = 0%N.
Proof. exact from_446. Qed.
Print Assumptions C26_446_texts.

Example C26_ex : exists p, NewPointCodeFrom (lit "9-10-63") (lit "4-4-6") = Some p /\ String_ p = lit "9-10-63".
Proof. eexists. split; [reflexivity|]. reflexivity. Qed.

(** * C27 *)
Theorem C27_convert : forall p v,
  exists s p', ConvertTo p (vname v) = (Some s, p') /\ Uint32_ p' = Uint32_ p /\ Variant p' = Variant p /\
    printed v (Uint32_ p mod 2 ^ bits v) s /\
    (Variant p <> [] -> String_ p' = s).
Proof.
  intros p v. destruct (ConvertTo_ok p v) as (s & E & P). exists s. eexists. split; [exact E|].
  repeat split; auto. intros H. unfold String_, Variant in *. cbn [pc_form pc_formatted].
  destruct (str_eqb (pc_form p) VariantNone) eqn:Q; auto. apply str_eqb_iff in Q. contradiction.
Qed.
Print Assumptions C27_convert.

(** converting a point code to another variant and back restores the text it was made with *)
Theorem C27_back : forall raw v w p s p' s' p'',
  NewPointCode raw (vname v) = Some p -> ConvertTo p (vname w) = (Some s, p') ->
  ConvertTo p' (vname v) = (Some s', p'') -> p'' = p.
Proof.
  intros raw v w p s p' s' p'' E1 E2 E3. rewrite New_eq in E1. inversion E1; subst; clear E1.
  unfold ConvertTo in *. rewrite convRawToStr_eq in *. inversion E2; subst; clear E2.
  cbn [pc_raw pc_form] in *. now inversion E3.
Qed.
Print Assumptions C27_back.


Example C27_ex : exists p p',
  NewPointCode 1234 (vname V383) = Some p /\ String_ p = lit "0-154-2" /\
  ConvertTo p (vname V437) = (Some (lit "1-1-82"), p') /\ Variant p' = lit "3-8-3".
Proof. do 2 eexists. do 3 (split; [reflexivity|]). reflexivity. Qed.
