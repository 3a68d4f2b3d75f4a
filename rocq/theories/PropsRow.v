(** C128: encoded messages one after another. *)
From Verif Require Import GoBase BaseProofs WireSpec ParamsModel ParamsSpec MessagesModel MsgSpec ConnExamples ChangeSpec ChangeProofs RowSpec RowProofs.
From Coq Require Import Arith Lia.
Open Scope nat_scope.

(** No encoded message is the beginning of another one, nor the same as another one. *)
Theorem C128_prefix : forall x y b b' r r', proper x -> proper y -> octets_are x b -> octets_are y b' -> b ++ r = b' ++ r' -> same_letter x y /\ b = b' /\ r = r'.
Proof. exact prefixes. Qed.
(** Messages one after another are told by their octets alone. *)
Theorem C128_row : forall xs ys bs bs', Forall proper xs -> Forall proper ys -> Forall2 octets_are xs bs -> Forall2 octets_are ys bs' -> concat bs = concat bs' ->
  bs = bs' /\ Forall2 same_letter xs ys.
Proof. exact rows. Qed.
(** Cutting them at the lengths in the headers gives each message's own octets, and nothing else does; each piece is read as the message it came from. *)
Theorem C128_cut : forall xs bs, Forall proper xs -> Forall2 octets_are xs bs -> (forall ps, cut_up (concat bs) ps <-> ps = bs) /\ Forall2 read_as xs bs.
Proof.
  intros xs bs P F. split.
  - intros ps. split; [intros C; symmetry; exact (cut_det _ _ (cut_row xs bs P F) _ C)|intros ->; exact (cut_row xs bs P F)].
  - induction F; inversion P; subst; constructor; auto. now apply proper_read.
Qed.

(** Parameters given to a New function where they do not belong: the octets do not tell where they were. *)
Definition misplaced : letter := mkLetter ASPUP [Some (NewInfoString [x61]); None] (NewAspUp (Some (NewInfoString [x61])) None).
Definition placed : letter := mkLetter ASPUP [None; Some (NewInfoString [x61])] (NewAspUp None (Some (NewInfoString [x61]))).
Theorem C128_misplaced_refuted : exists x y b, made (l_type x) (l_slots x) (l_msg x) /\ proper y /\ octets_are x b /\ octets_are y b /\ ~ same_letter x y.
Proof.
  exists misplaced, placed, (bytes_of (Typed (l_msg placed))). split; [constructor|]. split; [split; [constructor|]|].
  - constructor; [exact Logic.I|]. constructor; [|constructor]. split; [reflexivity|]. apply short_value. cbn. lia.
  - split; [eexists; vm_compute; reflexivity|]. split; [eexists; vm_compute; reflexivity|]. intros [_ E]. discriminate.
Qed.
(** A decoded message keeps the length it was received with, right or wrong; behind it the octets cannot be cut like this. *)
Theorem C128_decoded_refuted : exists raw m m' b, Parse raw = Ok (Typed m) /\ m3_MarshalBinary (Typed m) = Ok (m', b) /\ forall ps, ~ cut_up (b ++ b) ps.
Proof.
  exists (packet x01 x00 x03 x01 9 []). eexists _, _, _. split; [vm_compute; reflexivity|]. split; [vm_compute; reflexivity|].
  intros ps C. inversion C as [|p rest ps' H V C' E]; subst.
  destruct p as [|p0 [|p1 [|p2 [|p3 [|p4 [|p5 [|p6 [|p7 p]]]]]]]]; cbn [length] in H; try lia. cbn [app] in E. injection E as -> -> -> -> -> -> -> -> E.
  cbn [skipn firstn] in V. change (val [x00; x00; x00; x09]) with 9%N in V.
  destruct p as [|q0 [|q1 p]]; cbn [length] in V; try lia. cbn [app] in E. injection E as -> E. subst rest.
  inversion C' as [|p' rest' ps2 H2 V2 C2 E2]; subst. assert (X : length (p' ++ rest') = 7) by (rewrite E2; reflexivity). rewrite app_length in X. lia.
Qed.
Print Assumptions C128_prefix.
Print Assumptions C128_row.
Print Assumptions C128_cut.
Print Assumptions C128_misplaced_refuted.
Print Assumptions C128_decoded_refuted.

(** ASP Up with an identifier, BEAT, ASP Inactive without parameters *)
Definition row : list letter :=
  [mkLetter ASPUP [Some (NewAspIdentifier 7); None] (NewAspUp (Some (NewAspIdentifier 7)) None);
   mkLetter BEAT [Some (NewHeartbeatData [x01; x02; x03])] (NewHeartbeat (Some (NewHeartbeatData [x01; x02; x03])));
   mkLetter ASPIA [None; None] (NewAspInactive None None)].
Example C128_ex : Forall proper row /\ (exists bs, Forall2 octets_are row bs /\ map (@length byte) bs = [16; 16; 8]) /\ ~ same_letter (nth 0 row placed) placed.
Proof.
  split; [|split].
  - constructor; [split; [constructor|]|constructor; [split; [constructor|]|constructor; [split; [constructor|]|constructor]]].
    + constructor; [split; [reflexivity|apply short_value; cbn; lia]|]. constructor; [exact Logic.I|constructor].
    + constructor; [split; [reflexivity|apply short_value; cbn; lia]|constructor].
    + constructor; [exact Logic.I|]. constructor; [exact Logic.I|constructor].
  - exists (map (fun x => bytes_of (Typed (l_msg x))) row). split; [|vm_compute; reflexivity].
    constructor; [eexists; vm_compute; reflexivity|]. constructor; [eexists; vm_compute; reflexivity|]. constructor; [eexists; vm_compute; reflexivity|constructor].
  - intros [_ E]. discriminate.
Qed.
