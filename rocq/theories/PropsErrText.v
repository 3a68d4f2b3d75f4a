(** Property C91: texts of states and errors. *)
From Verif Require Import GoBase BaseProofs ParamsModel MessagesModel ConfigModel PcModel PcProofs ConnModel TextModel TextProofs ErrTextModel.
From Coq Require Import Strings.String Lia.
Open Scope list_scope.

(** which of the 19 messages, or none *)
Definition which (m : m3ua) : option kind := match m with Typed t => Some (m_kind t) | Gen _ => None end.
Definition named (k : option kind) : str * str :=
  match k with Some k => (kind_ClassName k, kind_TypeName k) | None => (txt "Unknown", txt "Unknown") end.
Lemma named_which m : (ClassName m, TypeName m) = named (which m).
Proof. destruct m; reflexivity. Qed.
Lemma pair_text k k' : fst (named k) ++ txt ", type: " ++ snd (named k) = fst (named k') ++ txt ", type: " ++ snd (named k') -> k = k'.
Proof. destruct k as [k|], k' as [k'|]; [destruct k, k'|destruct k|destruct k'|]; intros H; try reflexivity; vm_compute in H; discriminate. Qed.
Lemma fmt_d_inj a b : (a < 4294967296)%N -> (b < 4294967296)%N -> fmt_d a = fmt_d b -> a = b.
Proof. intros A B E. destruct (Itoa_spec a A) as [X _]. destruct (Itoa_spec b B) as [Y _]. unfold fmt_d in E. rewrite E in X. apply atou_iff in X. apply atou_iff in Y. congruence. Qed.

(** C91: the five states have different names, and no other value has one of them. *)
Theorem C91_states : forall s s', State_String s = State_String s' -> s = s' \/ State_String s = txt "Unknown".
Proof. intros s s'. destruct s; try (right; reflexivity); destruct s'; try (left; reflexivity); intros H; vm_compute in H; discriminate. Qed.
Theorem C91_unknown : forall s, State_String s = txt "Unknown" <-> (4 < b2n s)%N.
Proof. intros s. destruct s; split; intros H; try reflexivity; vm_compute in H; discriminate. Qed.
(** Two errors with the same text are the same error: of the same type, with the same version, stream or kind of message. *)
Definition same_error (e e' : cerr) : Prop :=
  match e, e' with
  | EInvalidVersion v, EInvalidVersion v' => v = v'
  | EUnsupportedClass m, EUnsupportedClass m' => ClassName m = ClassName m'
  | EUnsupportedMessage m, EUnsupportedMessage m' | EUnexpected m, EUnexpected m' => which m = which m'
  | EInvalidStream i, EInvalidStream i' => i = i'
  | _, _ => e = e'
  end.
Definition small (e : cerr) : Prop := match e with EInvalidStream i => (i < 65536)%N | _ => True end.
Theorem C91_errors : forall e e' t, small e -> small e' -> Error_text e = Some t -> Error_text e' = Some t -> same_error e e'.
Proof.
  intros e e' t Se Se' E E'. assert (E0 : Error_text e <> None) by congruence. rewrite <- E' in E. clear E'.
  destruct e, e'; cbn [Error_text] in E, E0; try (exfalso; apply E0; reflexivity); clear E0; try discriminate; try reflexivity; try (cbn in E; discriminate); apply f_equal with (f := fun x => match x with Some x => x | None => [] end) in E; cbv beta iota in E.
  - apply app_inv_head in E. apply fmt_d_inj in E; [|destruct v; reflexivity|destruct v0; reflexivity]. cbn. now apply b2n_inj.
  - apply app_inv_head in E. exact E.
  - apply app_inv_head in E. cbn. pose proof (named_which m) as N. pose proof (named_which m0) as N'.
    apply pair_text. rewrite <- N, <- N'. exact E.
  - apply app_inv_head in E. cbn. pose proof (named_which m) as N. pose proof (named_which m0) as N'.
    apply pair_text. rewrite <- N, <- N'. exact E.
  - apply app_inv_head in E. cbn in Se, Se'. apply fmt_d_inj in E; [exact E|lia|lia].
Qed.
(** It tells the message only by its kind: errors about different messages have the same text. *)
Theorem C91_message_refuted : exists m m', m <> m' /\ Error_text (EUnexpected m) = Error_text (EUnexpected m').
Proof.
  exists (Typed (NewAspUp None None)), (Typed (NewAspUp (Some (NewAspIdentifier 1)) None)). split; [intros H; vm_compute in H; discriminate|reflexivity].
Qed.
Print Assumptions C91_states.
Print Assumptions C91_unknown.
Print Assumptions C91_errors.
Print Assumptions C91_message_refuted.
Example C91_ex : Error_text (EUnexpected (Typed (NewAspUp None None))) = Some (txt "unexpected message. class: ASPSM, type: ASP Up") /\
  Error_text (EInvalidVersion xff) = Some (txt "invalid version: 255") /\ Error_text (EInvalidStream 65535) = Some (txt "invalid SCTP Stream ID: 65535") /\
  small (EInvalidStream 65535) /\ State_String (state_value Active) = txt "AspActive" /\ State_String x05 = txt "Unknown".
Proof. repeat split; try reflexivity. Qed.
(** the texts without a parameter, errors.go:22-28 *)
Example C91_ex_fixed : map Error_text [EAspIDRequired; EHeartbeatExpired; EFailedToPeelOff; EFailedToWriteSignal] =
  map Some [txt "ASP Identifier required"; txt "heartbeat timer expired"; txt "failed to peel off Protocol Data"; txt "failed to write signal"].
Proof. reflexivity. Qed.
