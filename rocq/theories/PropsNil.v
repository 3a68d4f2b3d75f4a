(** C108: nil parameters, payloads and messages given to the codec. *)
From Verif Require Import GoBase BaseProofs ParamsModel MessagesModel MessagesProofs PcModel ReuseModel TextModel NilModel NilProofs.
From Coq Require Import Arith Lia.
Open Scope nat_scope.

(** New and the encoding of generic messages and of lists of parameters panic exactly when an element is nil; otherwise they are the functions of C05 and C23. *)
Theorem C108_new : forall v c t ps, (In None ps /\ nNew v c t ps = Panic PNil) \/ (exists qs, ps = map Some qs /\ nNew v c t ps = Ok (lift (New v c t qs))).
Proof. intros v c t ps. destruct (nil_dec ps) as [H|[qs ->]]; [left; split; [exact H|now apply nNew_nil]|right; exists qs; split; [reflexivity|apply nNew_some]]. Qed.
Theorem C108_generic : forall h ps, (In None ps /\ nMarshalBinaryG (mkNG (Some h) ps) = Panic PNil /\ forall b, nMarshalToG (mkNG (Some h) ps) b = Panic PNil) \/
  (exists qs b h', ps = map Some qs /\ m3_MarshalBinary (Gen (mkGeneric h qs)) = Ok (Gen (mkGeneric h' qs), b) /\
     nMarshalBinaryG (mkNG (Some h) ps) = Ok (mkNG (Some h') ps, b)).
Proof.
  intros h ps. destruct (nil_dec ps) as [H|[qs ->]].
  - left. split; [exact H|]. split; [now apply nMarshalBinary_nil|]. intros b. now apply nMarshalTo_nil.
  - right. pose proof (nMarshalBinary_some (mkGeneric h qs)) as E. unfold lift in E at 1. cbn [g_hdr g_params] in E. rewrite E. clear E.
    exists qs. unfold m3_MarshalBinary. cbn [m3_MarshalLen m3_MarshalTo].
    rewrite MessagesProofs2.gen_MarshalTo_ok by (rewrite zeros_length; lia). cbn [bind]. eexists _, _. split; [reflexivity|]. split; [reflexivity|]. reflexivity.
Qed.
Theorem C108_multi : forall ps, (In None ps /\ nMarshalMultiParams ps = Panic PNil) \/ (exists qs, ps = map Some qs /\ nMarshalMultiParams ps = MarshalMultiParams qs).
Proof. intros ps. destruct (nil_dec ps) as [H|[qs ->]]; [left; split; [exact H|now apply nMulti_nil]|right; exists qs; split; [reflexivity|apply nMulti_some]]. Qed.
(** Printing does not panic: a nil element is printed as nothing. *)
Theorem C108_string : forall h ps, exists s, nStringG (mkNG (Some h) ps) = Ok s /\ (forall qs, ps = map Some qs -> m3_String (Gen (mkGeneric h qs)) = Ok s).
Proof. intros h ps. eexists. split; [reflexivity|]. intros qs ->. cbn. now rewrite map_map. Qed.
(** Typed messages can be encoded whichever of their parameters are nil. *)
Theorem C108_typed : forall m, exists m' b, m3_MarshalBinary (Typed m) = Ok (m', b).
Proof. intros m. eexists _, _. apply msg_MarshalBinary_ok. Qed.
(** In nested parameters nil elements are left out. *)
Theorem C108_nested : forall t ps qs, ps = map Some qs -> forall ps', filter (fun o => match o with Some _ => true | None => false end) ps' = ps ->
  newNestedParam t ps' = newNestedParam t ps.
Proof.
  intros t ps qs -> ps'. revert qs. induction ps' as [|[p|] ps' IH]; intros qs H; cbn [filter] in H.
  - now rewrite <- H.
  - destruct qs as [|q qs]; [discriminate|]. cbn [map] in *. injection H as -> H. specialize (IH qs H).
    unfold newNestedParam in *. cbn [nested_data]. assert (E : nested_data ps' = nested_data (map Some qs)) by (unfold SetLength in IH; cbn [p_data p_tag] in IH; congruence).
    now rewrite E.
  - cbn [newNestedParam nested_data]. unfold newNestedParam in *. cbn [nested_data]. now apply IH.
Qed.
(** Without a header nothing works, whatever the parameters. *)
Theorem C108_no_header : forall ps, nMarshalBinaryG (mkNG None ps) = Panic PNil /\ nSetLengthG (mkNG None ps) = Panic PNil /\ nStringG (mkNG None ps) = Panic PNil.
Proof.
  intros ps. split; [|split; [|reflexivity]].
  - unfold nMarshalBinaryG, nMarshalToG, nMarshalLenG. cbn [ng_params ng_hdr]. destruct (nil_dec ps) as [H|[qs ->]]; [now rewrite nsum_nil|].
    rewrite nsum_some. cbn [bind]. rewrite zeros_length, Nat.ltb_irrefl. reflexivity.
  - unfold nSetLengthG. cbn [ng_params ng_hdr]. destruct (nil_dec ps) as [H|[qs ->]]; [now rewrite nset_nil|].
    rewrite nset_some. cbn [bind]. rewrite nsum_some. reflexivity.
Qed.
Print Assumptions C108_no_header.
Print Assumptions C108_new.
Print Assumptions C108_generic.
Print Assumptions C108_multi.
Print Assumptions C108_string.
Print Assumptions C108_typed.
Print Assumptions C108_nested.

Example C108_ex : nNew x01 x09 x01 [Some (NewRoutingContext [1%N]); None] = Panic PNil /\
  exists g, nNew x01 x09 x01 [Some (NewRoutingContext [1%N])] = Ok g /\ exists b, nMarshalBinaryG g = Ok b /\ length (snd b) = 16.
Proof. split; [reflexivity|]. eexists. split; [reflexivity|]. eexists. split; [vm_compute; reflexivity|reflexivity]. Qed.
Example C108_ex_nested : newNestedParam tRoutingKey [None; Some (NewRoutingContext [1%N]); None] = newNestedParam tRoutingKey [Some (NewRoutingContext [1%N])] /\
  p_length (newNestedParam tRoutingKey [Some (NewRoutingContext [1%N])]) = 12%N.
Proof. split; reflexivity. Qed.
