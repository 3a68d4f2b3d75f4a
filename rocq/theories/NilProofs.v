(** Proofs about NilModel.v. *)
From Verif Require Import GoBase BaseProofs ParamsModel MessagesModel MessagesProofs MessagesProofs2 PcModel ReuseModel TextModel NilModel.
From Coq Require Import Arith Lia.
Open Scope nat_scope.

Lemma nil_dec (ps : list (option param)) : In None ps \/ exists qs, ps = map Some qs.
Proof.
  induction ps as [|[p|] ps IH]; [right; exists []; reflexivity| |left; now left].
  destruct IH as [H|[qs ->]]; [left; now right|right; exists (p :: qs); reflexivity].
Qed.
Lemma nsum_some qs : forall n, nsum n (map Some qs) = Ok (fold_left (fun l p => l + MarshalLen p) qs n).
Proof. induction qs as [|q qs IH]; intros n; [reflexivity|]. cbn. apply IH. Qed.
Lemma nsum_nil ps : In None ps -> forall n, nsum n ps = Panic PNil.
Proof. induction ps as [|[p|] ps IH]; intros H n; [destruct H| |reflexivity]. destruct H as [H|H]; [discriminate|]. cbn. now apply IH. Qed.
Lemma nset_some qs : nset (map Some qs) = Ok (map Some (map SetLength qs)).
Proof. induction qs as [|q qs IH]; [reflexivity|]. cbn. rewrite IH. reflexivity. Qed.
Lemma nset_nil ps : In None ps -> nset ps = Panic PNil.
Proof. induction ps as [|[p|] ps IH]; intros H; [destruct H| |reflexivity]. destruct H as [H|H]; [discriminate|]. cbn. now rewrite IH. Qed.
Lemma nput_some qs : forall pl off, nput (map Some qs) pl off = marshal_params (map Some qs) pl off.
Proof.
  induction qs as [|q qs IH]; intros pl off; [reflexivity|]. cbn [map nput marshal_params].
  destruct (slice pl off (length pl)) as [s| |]; cbn [bind]; [|reflexivity|reflexivity]. cbn [nMarshalTo at_ptr].
  destruct (MarshalTo q s) as [s'| |]; cbn [bind]; [|reflexivity|reflexivity]. cbn [nMarshalLen at_ptr bind]. apply IH.
Qed.
Definition lift (g : generic) : ngeneric := mkNG (Some (g_hdr g)) (map Some (g_params g)).

Lemma nNew_some v c t qs : nNew v c t (map Some qs) = Ok (lift (New v c t qs)).
Proof. unfold nNew, nSetLengthG. cbn [ng_params ng_hdr]. rewrite nset_some. cbn [bind]. rewrite nsum_some. reflexivity. Qed.
Lemma nNew_nil v c t ps : In None ps -> nNew v c t ps = Panic PNil.
Proof. intros H. unfold nNew, nSetLengthG. cbn [ng_params]. now rewrite nset_nil. Qed.
Lemma nLen_some g : nMarshalLenG (lift g) = Ok (gen_MarshalLen g).
Proof. unfold nMarshalLenG, lift, gen_MarshalLen. cbn [ng_params]. apply nsum_some. Qed.
Lemma nMarshalTo_some g b : nMarshalToG (lift g) b = let! (g', b) := gen_MarshalTo g b in Ok (lift g', b).
Proof.
  unfold nMarshalToG. rewrite nLen_some. cbn [bind]. unfold gen_MarshalTo. destruct (length b <? gen_MarshalLen g); [reflexivity|].
  cbn [lift ng_hdr ng_params]. rewrite nput_some. destruct (marshal_params _ _ _) as [pl| |]; cbn [bind]; [|reflexivity|reflexivity].
  destruct (Header_MarshalTo _ b); reflexivity.
Qed.
Lemma nMarshalTo_nil g b : In None (ng_params g) -> nMarshalToG g b = Panic PNil.
Proof. intros H. unfold nMarshalToG, nMarshalLenG. now rewrite nsum_nil. Qed.
Lemma nMarshalBinary_some g : nMarshalBinaryG (lift g) = let! (m, b) := m3_MarshalBinary (Gen g) in match m with Gen g' => Ok (lift g', b) | Typed _ => Panic PNil end.
Proof.
  unfold nMarshalBinaryG, m3_MarshalBinary. rewrite nLen_some. cbn [bind m3_MarshalLen m3_MarshalTo]. rewrite nMarshalTo_some. destruct (gen_MarshalTo g _) as [[g' b]| |]; reflexivity.
Qed.
Lemma nMarshalBinary_nil g : In None (ng_params g) -> nMarshalBinaryG g = Panic PNil.
Proof. intros H. unfold nMarshalBinaryG, nMarshalLenG. now rewrite nsum_nil. Qed.
Lemma nMulti_some qs : nMarshalMultiParams (map Some qs) = MarshalMultiParams qs.
Proof. induction qs as [|q qs IH]; [reflexivity|]. cbn. rewrite IH. reflexivity. Qed.
Lemma MarshalBinary_fine p : exists b, MarshalBinary p = Ok b.
Proof.
  unfold MarshalBinary. pose proof (MarshalTo_zeros p (MarshalLen p)) as H. rewrite H by lia. eauto.
Qed.
Lemma nMulti_nil ps : In None ps -> nMarshalMultiParams ps = Panic PNil.
Proof.
  induction ps as [|[p|] ps IH]; intros H; [destruct H| |reflexivity]. destruct H as [H|H]; [discriminate|]. cbn [nMarshalMultiParams nMarshalBinary at_ptr].
  destruct (MarshalBinary_fine p) as [b ->]. cbn [bind]. now rewrite IH.
Qed.
