(** Proofs about the parameter codec. *)
From Verif Require Import GoBase ParamsModel WireSpec ParamsSpec BaseProofs.
From Coq Require Import Arith Lia ZifyBool ZifyNat ZifyN.
Ltac Zify.zify_post_hook ::= Z.div_mod_to_equations.
Open Scope nat_scope.
Opaque max_value_len.

Lemma Padding_pad p : Padding p = pad_len (length (p_data p)).
Proof.
  unfold Padding, pad_len.
  assert (H : length (p_data p) mod 4 < 4) by (apply Nat.mod_upper_bound; lia).
  set (x := length (p_data p) mod 4) in *. clearbody x.
  destruct x as [|[|[|[|x]]]]; try reflexivity; lia.
Qed.

Lemma pad_len_lt n : pad_len n < 4.
Proof. unfold pad_len. apply Nat.mod_upper_bound. lia. Qed.

Lemma pad_len_mod n : (n + pad_len n) mod 4 = 0.
Proof. unfold pad_len. lia. Qed.

Lemma max_value_len_spec n : n <= max_value_len <-> (N.of_nat n <= 65531)%N.
Proof. Transparent max_value_len. unfold max_value_len. lia. Qed.
Opaque max_value_len.

Lemma destruct4 (b : list byte) :
  4 <= length b -> exists b0 b1 b2 b3 r, b = b0 :: b1 :: b2 :: b3 :: r.
Proof.
  intros H. destruct b as [|b0 [|b1 [|b2 [|b3 r]]]]; cbn in H; try lia. eauto 10.
Qed.

(** ** Encoding *)

Lemma PutUint16_at0 b0 b1 r v :
  PutUint16 (b0 :: b1 :: r) 0 v = Ok (n2b (v / 256) :: n2b v :: r).
Proof.
  unfold PutUint16. replace (0 + 2 <=? length (b0 :: b1 :: r)) with true by (cbn [length]; lia).
  rewrite put_u16_be, be2_cons. reflexivity.
Qed.

Lemma PutUint16_at2 a0 a1 b0 b1 r v :
  PutUint16 (a0 :: a1 :: b0 :: b1 :: r) 2 v = Ok (a0 :: a1 :: n2b (v / 256) :: n2b v :: r).
Proof.
  unfold PutUint16.
  replace (2 + 2 <=? length (a0 :: a1 :: b0 :: b1 :: r)) with true by (cbn [length]; lia).
  rewrite put_u16_be, be2_cons. reflexivity.
Qed.

Lemma MarshalTo_ok p b :
  MarshalLen p <= length b ->
  MarshalTo p b =
  Ok (be 2 (p_tag p) ++ be 2 (p_length p) ++ p_data p ++ skipn (4 + length (p_data p)) b).
Proof.
  intros H. assert (H4 : 4 <= length b) by (unfold MarshalLen in H; lia).
  destruct (destruct4 b H4) as (b0 & b1 & b2 & b3 & r & ->).
  unfold MarshalTo. rewrite PutUint16_at0. cbn [bind]. rewrite PutUint16_at2. cbn [bind].
  cbn [length] in H. unfold copy_at. cbn [length].
  replace (4 <=? MarshalLen p) with true by (unfold MarshalLen; lia).
  replace (MarshalLen p <=? S (S (S (S (length r))))) with true by lia. cbn [andb].
  f_equal. rewrite firstn_all2 by (unfold MarshalLen; lia). reflexivity.
Qed.

Lemma MarshalTo_short p b : length b < MarshalLen p -> MarshalTo p b = Panic PSlice.
Proof.
  intros H. unfold MarshalTo, PutUint16.
  destruct (0 + 2 <=? length b) eqn:E1; cbn [bind]; [|reflexivity].
  rewrite splice_length by (cbn; lia).
  destruct (2 + 2 <=? length b) eqn:E2; cbn [bind]; [|reflexivity].
  unfold copy_at. rewrite !splice_length by (rewrite ?splice_length; cbn; lia).
  replace (MarshalLen p <=? length b) with false by lia. now rewrite andb_false_r.
Qed.

Lemma MarshalBinary_ok p :
  MarshalBinary p =
  Ok (be 2 (p_tag p) ++ be 2 (p_length p) ++ p_data p ++ repeat x00 (pad_len (length (p_data p)))).
Proof.
  unfold MarshalBinary. rewrite MarshalTo_ok by (rewrite zeros_length; lia).
  rewrite skipn_zeros. unfold MarshalLen. rewrite Padding_pad.
  replace (4 + length (p_data p) + pad_len (length (p_data p)) - (4 + length (p_data p)))
    with (pad_len (length (p_data p))) by lia. reflexivity.
Qed.

Lemma MarshalBinary_wf p : wf_param p -> MarshalBinary p = Ok (tlv (p_tag p) (p_data p)).
Proof. intros (_ & _ & H). rewrite MarshalBinary_ok, H. reflexivity. Qed.

Lemma tlv_length t v : length (tlv t v) = 4 + length v + pad_len (length v).
Proof. unfold tlv. rewrite !app_length, !be_length, repeat_length. lia. Qed.

Lemma MarshalLen_tlv p : MarshalLen p = length (tlv (p_tag p) (p_data p)).
Proof. rewrite tlv_length. unfold MarshalLen. rewrite Padding_pad. reflexivity. Qed.

Lemma MarshalBinary_length p bs : MarshalBinary p = Ok bs -> length bs = MarshalLen p.
Proof.
  rewrite MarshalBinary_ok. intros H.
  apply (f_equal (fun r => match r with Ok x => length x | _ => 0 end)) in H. rewrite <- H. clear H.
  unfold MarshalLen. rewrite Padding_pad, !app_length, !be_length, repeat_length. lia.
Qed.

Lemma MarshalLen_mod4 p : MarshalLen p mod 4 = 0.
Proof.
  unfold MarshalLen. rewrite Padding_pad. pose proof (pad_len_mod (length (p_data p))). lia.
Qed.

(** ** Decoding *)

Lemma Uint16_cons0 b0 b1 r : Uint16 (b0 :: b1 :: r) 0 = Ok (val [b0; b1]).
Proof.
  unfold Uint16. rewrite slice_ok by (cbn; lia). cbn [bind Nat.add Nat.sub skipn firstn].
  now rewrite get_u16_val.
Qed.

Lemma Uint16_cons2 a0 a1 b0 b1 r : Uint16 (a0 :: a1 :: b0 :: b1 :: r) 2 = Ok (val [b0; b1]).
Proof.
  unfold Uint16. rewrite slice_ok by (cbn; lia). cbn [bind Nat.add Nat.sub skipn firstn].
  now rewrite get_u16_val.
Qed.

Lemma ParseParam_short b : length b < 4 -> ParseParam b = Err EParamTooShortParse.
Proof. intros H. unfold ParseParam. replace (length b <? 4) with true by lia. reflexivity. Qed.

Lemma ParseParam_cons b0 b1 b2 b3 r :
  let len := val [b2; b3] in
  let l := N.of_nat (4 + length r) in
  ParseParam (b0 :: b1 :: b2 :: b3 :: r) =
  if (4 <=? len)%N && (len <=? l)%N
  then Ok (mkParam (val [b0; b1]) len (firstn (N.to_nat len - 4) r))
  else Err EParamInvalidLength.
Proof.
  cbv zeta. unfold ParseParam. cbn [length].
  replace (S (S (S (S (length r)))) <? 4) with false by lia.
  rewrite Uint16_cons0, Uint16_cons2. cbn [bind].
  set (len := val [b2; b3]).
  destruct (4 <=? len)%N eqn:E1; cbn [andb].
  2:{ replace (len <? 4)%N with true by lia. now rewrite orb_true_r. }
  replace (len <? 4)%N with false by lia. rewrite orb_false_r.
  destruct (len <=? N.of_nat (4 + length r))%N eqn:E2.
  - replace (S (S (S (S (length r)))) <? N.to_nat len) with false by lia.
    rewrite slice_ok by (cbn [length]; lia). cbn [bind skipn]. reflexivity.
  - replace (S (S (S (S (length r)))) <? N.to_nat len) with true by lia. reflexivity.
Qed.

Lemma ParseParam_outcome b :
  (exists p, ParseParam b = Ok p) \/ ParseParam b = Err EParamTooShortParse
  \/ ParseParam b = Err EParamInvalidLength.
Proof.
  destruct (Nat.lt_ge_cases (length b) 4) as [H|H].
  - right; left. now apply ParseParam_short.
  - destruct (destruct4 b H) as (b0 & b1 & b2 & b3 & r & ->).
    rewrite ParseParam_cons. destruct (_ && _); eauto.
Qed.

(** the encoding followed by anything decodes to the parameter *)
Lemma ParseParam_wire t v pad :
  (t < 65536)%N -> length v <= max_value_len ->
  ParseParam (be 2 t ++ be 2 (N.of_nat (4 + length v)) ++ v ++ pad)
  = Ok (mkParam t (N.of_nat (4 + length v)) v).
Proof.
  intros Ht Hv. apply max_value_len_spec in Hv.
  rewrite !be2_cons. cbn [app]. rewrite ParseParam_cons.
  rewrite !val_be2 by lia. rewrite app_length.
  replace (4 <=? N.of_nat (4 + length v))%N with true by lia.
  replace (N.of_nat (4 + length v) <=? N.of_nat (4 + (length v + length pad)))%N with true by lia.
  cbn [andb]. f_equal. f_equal.
  replace (N.to_nat (N.of_nat (4 + length v)) - 4) with (length v) by lia.
  rewrite firstn_app, Nat.sub_diag, firstn_all. cbn [firstn]. apply app_nil_r.
Qed.

Lemma ParseParam_inv b p :
  ParseParam b = Ok p ->
  wf_param p /\
  exists rest, b = be 2 (p_tag p) ++ be 2 (N.of_nat (4 + length (p_data p))) ++ p_data p ++ rest.
Proof.
  intros H. destruct (Nat.lt_ge_cases (length b) 4) as [L|L].
  { rewrite ParseParam_short in H by assumption. discriminate. }
  destruct (destruct4 b L) as (b0 & b1 & b2 & b3 & r & ->).
  rewrite ParseParam_cons in H.
  destruct ((4 <=? val [b2; b3])%N && (val [b2; b3] <=? N.of_nat (4 + length r))%N) eqn:E;
    [|discriminate].
  injection H as <-. apply andb_true_iff in E as [E1 E2].
  cbn [p_tag p_data p_length].
  assert (HL : length (firstn (N.to_nat (val [b2; b3]) - 4) r) = N.to_nat (val [b2; b3]) - 4).
  { rewrite firstn_length. lia. }
  pose proof (val2_lt b2 b3) as B.
  split.
  - unfold wf_param; cbn [p_tag p_data p_length]. rewrite HL. split; [apply val2_lt|].
    split; [apply max_value_len_spec; lia|lia].
  - exists (skipn (N.to_nat (val [b2; b3]) - 4) r). rewrite HL.
    replace (N.of_nat (4 + (N.to_nat (val [b2; b3]) - 4))) with (val [b2; b3]) by lia.
    rewrite !be2_inv. cbn [app]. now rewrite firstn_skipn.
Qed.

(** ** Lists of parameters *)

Definition mk (x : N * list byte) : param :=
  mkParam (fst x) (N.of_nat (4 + length (snd x))) (snd x).

Lemma mk_tv p : wf_param p -> mk (tv p) = p.
Proof. intros (_ & _ & H). unfold mk, tv. cbn. destruct p; cbn in *. now rewrite H. Qed.

Lemma tv_mk x : tv (mk x) = x.
Proof. now destruct x. Qed.

Lemma wf_mk t v : (t < 65536)%N -> length v <= max_value_len -> wf_param (mk (t, v)).
Proof. intros; repeat split; assumption. Qed.

Lemma map_mk_tv ps : Forall wf_param ps -> map mk (map tv ps) = ps.
Proof. induction 1; cbn; [easy|]. rewrite mk_tv by assumption. now rewrite IHForall. Qed.

Lemma Multi_sound fuel : forall b acc r,
  ParseMulti_loop fuel b acc = Ok r ->
  exists ps, r = acc ++ ps /\ Forall wf_param ps /\ TLVs b (map tv ps).
Proof.
  induction fuel as [|fuel IH]; intros b acc r H; cbn [ParseMulti_loop] in H; [discriminate|].
  destruct (length b =? 0) eqn:E0.
  { injection H as <-. exists []. rewrite app_nil_r. destruct b; [|discriminate E0].
    repeat split; constructor. }
  destruct (ParseParam b) as [p| |] eqn:Ep; cbn [bind] in H; try discriminate.
  destruct (ParseParam_inv b p Ep) as (Wp & rest & Hb).
  destruct Wp as (Wt & Wd & Wl).
  assert (Hlen : length b = 4 + length (p_data p) + length rest).
  { rewrite Hb, !app_length, !be_length. lia. }
  assert (Hadv : N.to_nat (p_length p) + Padding p
                 = 4 + length (p_data p) + pad_len (length (p_data p))).
  { rewrite Wl, Padding_pad. lia. }
  rewrite Hadv in H.
  destruct (length b <? 4 + length (p_data p) + pad_len (length (p_data p))) eqn:E1.
  { injection H as <-. exists [p]. split; [reflexivity|]. split; [repeat constructor; assumption|].
    cbn [map]. unfold tv at 1. rewrite Hb. apply TLVs_cut; [assumption|assumption|lia]. }
  rewrite slice_full in H by lia. cbn [bind] in H.
  apply IH in H as (ps & -> & Hps & HT).
  exists (p :: ps). rewrite <- app_assoc. split; [reflexivity|].
  split; [constructor; [repeat split|]; assumption|].
  cbn [map]. unfold tv at 1. 
  replace b with (be 2 (p_tag p) ++ be 2 (N.of_nat (4 + length (p_data p))) ++ p_data p
                  ++ firstn (pad_len (length (p_data p))) rest
                  ++ skipn (pad_len (length (p_data p))) rest).
  2:{ rewrite firstn_skipn. symmetry. exact Hb. }
  apply TLVs_cons; [assumption|assumption| |].
  - rewrite firstn_length. lia.
  - replace (skipn (pad_len (length (p_data p))) rest)
      with (skipn (4 + length (p_data p) + pad_len (length (p_data p))) b); [assumption|].
    rewrite Hb at 1. rewrite !be2_cons. cbn [app Nat.add skipn].
    rewrite skipn_app. rewrite skipn_all2 by lia. cbn [app].
    f_equal. lia.
Qed.

Lemma Multi_complete b l : TLVs b l ->
  forall fuel acc, length b < fuel -> ParseMulti_loop fuel b acc = Ok (acc ++ map mk l).
Proof.
  induction 1 as [|t v pad Ht Hv Hp|t v pad rest l Ht Hv Hp HT IH]; intros fuel acc Hf;
    (destruct fuel as [|fuel]; [lia|]); cbn [ParseMulti_loop].
  - cbn. now rewrite app_nil_r.
  - rewrite ParseParam_wire by assumption.
    replace (length (be 2 t ++ be 2 (N.of_nat (4 + length v)) ++ v ++ pad) =? 0) with false
      by (rewrite !app_length, !be_length; lia).
    cbn [bind p_length]. rewrite Padding_pad. cbn [p_data].
    replace (length (be 2 t ++ be 2 (N.of_nat (4 + length v)) ++ v ++ pad)
             <? N.to_nat (N.of_nat (4 + length v)) + pad_len (length v)) with true
      by (rewrite !app_length, !be_length; lia).
    reflexivity.
  - rewrite ParseParam_wire by assumption.
    set (b := be 2 t ++ be 2 (N.of_nat (4 + length v)) ++ v ++ pad ++ rest) in *.
    assert (Hlen : length b = 4 + length v + length pad + length rest).
    { unfold b. rewrite !app_length, !be_length. lia. }
    replace (length b =? 0) with false by lia.
    cbn [bind p_length]. rewrite Padding_pad. cbn [p_data].
    replace (length b <? N.to_nat (N.of_nat (4 + length v)) + pad_len (length v)) with false by lia.
    rewrite slice_full by lia. cbn [bind].
    replace (skipn (N.to_nat (N.of_nat (4 + length v)) + pad_len (length v)) b) with rest.
    2:{ unfold b. rewrite !app_assoc. rewrite skipn_app.
        rewrite skipn_all2 by (rewrite !app_length, !be_length; lia).
        rewrite !app_length, !be_length.
        replace (N.to_nat (N.of_nat (4 + length v)) + pad_len (length v)
                 - (2 + 2 + length v + length pad)) with 0 by lia.
        reflexivity. }
    rewrite IH by lia. now rewrite <- app_assoc.
Qed.

Lemma ParseMultiParams_iff b ps :
  ParseMultiParams b = Ok ps <-> Forall wf_param ps /\ TLVs b (map tv ps).
Proof.
  split.
  - intros H. apply Multi_sound in H as (ps' & -> & H1 & H2). cbn [app]. now split.
  - intros [H1 H2]. unfold ParseMultiParams.
    rewrite (Multi_complete _ _ H2) by lia. cbn [app]. now rewrite map_mk_tv.
Qed.

Lemma TLVs_ok b l : TLVs b l -> ParseMultiParams b = Ok (map mk l).
Proof. intros H. unfold ParseMultiParams. rewrite (Multi_complete _ _ H) by lia. reflexivity. Qed.

Lemma Multi_outcome fuel : forall b acc, length b < fuel ->
  (exists r, ParseMulti_loop fuel b acc = Ok r)
  \/ ParseMulti_loop fuel b acc = Err EParamTooShortParse
  \/ ParseMulti_loop fuel b acc = Err EParamInvalidLength.
Proof.
  induction fuel as [|fuel IH]; intros b acc Hf; [lia|]. cbn [ParseMulti_loop].
  destruct (length b =? 0) eqn:E0; [eauto|].
  destruct (ParseParam_outcome b) as [[p Hp]|[Hp|Hp]]; rewrite Hp; cbn [bind]; auto.
  destruct (ParseParam_inv b p Hp) as ((_ & _ & Wl) & _).
  destruct (length b <? N.to_nat (p_length p) + Padding p) eqn:E1; [eauto|].
  rewrite slice_full by lia. cbn [bind]. apply IH. rewrite skipn_length. lia.
Qed.

Lemma ParseMultiParams_outcome b :
  (exists ps, ParseMultiParams b = Ok ps) \/ ParseMultiParams b = Err EParamTooShortParse
  \/ ParseMultiParams b = Err EParamInvalidLength.
Proof. apply Multi_outcome. lia. Qed.

Lemma TLVs_body l :
  Forall (fun x => (fst x < 65536)%N /\ length (snd x) <= max_value_len) l -> TLVs (body_of l) l.
Proof.
  induction 1 as [|[t v] l [H1 H2] Hl IH]; [constructor|]. cbn in H1, H2.
  unfold body_of. cbn [map concat fst snd]. unfold tlv. rewrite <- !app_assoc.
  apply TLVs_cons; [assumption|assumption|apply repeat_length|exact IH].
Qed.

Lemma MarshalMultiParams_ok ps :
  Forall wf_param ps -> MarshalMultiParams ps = Ok (body_of (map tv ps)).
Proof.
  induction 1 as [|p ps Hp _ IH]; [reflexivity|]. cbn [MarshalMultiParams].
  rewrite MarshalBinary_wf by assumption. cbn [bind]. rewrite IH. reflexivity.
Qed.

Lemma wf_tv ps : Forall wf_param ps ->
  Forall (fun x => (fst x < 65536)%N /\ length (snd x) <= max_value_len) (map tv ps).
Proof. induction 1 as [|p ps (H1 & H2 & _) _ IH]; constructor; [now split|assumption]. Qed.

Lemma Multi_roundtrip ps :
  Forall wf_param ps ->
  exists bs, MarshalMultiParams ps = Ok bs /\ ParseMultiParams bs = Ok ps.
Proof.
  intros H. exists (body_of (map tv ps)). split; [now apply MarshalMultiParams_ok|].
  rewrite (TLVs_ok _ _ (TLVs_body _ (wf_tv _ H))). now rewrite map_mk_tv.
Qed.

(** ** NewParam, oversize *)

Lemma SetLength_wf p :
  (p_tag p < 65536)%N -> length (p_data p) <= max_value_len -> wf_param (SetLength p).
Proof.
  intros H1 H2. pose proof (proj1 (max_value_len_spec _) H2).
  repeat split; cbn [SetLength p_tag p_data p_length]; try assumption.
  rewrite nat_of_u16 by lia. reflexivity.
Qed.

Lemma SetLength_wf_id p : wf_param p -> SetLength p = p.
Proof.
  intros (H1 & H2 & H3). apply max_value_len_spec in H2. destruct p as [t l d]; cbn in *. subst l.
  unfold SetLength; cbn [p_tag p_data]. rewrite nat_of_u16 by lia. reflexivity.
Qed.


Lemma NewParam_roundtrip tag d rest :
  length d <= max_value_len ->
  exists bs, MarshalBinary (NewParam tag d) = Ok bs /\
             ParseParam (bs ++ rest) = Ok (NewParam tag d).
Proof.
  intros H. set (p := NewParam tag d).
  assert (W : wf_param p) by (apply SetLength_wf; [cbn; lia|exact H]).
  exists (tlv (p_tag p) (p_data p)). split; [now apply MarshalBinary_wf|].
  unfold tlv. rewrite <- !app_assoc. destruct W as (W1 & W2 & W3).
  rewrite ParseParam_wire by assumption. rewrite <- W3. now destruct p.
Qed.

Lemma oversize_not_roundtrip p rest bs q :
  max_value_len < length (p_data p) ->
  MarshalBinary (SetLength p) = Ok bs -> ParseParam (bs ++ rest) = Ok q -> p_data q <> p_data p.
Proof.
  intros H H1 H2 E. apply ParseParam_inv in H2 as ((_ & W & _) & _).
  rewrite E in W. lia.
Qed.
