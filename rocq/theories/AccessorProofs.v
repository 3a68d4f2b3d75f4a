(** Proofs about parameter constructors and accessors. *)
From Verif Require Import GoBase ParamsModel WireSpec ParamsSpec BaseProofs ParamsProofs.
From Coq Require Import Arith Lia ZifyBool ZifyNat ZifyN.
Ltac Zify.zify_post_hook ::= Z.div_mod_to_equations.
Open Scope nat_scope.
Opaque max_value_len.

Lemma wf_travels p : wf_param p -> travels p.
Proof.
  intros W. exists (tlv (p_tag p) (p_data p)). split; [now apply MarshalBinary_wf|].
  intros rest. unfold tlv. rewrite <- !app_assoc. destruct W as (W1 & W2 & W3).
  rewrite ParseParam_wire by assumption. rewrite <- W3. now destruct p.
Qed.

Lemma travels_small p : travels p -> length (p_data p) <= max_value_len.
Proof.
  intros (bs & _ & H). specialize (H []). apply ParseParam_inv in H as ((_ & H & _) & _). exact H.
Qed.

Lemma small_le n : n <= 65 -> n <= max_value_len.
Proof. intros H. apply max_value_len_spec. lia. Qed.

(** ** 32-bit values *)
Lemma decode32 p :
  decodeUint32ValData p = if length (p_data p) =? 4 then val (p_data p) else 0%N.
Proof.
  unfold decodeUint32ValData. destruct (p_data p) as [|a [|b [|c [|d [|e l]]]]]; try reflexivity.
  cbn [length Nat.eqb]. apply get_u32_val.
Qed.

Lemma decode32_new t u : (u < 4294967296)%N -> decodeUint32ValData (newUint32ValParam t u) = u.
Proof.
  intros H. rewrite decode32. cbn [newUint32ValParam p_data]. rewrite put_u32_be, be_length.
  cbn [Nat.eqb]. now apply val_be4.
Qed.

Lemma wf_new32 t u : (t < 65536)%N -> wf_param (newUint32ValParam t u).
Proof.
  intros H. repeat split; [exact H|]. cbn [newUint32ValParam p_data put_u32 length].
  apply small_le; lia.
Qed.

Lemma acc32_new t u : (u < 4294967296)%N -> acc32 t (newUint32ValParam t u) = u.
Proof. intros H. unfold acc32. cbn [newUint32ValParam p_tag]. rewrite N.eqb_refl. now apply decode32_new. Qed.

Lemma acc32_other t p : p_tag p <> t -> acc32 t p = 0%N.
Proof. intros H. unfold acc32. replace (p_tag p =? t)%N with false by lia. reflexivity. Qed.

Lemma acc32_any t p :
  acc32 t p = if (p_tag p =? t)%N && (length (p_data p) =? 4) then val (p_data p) else 0%N.
Proof. unfold acc32. rewrite decode32. destruct (p_tag p =? t)%N; reflexivity. Qed.

Lemma acc32_all t u :
  (t < 65536)%N -> (u < 4294967296)%N ->
  travels (newUint32ValParam t u) /\ acc32 t (newUint32ValParam t u) = u.
Proof. intros H1 H2. split; [now apply wf_travels, wf_new32|now apply acc32_new]. Qed.

(** ** 24- and 8-bit values *)
Lemma decode24_new t u : decodeUint32ValData (newUint24ValParam t u) = (u mod 16777216)%N.
Proof.
  rewrite decode32. cbn [newUint24ValParam p_data zeros repeat app uint32To24 length Nat.eqb].
  unfold val, uint32To24. cbn [fold_left]. rewrite !b2n_n2b, !N.shiftr_div_pow2.
  change (2 ^ 16)%N with 65536%N. change (2 ^ 8)%N with 256%N. change (b2n x00) with 0%N. lia.
Qed.

Lemma wf_new24 t u : (t < 65536)%N -> wf_param (newUint24ValParam t u).
Proof. intros H. repeat split; [exact H| ]. apply small_le. cbn; lia. Qed.

Lemma land_ones n k : N.land n (N.ones k) = (n mod 2 ^ k)%N.
Proof. apply N.land_ones. Qed.

Lemma acc24 t u :
  (t < 65536)%N ->
  travels (newUint24ValParam t u) /\
  N.land (decodeUint32ValData (newUint24ValParam t u)) 0xffffff = (u mod 16777216)%N.
Proof.
  intros H. split; [now apply wf_travels, wf_new24|]. rewrite decode24_new.
  change 0xffffff%N with (N.ones 24). rewrite N.land_ones. change (2 ^ 24)%N with 16777216%N.
  apply N.mod_mod. lia.
Qed.

Lemma acc8 t u :
  (t < 65536)%N ->
  travels (newUint8ValParam t u) /\
  N.land (decodeUint32ValData (newUint8ValParam t u)) 0xff = b2n u.
Proof.
  intros H. split.
  - apply wf_travels. repeat split; [exact H| ]. apply small_le. cbn; lia.
  - rewrite decode32. cbn [newUint8ValParam p_data length Nat.eqb]. unfold val. cbn [fold_left].
    change (b2n x00) with 0%N. change 0xff%N with (N.ones 8). rewrite N.land_ones.
    change (2 ^ 8)%N with 256%N. pose proof (b2n_lt u). lia.
Qed.

Lemma land_any (m : N) k p :
  m = N.ones k ->
  N.land (decodeUint32ValData p) m
  = ((if (length (p_data p) =? 4)%nat then val (p_data p) else 0) mod 2 ^ k)%N.
Proof. intros ->. rewrite N.land_ones, decode32. reflexivity. Qed.

(** ** Composite values *)
Lemma UserCause_new user cause :
  (user < 65536)%N -> (cause < 65536)%N ->
  NewUserCause user cause = newUint32ValParam tUserCause (cause * 65536 + user).
Proof.
  intros H1 H2. unfold NewUserCause. f_equal.
  rewrite N.shiftl_mul_pow2. change (2 ^ 16)%N with 65536%N. rewrite u32_small by lia.
  rewrite N.lor_comm. change 65536%N with (2 ^ 16)%N. rewrite <- N.shiftl_mul_pow2.
  rewrite lor_shiftl_add by exact H1. rewrite N.shiftl_mul_pow2. lia.
Qed.

Lemma UserCause_parts user cause :
  (user < 65536)%N -> (cause < 65536)%N ->
  let p := NewUserCause user cause in
  travels p /\ UserIdentity p = user /\ UnavailabilityCause p = cause /\
  UserCause p = (cause * 65536 + user)%N.
Proof.
  intros H1 H2 p. unfold p. rewrite UserCause_new by assumption.
  assert (B : (cause * 65536 + user < 4294967296)%N) by lia.
  split; [apply wf_travels, wf_new32; reflexivity|].
  unfold UserIdentity, UnavailabilityCause, UserCause.
  rewrite acc32_new by assumption.
  cbn [newUint32ValParam p_tag]. rewrite N.eqb_refl.
  fold (newUint32ValParam tUserCause (cause * 65536 + user)).
  rewrite decode32_new by assumption.
  change 0xffff%N with (N.ones 16). rewrite N.land_ones, N.shiftr_div_pow2.
  change (2 ^ 16)%N with 65536%N. unfold u16. repeat split; lia.
Qed.

Lemma Status_parts typ info :
  (typ < 65536)%N -> (info < 65536)%N ->
  let p := NewStatus (typ * 65536 + info) in
  travels p /\ StatusType p = typ /\ StatusInfo p = info /\ Status p = (typ * 65536 + info)%N.
Proof.
  intros H1 H2 p. unfold p, NewStatus.
  assert (B : (typ * 65536 + info < 4294967296)%N) by lia.
  split; [apply wf_travels, wf_new32; reflexivity|].
  unfold StatusType, StatusInfo, Status.
  rewrite acc32_new by assumption.
  cbn [newUint32ValParam p_tag]. rewrite N.eqb_refl.
  fold (newUint32ValParam tStatus (typ * 65536 + info)).
  rewrite decode32_new by assumption.
  change 0xffff%N with (N.ones 16). rewrite N.land_ones, N.shiftr_div_pow2.
  change (2 ^ 16)%N with 65536%N. unfold u16. repeat split; lia.
Qed.

(** ** Multiple 32-bit values *)
Lemma put_all_ok ux : forall pre,
  put_all ux (length pre) (concat (map (be 4) pre) ++ zeros (length ux * 4))
  = Ok (concat (map (be 4) pre) ++ concat (map (be 4) ux)).
Proof.
  assert (LC : forall l, length (concat (map (be 4) l)) = length l * 4).
  { induction l as [|a l IH]; [reflexivity|]. cbn [map concat length].
    rewrite app_length, be_length, IH. lia. }
  induction ux as [|u ux IH]; intros pre; cbn [put_all].
  - cbn. reflexivity.
  - unfold PutUint32. rewrite app_length, LC, zeros_length. cbn [length].
    replace (length pre * 4 + 4 <=? length pre * 4 + S (length ux) * 4) with true by lia.
    cbn [bind]. rewrite put_u32_be.
    replace (zeros (S (length ux) * 4)) with (zeros 4 ++ zeros (length ux * 4))
      by (unfold zeros; rewrite <- repeat_app; f_equal; lia).
    rewrite <- (LC pre). rewrite splice_app by (rewrite zeros_length, be_length; reflexivity).
    specialize (IH (pre ++ [u])). rewrite app_length in IH. cbn [length] in IH.
    rewrite Nat.add_1_r in IH.
    rewrite map_app, concat_app in IH. cbn [map concat] in IH. rewrite app_nil_r in IH.
    rewrite <- !app_assoc in IH. rewrite IH. reflexivity.
Qed.

Lemma multi32_data t ux :
  newMultiUint32ValParam t ux = SetLength (mkParam t 0 (concat (map (be 4) ux))).
Proof.
  unfold newMultiUint32ValParam. pose proof (put_all_ok ux []) as H. cbn in H.
  rewrite H. reflexivity.
Qed.

Lemma concat_be4_length l : length (concat (map (be 4) l)) = 4 * length l.
Proof.
  induction l as [|a l IH]; [reflexivity|]. cbn [map concat length].
  rewrite app_length, be_length, IH. lia.
Qed.

Lemma words_be ux :
  Forall (fun u => (u < 4294967296)%N) ux -> words (concat (map (be 4) ux)) = ux.
Proof.
  induction 1 as [|u ux Hu _ IH]; [reflexivity|].
  cbn [map concat].
  assert (E : exists a b c d, be 4 u = [a; b; c; d]).
  { cbn [be app]. eauto. }
  destruct E as (a & b & c & d & E). rewrite E. cbn [app words].
  rewrite get_u32_val, <- E, IH. f_equal. now apply val_be4.
Qed.

Lemma multi32_roundtrip t ux :
  Forall (fun u => (u < 4294967296)%N) ux ->
  decodeMultiUint32ValData (newMultiUint32ValParam t ux) = ux.
Proof.
  intros H. rewrite multi32_data. unfold decodeMultiUint32ValData. cbn [SetLength p_data].
  rewrite concat_be4_length. replace (4 * length ux mod 4 =? 0) with true by lia.
  now apply words_be.
Qed.

Lemma multi32_tag t ux : p_tag (newMultiUint32ValParam t ux) = t.
Proof. rewrite multi32_data. reflexivity. Qed.

Lemma multi32_travels t ux :
  (t < 65536)%N -> (N.of_nat (length ux) <= 16382)%N -> travels (newMultiUint32ValParam t ux).
Proof.
  intros Ht H. rewrite multi32_data. apply wf_travels, SetLength_wf; [exact Ht|].
  cbn [p_data]. rewrite concat_be4_length. apply max_value_len_spec. lia.
Qed.

Lemma multi32_travels_iff t ux :
  (t < 65536)%N ->
  (travels (newMultiUint32ValParam t ux) <-> (N.of_nat (length ux) <= 16382)%N).
Proof.
  intros Ht. split; [|now apply multi32_travels].
  intros H. apply travels_small in H. rewrite multi32_data in H. cbn [SetLength p_data] in H.
  rewrite concat_be4_length in H. apply max_value_len_spec in H. lia.
Qed.

Lemma first_word t (p : param) :
  p_tag p = t ->
  index (if (p_tag p =? t)%N then decodeMultiUint32ValData p else []) 0 =
  if (length (p_data p) mod 4 =? 0) && (4 <=? length (p_data p))
  then Ok (val (firstn 4 (p_data p))) else Panic PIndex.
Proof.
  intros ->. rewrite N.eqb_refl. unfold decodeMultiUint32ValData.
  destruct (length (p_data p) mod 4 =? 0) eqn:E; [|reflexivity]. cbn [andb].
  destruct (p_data p) as [|a [|b [|c [|d l]]]]; try reflexivity; try discriminate E.
  cbn [words index nth_error firstn length]. rewrite get_u32_val. reflexivity.
Qed.

(** ** Service indicators *)
Lemma ServiceIndicators_new si :
  ServiceIndicators (NewServiceIndicators si) = si ++ repeat x00 (4 - length si mod 4).
Proof.
  unfold ServiceIndicators, NewServiceIndicators, newMultiUint8ValParam. cbn [SetLength p_tag p_data].
  rewrite N.eqb_refl. unfold splice. cbn [firstn app].
  rewrite firstn_all2 by lia. rewrite skipn_zeros. unfold zeros. f_equal. f_equal. lia.
Qed.

(** ** Byte strings *)
Lemma var_travels t d :
  (t < 65536)%N -> (travels (newVariableLenValParam t d) <-> length d <= max_value_len).
Proof.
  intros H. split; intros H1.
  - now apply travels_small in H1.
  - apply wf_travels, SetLength_wf; assumption.
Qed.

(** ** Protocol data *)
Lemma PutUint32_at (pre post : list byte) v a b c d :
  PutUint32 (pre ++ a :: b :: c :: d :: post) (length pre) v = Ok (pre ++ be 4 v ++ post).
Proof.
  unfold PutUint32. rewrite app_length. cbn [length].
  replace (length pre + 4 <=? length pre + S (S (S (S (length post))))) with true by lia.
  rewrite put_u32_be. change (a :: b :: c :: d :: post) with ([a; b; c; d] ++ post).
  rewrite splice_app by (rewrite be_length; reflexivity). reflexivity.
Qed.

Lemma set_index_at (pre post : list byte) v a :
  set_index (pre ++ a :: post) (length pre) v = Ok (pre ++ v :: post).
Proof.
  unfold set_index. rewrite app_length. cbn [length].
  replace (length pre <? length pre + S (length post)) with true by lia.
  change (a :: post) with ([a] ++ post). rewrite splice_app by reflexivity. reflexivity.
Qed.

Definition pd_bytes (p : pdpayload) : list byte :=
  be 4 (pd_opc p) ++ be 4 (pd_dpc p) ++ [pd_si p; pd_ni p; pd_mp p; pd_sls p] ++ pd_data p.

Lemma pd_MarshalTo_ok p b :
  pd_MarshalLen p <= length b ->
  pd_MarshalTo p b = Ok (pd_bytes p ++ skipn (pd_MarshalLen p) b).
Proof.
  intros H. unfold pd_MarshalTo. replace (length b <? pd_MarshalLen p) with false by lia.
  destruct b as [|c0 [|c1 [|c2 [|c3 [|c4 [|c5 [|c6 [|c7 [|c8 [|c9 [|c10 [|c11 r]]]]]]]]]]]];
    unfold pd_MarshalLen in H; cbn [length] in H; try lia.
  pose proof (PutUint32_at [] (c4::c5::c6::c7::c8::c9::c10::c11::r) (pd_opc p) c0 c1 c2 c3) as E.
  cbn [app length] in E. rewrite E. cbn [bind]. clear E.
  pose proof (PutUint32_at (be 4 (pd_opc p)) (c8::c9::c10::c11::r) (pd_dpc p) c4 c5 c6 c7) as E.
  rewrite be_length in E. rewrite E. cbn [bind]. clear E.
  pose proof (set_index_at (be 4 (pd_opc p) ++ be 4 (pd_dpc p)) (c9::c10::c11::r) (pd_si p) c8) as E.
  rewrite app_length, !be_length, <- app_assoc in E. cbn [Nat.add] in E. rewrite E. cbn [bind]. clear E.
  pose proof (set_index_at (be 4 (pd_opc p) ++ be 4 (pd_dpc p) ++ [pd_si p]) (c10::c11::r) (pd_ni p) c9) as E.
  rewrite !app_length, !be_length, <- !app_assoc in E. cbn [Nat.add length app] in E.
  rewrite <- app_assoc. cbn [app] in E |- *. rewrite E. cbn [bind]. clear E.
  pose proof (set_index_at (be 4 (pd_opc p) ++ be 4 (pd_dpc p) ++ [pd_si p; pd_ni p]) (c11::r) (pd_mp p) c10) as E.
  rewrite !app_length, !be_length, <- !app_assoc in E. cbn [Nat.add length app] in E.
  rewrite <- ?app_assoc. cbn [app] in E |- *. rewrite E. cbn [bind]. clear E.
  pose proof (set_index_at (be 4 (pd_opc p) ++ be 4 (pd_dpc p) ++ [pd_si p; pd_ni p; pd_mp p]) r (pd_sls p) c11) as E.
  rewrite !app_length, !be_length, <- !app_assoc in E. cbn [Nat.add length app] in E.
  rewrite <- ?app_assoc. cbn [app] in E |- *. rewrite E. cbn [bind]. clear E.
  unfold copy_at. rewrite <- ?app_assoc. cbn [app]. rewrite !app_length, !be_length. cbn [length].
  replace (12 <=? pd_MarshalLen p) with true by (unfold pd_MarshalLen; lia).
  replace (pd_MarshalLen p <=? 4 + (4 + S (S (S (S (length r)))))) with true
    by (unfold pd_MarshalLen; lia).
  cbn [andb]. f_equal. rewrite firstn_all2 by (unfold pd_MarshalLen; lia).
  unfold splice, pd_bytes, pd_MarshalLen.
  cbn [be app firstn Nat.add skipn]. reflexivity.
Qed.

Lemma NewProtocolData_eq opc dpc si ni mp sls d :
  NewProtocolData opc dpc si ni mp sls d =
  SetLength (mkParam tProtocolData 0 (pd_bytes (mkPD opc dpc si ni mp sls d))).
Proof.
  unfold NewProtocolData, pd_MarshalBinary. rewrite pd_MarshalTo_ok by (rewrite zeros_length; lia).
  rewrite skipn_all2 by (rewrite zeros_length; lia). now rewrite app_nil_r.
Qed.

Lemma ParsePD_short b : length b < 12 -> ParseProtocolDataPayload b = Err EParamTooShortParse.
Proof. intros H. unfold ParseProtocolDataPayload. replace (length b <? 12) with true by lia. reflexivity. Qed.

Lemma ParsePD_cons c0 c1 c2 c3 c4 c5 c6 c7 si ni mp sls d :
  ParseProtocolDataPayload ([c0; c1; c2; c3; c4; c5; c6; c7; si; ni; mp; sls] ++ d)
  = Ok (mkPD (val [c0; c1; c2; c3]) (val [c4; c5; c6; c7]) si ni mp sls d).
Proof.
  unfold ParseProtocolDataPayload. cbn [app length]. 
  replace (S (S (S (S (S (S (S (S (S (S (S (S (length d)))))))))))) <? 12) with false by lia.
  unfold Uint32. rewrite !slice_ok by (cbn [length]; lia). cbn [bind Nat.add Nat.sub skipn firstn].
  rewrite !get_u32_val. unfold index. cbn [nth_error bind].
  rewrite firstn_all2 by lia. reflexivity.
Qed.

Lemma pd_bytes_length p : length (pd_bytes p) = 12 + length (pd_data p).
Proof. unfold pd_bytes. rewrite !app_length, !be_length. cbn [length]. lia. Qed.

Lemma ParsePD_bytes p :
  (pd_opc p < 4294967296)%N -> (pd_dpc p < 4294967296)%N ->
  ParseProtocolDataPayload (pd_bytes p) = Ok p.
Proof.
  intros H1 H2. unfold pd_bytes.
  assert (E : forall n, exists a b c d, be 4 n = [a; b; c; d]) by (intros; cbn [be app]; eauto).
  destruct (E (pd_opc p)) as (a & b & c & d & E1).
  destruct (E (pd_dpc p)) as (a' & b' & c' & d' & E2).
  rewrite E1, E2. cbn [app].
  pose proof (ParsePD_cons a b c d a' b' c' d' (pd_si p) (pd_ni p) (pd_mp p) (pd_sls p) (pd_data p)) as H.
  cbn [app] in H. rewrite H. rewrite <- E1, <- E2, !val_be4 by assumption. now destruct p.
Qed.

Lemma ProtocolData_new opc dpc si ni mp sls d :
  (opc < 4294967296)%N -> (dpc < 4294967296)%N ->
  ProtocolData (NewProtocolData opc dpc si ni mp sls d) = Ok (mkPD opc dpc si ni mp sls d).
Proof.
  intros H1 H2. rewrite NewProtocolData_eq. unfold ProtocolData. cbn [SetLength p_tag p_data].
  rewrite N.eqb_refl. now apply ParsePD_bytes.
Qed.

Lemma NewProtocolData_data opc dpc si ni mp sls d :
  length (p_data (NewProtocolData opc dpc si ni mp sls d)) = 12 + length d.
Proof. rewrite NewProtocolData_eq. cbn [SetLength p_data]. now rewrite pd_bytes_length. Qed.

Lemma ProtocolData_travels opc dpc si ni mp sls d :
  travels (NewProtocolData opc dpc si ni mp sls d) <-> (N.of_nat (length d) <= 65519)%N.
Proof.
  split; intros H.
  - apply travels_small in H. rewrite NewProtocolData_data in H. apply max_value_len_spec in H. lia.
  - rewrite NewProtocolData_eq. apply wf_travels, SetLength_wf; [reflexivity|].
    cbn [p_data]. rewrite pd_bytes_length. cbn [pd_data]. apply max_value_len_spec. lia.
Qed.

Lemma ProtocolData_any p :
  ProtocolData p =
  if negb (p_tag p =? tProtocolData)%N then Err EParamInvalidType
  else if length (p_data p) <? 12 then Err EParamTooShortParse
  else Ok (mkPD (val (firstn 4 (p_data p))) (val (firstn 4 (skipn 4 (p_data p))))
                (nth 8 (p_data p) x00) (nth 9 (p_data p) x00) (nth 10 (p_data p) x00)
                (nth 11 (p_data p) x00) (skipn 12 (p_data p))).
Proof.
  unfold ProtocolData. destruct (p_tag p =? tProtocolData)%N; [|reflexivity]. cbn [negb].
  destruct (length (p_data p) <? 12) eqn:E.
  { apply ParsePD_short. lia. }
  destruct (p_data p)
    as [|c0 [|c1 [|c2 [|c3 [|c4 [|c5 [|c6 [|c7 [|c8 [|c9 [|c10 [|c11 r]]]]]]]]]]]];
    cbn [length] in E; try lia.
  pose proof (ParsePD_cons c0 c1 c2 c3 c4 c5 c6 c7 c8 c9 c10 c11 r) as H. cbn [app] in H.
  rewrite H. reflexivity.
Qed.

(** ** Nested parameters *)
Lemma nested_body ps :
  Forall wf_param (present ps) -> nested_data ps = body_of (map tv (present ps)).
Proof.
  induction ps as [|[p|] ps IH]; cbn [present flat_map nested_data app]; intros H.
  - reflexivity.
  - inversion H as [|? ? Hp Hps]; subst. rewrite MarshalBinary_wf by assumption.
    rewrite IH by assumption. reflexivity.
  - apply IH, H.
Qed.

Lemma nested_parse ps :
  Forall wf_param (present ps) -> ParseMultiParams (nested_data ps) = Ok (present ps).
Proof.
  intros H. rewrite nested_body by assumption.
  rewrite (TLVs_ok _ _ (TLVs_body _ (wf_tv _ H))). now rewrite map_mk_tv.
Qed.

Lemma rk_all r :
  rk_tagged r ->
  rk_assign_all (mkRK None None None None None None None)
    (present [rk_lrki r; rk_rc r; rk_tmt r; rk_dpc r; rk_na r; rk_si r; rk_opcl r]) = Ok r.
Proof.
  destruct r as [a b c d e f g]. unfold rk_tagged, tagged.
  cbn [rk_lrki rk_rc rk_tmt rk_dpc rk_na rk_si rk_opcl].
  intros (Ha & Hb & Hc & Hd & He & Hf & Hg).
  destruct a, b, c, d, e, f, g;
    cbn [present flat_map app rk_assign_all];
    repeat match goal with
    | H : p_tag ?p = _ |- context [rk_assign _ ?p] =>
        unfold rk_assign at 1; rewrite H;
        cbn [N.eqb Pos.eqb tLocalRoutingKeyIdentifier tRoutingContext tTrafficModeType
             tDestinationPointCode tNetworkAppearance tServiceIndicators tOriginatingPointCodeList
             bind rk_lrki rk_rc rk_tmt rk_dpc rk_na rk_si rk_opcl rk_assign_all]
    end; reflexivity.
Qed.

Lemma RoutingKey_new r :
  rk_tagged r ->
  let l := present [rk_lrki r; rk_rc r; rk_tmt r; rk_dpc r; rk_na r; rk_si r; rk_opcl r] in
  Forall wf_param l ->
  RoutingKey (NewRoutingKey r) = if 3 <=? length l then Ok r else Err EParamInvalidLength.
Proof.
  intros Ht l W. unfold RoutingKey, NewRoutingKey, newNestedParam. cbn [SetLength p_tag p_data].
  rewrite N.eqb_refl. unfold ParseRoutingKeyPayload. rewrite nested_parse by exact W.
  cbn [bind]. fold l. destruct (3 <=? length l) eqn:E.
  - replace (length l <? 3) with false by lia. now apply rk_all.
  - replace (length l <? 3) with true by lia. reflexivity.
Qed.

Lemma RegistrationResult_new a b c :
  Forall wf_param (present [a; b; c]) ->
  RegistrationResult (NewRegistrationResult (mkRR a b c)) =
  match a, b, c with Some _, Some _, Some _ => Ok (mkRR a b c) | _, _, _ => Err EParamInvalidLength end.
Proof.
  intros W. unfold RegistrationResult, NewRegistrationResult, newNestedParam.
  cbn [SetLength p_tag p_data rr_lrki rr_status rr_rc].
  rewrite N.eqb_refl. unfold ParseRegistrationResultPayload. rewrite nested_parse by exact W.
  cbn [bind]. destruct a, b, c; reflexivity.
Qed.

Lemma DeregistrationResult_new a b :
  tagged tRoutingContext a -> tagged tDeregistrationStatus b ->
  Forall wf_param (present [a; b]) ->
  DeregistrationResult (NewDeregistrationResult (mkDR a b)) =
  match a, b with Some _, Some _ => Ok (mkDR a b) | _, _ => Err EParamInvalidLength end.
Proof.
  intros Ha Hb W. unfold DeregistrationResult, NewDeregistrationResult, newNestedParam.
  cbn [SetLength p_tag p_data dr_rc dr_status].
  rewrite N.eqb_refl. unfold ParseDeregResultPayload. rewrite nested_parse by exact W.
  cbn [bind]. destruct a, b; cbn in *; try reflexivity.
  unfold dr_assign. rewrite Ha, Hb. reflexivity.
Qed.

Lemma nested_travels t ps :
  (t < 65536)%N -> Forall wf_param (present ps) ->
  (travels (newNestedParam t ps) <-> length (body_of (map tv (present ps))) <= max_value_len).
Proof.
  intros H W. unfold newNestedParam. rewrite nested_body by assumption. split; intros H1.
  - now apply travels_small in H1.
  - apply wf_travels, SetLength_wf; assumption.
Qed.

(** ** Statements assembled for the property files *)
Lemma NewParam_wf tag d : length d <= max_value_len -> wf_param (NewParam tag d).
Proof. intros H. apply SetLength_wf; [cbn; lia|exact H]. Qed.

Lemma NewParam_full tag d rest :
  length d <= max_value_len ->
  exists bs, MarshalBinary (NewParam tag d) = Ok bs /\
             ParseParam (bs ++ rest) = Ok (NewParam tag d) /\
             p_tag (NewParam tag d) = Z.to_N (tag mod 65536) /\
             p_data (NewParam tag d) = d /\
             p_length (NewParam tag d) = N.of_nat (4 + length d).
Proof.
  intros H. destruct (NewParam_roundtrip tag d rest H) as (bs & H1 & H2).
  exists bs. repeat split; try assumption. apply (NewParam_wf tag d H).
Qed.

Lemma param_wire p :
  exists bs, MarshalBinary p = Ok bs /\
    bs = be 2 (p_tag p) ++ be 2 (p_length p) ++ p_data p ++ repeat x00 (pad_len (length (p_data p))) /\
    MarshalLen p = length bs /\ length bs mod 4 = 0 /\ pad_len (length (p_data p)) < 4.
Proof.
  pose proof (MarshalBinary_ok p) as H. eexists. split; [exact H|]. split; [reflexivity|].
  pose proof (MarshalBinary_length p _ H) as L. split; [now symmetry|].
  split; [rewrite L; apply MarshalLen_mod4|apply pad_len_lt].
Qed.

Lemma NewParam_oversize tag d :
  max_value_len < length d ->
  p_length (NewParam tag d) = (N.of_nat (4 + length d) mod 65536)%N /\
  exists bs, MarshalBinary (NewParam tag d) = Ok bs /\
    forall rest q, ParseParam (bs ++ rest) = Ok q -> p_data q <> d.
Proof.
  intros H. split; [reflexivity|]. pose proof (MarshalBinary_ok (NewParam tag d)) as E.
  eexists. split; [exact E|]. intros rest q Hq.
  exact (oversize_not_roundtrip (mkParam (Z.to_N (tag mod 65536)) 0 d) rest _ q H E Hq).
Qed.

Lemma ParseParam_exact b :
  ParseParam b =
  if length b <? 4 then Err EParamTooShortParse
  else let len := val (firstn 2 (skipn 2 b)) in
       if ((4 <=? len) && (len <=? N.of_nat (length b)))%N
       then Ok (mkParam (val (firstn 2 b)) len (firstn (N.to_nat len - 4) (skipn 4 b)))
       else Err EParamInvalidLength.
Proof.
  destruct (length b <? 4) eqn:E; [apply ParseParam_short; lia|].
  destruct (destruct4 b ltac:(lia)) as (b0 & b1 & b2 & b3 & r & ->).
  rewrite ParseParam_cons. reflexivity.
Qed.

Lemma Multi_grammar b :
  (forall ps, ParseMultiParams b = Ok ps <-> Forall wf_param ps /\ TLVs b (map tv ps)) /\
  ((exists ps, ParseMultiParams b = Ok ps) \/ ParseMultiParams b = Err EParamTooShortParse
   \/ ParseMultiParams b = Err EParamInvalidLength).
Proof. split; [intros ps; apply ParseMultiParams_iff|apply ParseMultiParams_outcome]. Qed.

Lemma uint32_accessors u :
  (u < 4294967296)%N ->
  (travels (NewAspIdentifier u) /\ AspIdentifier (NewAspIdentifier u) = u) /\
  (travels (NewCorrelationID u) /\ CorrelationID (NewCorrelationID u) = u) /\
  (travels (NewNetworkAppearance u) /\ NetworkAppearance (NewNetworkAppearance u) = u) /\
  (travels (NewLocalRoutingKeyIdentifier u)
     /\ LocalRoutingKeyIdentifier (NewLocalRoutingKeyIdentifier u) = u) /\
  (travels (NewRegistrationStatus u) /\ RegistrationStatus (NewRegistrationStatus u) = u) /\
  (travels (NewDeregistrationStatus u) /\ DeregistrationStatus (NewDeregistrationStatus u) = u) /\
  (travels (NewTrafficModeType u) /\ TrafficModeType (NewTrafficModeType u) = u) /\
  (travels (NewErrorCode u) /\ ErrorCode (NewErrorCode u) = u) /\
  (travels (NewStatus u) /\ Status (NewStatus u) = u).
Proof. intros H. repeat (split; [apply acc32_all; [reflexivity|exact H]|]). apply acc32_all; [reflexivity|exact H]. Qed.

Lemma small_accessors u b :
  (travels (NewConcernedDestination u)
     /\ ConcernedDestination (NewConcernedDestination u) = (u mod 16777216)%N) /\
  (travels (NewDestinationPointCode u)
     /\ DestinationPointCode (NewDestinationPointCode u) = (u mod 16777216)%N) /\
  (travels (NewCongestionIndications b) /\ CongestionLevel (NewCongestionIndications b) = b2n b).
Proof.
  split; [apply (acc24 tConcernedDestination); reflexivity|].
  split; [apply (acc24 tDestinationPointCode); reflexivity|].
  apply (acc8 tCongestionIndications); reflexivity.
Qed.

Lemma accessors_any p :
  let v tag := if (p_tag p =? tag)%N && (length (p_data p) =? 4) then val (p_data p) else 0%N in
  AspIdentifier p = v 17%N /\ CorrelationID p = v 19%N /\ NetworkAppearance p = v 0x200%N /\
  LocalRoutingKeyIdentifier p = v 0x20a%N /\ RegistrationStatus p = v 0x212%N /\
  DeregistrationStatus p = v 0x213%N /\ TrafficModeType p = v 11%N /\ ErrorCode p = v 12%N /\
  Status p = v 13%N /\ UserCause p = v 0x204%N /\
  ConcernedDestination p = (v 0x206 mod 16777216)%N /\
  DestinationPointCode p = (v 0x20b mod 16777216)%N /\
  CongestionLevel p = (v 0x205 mod 256)%N.
Proof.
  intros v. repeat (split; [first [apply acc32_any]|]).
  unfold ConcernedDestination, DestinationPointCode, CongestionLevel.
  rewrite (land_any 0xffffff 24), (land_any 0xff 8) by reflexivity. unfold v.
  unfold tConcernedDestination, tDestinationPointCode, tCongestionIndications.
  change (2 ^ 24)%N with 16777216%N. change (2 ^ 8)%N with 256%N.
  destruct (p_tag p =? 0x206)%N, (p_tag p =? 0x20b)%N, (p_tag p =? 0x205)%N; repeat split.
Qed.

Lemma string_accessors s :
  length s <= max_value_len ->
  (travels (NewInfoString s) /\ InfoString (NewInfoString s) = s) /\
  (travels (NewHeartbeatData s) /\ HeartbeatData (NewHeartbeatData s) = s) /\
  (travels (NewDiagnosticInformation s) /\ DiagnosticInformation (NewDiagnosticInformation s) = s).
Proof.
  intros H. repeat split; apply var_travels; try reflexivity; exact H.
Qed.

Lemma multi_values ux :
  Forall (fun u => (u < 4294967296)%N) ux ->
  RoutingContexts (NewRoutingContext ux) = ux /\
  AffectedPointCodes (NewAffectedPointCode ux) = ux /\
  OriginatingPointCodeList (NewOriginatingPointCodeList ux) = ux /\
  (travels (NewRoutingContext ux) <-> (N.of_nat (length ux) <= 16382)%N) /\
  (travels (NewAffectedPointCode ux) <-> (N.of_nat (length ux) <= 16382)%N) /\
  (travels (NewOriginatingPointCodeList ux) <-> (N.of_nat (length ux) <= 16382)%N).
Proof.
  intros H. unfold RoutingContexts, AffectedPointCodes, OriginatingPointCodeList,
    NewRoutingContext, NewAffectedPointCode, NewOriginatingPointCodeList.
  rewrite !multi32_tag, !N.eqb_refl, !multi32_roundtrip by exact H.
  repeat (split; [reflexivity|]).
  repeat (split; [apply multi32_travels_iff; reflexivity|]). apply multi32_travels_iff; reflexivity.
Qed.

Lemma first_value p :
  let first tag :=
    if negb (p_tag p =? tag)%N then Ok 0%N
    else if (length (p_data p) mod 4 =? 0) && (4 <=? length (p_data p))
         then Ok (val (firstn 4 (p_data p))) else Panic PIndex in
  RoutingContext p = first 6%N /\ AffectedPointCode p = first 18%N.
Proof.
  intros first. unfold first, RoutingContext, AffectedPointCode, tRoutingContext, tAffectedPointCode.
  split.
  - destruct (p_tag p =? 6)%N eqn:E; [|reflexivity]. apply N.eqb_eq in E.
    exact (first_word 6 p E).
  - destruct (p_tag p =? 18)%N eqn:E; [|reflexivity]. apply N.eqb_eq in E.
    exact (first_word 18 p E).
Qed.

Lemma ServiceIndicators_over si :
  exists k, 1 <= k <= 4 /\ (length si + k) mod 4 = 0 /\
    ServiceIndicators (NewServiceIndicators si) = si ++ repeat x00 k /\
    ServiceIndicators (NewServiceIndicators si) <> si.
Proof.
  exists (4 - length si mod 4). rewrite ServiceIndicators_new. split; [lia|]. split; [lia|].
  split; [reflexivity|]. intros E. apply (f_equal (@length byte)) in E.
  rewrite app_length, repeat_length in E. lia.
Qed.

Lemma ProtocolData_rt opc dpc si ni mp sls d :
  (opc < 4294967296)%N -> (dpc < 4294967296)%N ->
  ProtocolData (NewProtocolData opc dpc si ni mp sls d) = Ok (mkPD opc dpc si ni mp sls d) /\
  (travels (NewProtocolData opc dpc si ni mp sls d) <-> (N.of_nat (length d) <= 65519)%N).
Proof. intros H1 H2. split; [now apply ProtocolData_new|apply ProtocolData_travels]. Qed.

Lemma rr_untyped :
  exists p r, RegistrationResult p = Ok r /\
    (exists q, rr_lrki r = Some q /\ p_tag q <> tLocalRoutingKeyIdentifier) /\
    (exists q, rr_status r = Some q /\ p_tag q <> tRegistrationStatus).
Proof.
  exists (newNestedParam tRegistrationResult
            [Some (NewInfoString [x61]); Some (NewAspIdentifier 1); Some (NewErrorCode 2)]).
  eexists. split; [vm_compute; reflexivity|].
  split; eexists; (split; [reflexivity|vm_compute; discriminate]).
Qed.

(** ** Decoders of arbitrary parameters *)
Lemma words_exact d : length d mod 4 = 0 ->
  concat (map (be 4) (words d)) = d /\ Forall (fun u => (u < 4294967296)%N) (words d).
Proof.
  remember (length d) as n eqn:En. revert d En.
  induction n as [n IH] using lt_wf_ind. intros d -> H.
  destruct d as [|a [|b [|c [|e r]]]]; cbn [length] in H; try discriminate H.
  - split; [reflexivity|constructor].
  - cbn [words map concat]. destruct (IH (length r)) with (d := r) as [A B];
      [cbn [length]; lia|reflexivity| |].
    + cbn [length]. change (S (S (S (S (length r))))) with (4 + length r) in H. lia.
    + split; [|constructor; [|exact B]].
      * rewrite A. rewrite get_u32_val. pose proof (be_val [a; b; c; e]) as E. cbn [length] in E. rewrite E. reflexivity.
      * rewrite get_u32_val. apply (val_snoc_lt [a; b; c; e]).
Qed.

Lemma lists_any p :
  let s tag := if (p_tag p =? tag)%N then p_data p else [] in
  let ws tag (l : list N) :=
    if (p_tag p =? tag)%N && (length (p_data p) mod 4 =? 0)
    then concat (map (be 4) l) = p_data p /\ Forall (fun u => (u < 4294967296)%N) l
    else l = [] in
  InfoString p = s 4%N /\ DiagnosticInformation p = s 7%N /\ HeartbeatData p = s 9%N /\
  ServiceIndicators p = s 0x20c%N /\
  ws 6%N (RoutingContexts p) /\ ws 18%N (AffectedPointCodes p) /\
  ws 0x20e%N (OriginatingPointCodeList p).
Proof.
  intros s ws. do 4 (split; [reflexivity|]).
  unfold ws, RoutingContexts, AffectedPointCodes, OriginatingPointCodeList, decodeMultiUint32ValData.
  assert (G : forall t, if (p_tag p =? t)%N && (length (p_data p) mod 4 =? 0)
     then concat (map (be 4) (if (p_tag p =? t)%N then if length (p_data p) mod 4 =? 0 then words (p_data p) else [] else [])) = p_data p /\
          Forall (fun u => (u < 4294967296)%N) (if (p_tag p =? t)%N then if length (p_data p) mod 4 =? 0 then words (p_data p) else [] else [])
     else (if (p_tag p =? t)%N then if length (p_data p) mod 4 =? 0 then words (p_data p) else [] else []) = []).
  { intros t. destruct (p_tag p =? t)%N; cbn [andb]; [|reflexivity].
    destruct (length (p_data p) mod 4 =? 0) eqn:E; [|reflexivity].
    apply words_exact. now apply Nat.eqb_eq. }
  repeat split; apply G.
Qed.

Lemma decode32_lt p : (decodeUint32ValData p < 4294967296)%N.
Proof.
  unfold decodeUint32ValData. destruct (p_data p) as [|a [|b [|c [|d [|]]]]]; try reflexivity.
  rewrite get_u32_val. apply (val_snoc_lt [a; b; c; d]).
Qed.

Lemma halves_any p :
  let v tag := if (p_tag p =? tag)%N && (length (p_data p) =? 4) then val (p_data p) else 0%N in
  StatusType p = (v 13 / 65536)%N /\ StatusInfo p = (v 13 mod 65536)%N /\
  UnavailabilityCause p = (v 0x204 / 65536)%N /\ UserIdentity p = (v 0x204 mod 65536)%N.
Proof.
  intros v. unfold v. clear v.
  assert (V : decodeUint32ValData p = if length (p_data p) =? 4 then val (p_data p) else 0%N).
  { pose proof (acc32_any (p_tag p) p) as A. unfold acc32 in A. rewrite N.eqb_refl in A. exact A. }
  pose proof (decode32_lt p) as L.
  unfold StatusType, StatusInfo, UnavailabilityCause, UserIdentity, tStatus, tUserCause.
  assert (H1 : u16 (N.shiftr (decodeUint32ValData p) 16) = (decodeUint32ValData p / 65536)%N).
  { unfold u16. rewrite N.shiftr_div_pow2. change (2 ^ 16)%N with 65536%N. lia. }
  assert (H2 : u16 (N.land (decodeUint32ValData p) 0xffff) = (decodeUint32ValData p mod 65536)%N).
  { unfold u16. change 0xffff%N with (N.ones 16). rewrite N.land_ones. change (2 ^ 16)%N with 65536%N. lia. }
  rewrite H1, H2, V. clear.
  destruct (p_tag p =? 13)%N, (p_tag p =? 0x204)%N, (length (p_data p) =? 4); repeat split.
Qed.

(** later parameters of the same tag win *)
Definition or_else (o o' : option param) : option param := match o with Some p => Some p | None => o' end.
Lemma last_with_cons t p ps :
  last_with t (p :: ps) = or_else (last_with t ps) (if (p_tag p =? t)%N then Some p else None).
Proof.
  unfold last_with. cbn [rev].
  assert (F : forall l, find (fun q => (p_tag q =? t)%N) (l ++ [p]) =
    or_else (find (fun q => (p_tag q =? t)%N) l) (if (p_tag p =? t)%N then Some p else None)).
  { induction l as [|x l IH]; cbn [app find or_else]; [reflexivity|].
    destruct (p_tag x =? t)%N; [reflexivity|exact IH]. }
  apply F.
Qed.

Definition rk_tags : list N := [0x20a; 6; 11; 0x20b; 0x200; 0x20c; 0x20e]%N.
Lemma rk_assign_all_exact ps : forall r,
  rk_assign_all r ps =
  if forallb (fun q => existsb (N.eqb (p_tag q)) rk_tags) ps then
    Ok (mkRK (or_else (last_with 0x20a ps) (rk_lrki r)) (or_else (last_with 6 ps) (rk_rc r))
             (or_else (last_with 11 ps) (rk_tmt r)) (or_else (last_with 0x20b ps) (rk_dpc r))
             (or_else (last_with 0x200 ps) (rk_na r)) (or_else (last_with 0x20c ps) (rk_si r))
             (or_else (last_with 0x20e ps) (rk_opcl r)))
  else Err EParamInvalidType.
Proof.
  induction ps as [|p ps IH]; intros r; cbn [rk_assign_all forallb].
  - destruct r; reflexivity.
  - rewrite !last_with_cons. unfold rk_assign, rk_tags at 1.
    unfold tLocalRoutingKeyIdentifier, tRoutingContext, tTrafficModeType, tDestinationPointCode,
      tNetworkAppearance, tServiceIndicators, tOriginatingPointCodeList.
    cbn [existsb].
    repeat match goal with |- context [if (p_tag p =? ?t)%N then Ok _ else _] =>
      destruct (p_tag p =? t)%N eqn:?;
      [ match goal with H : (p_tag p =? ?t)%N = true |- _ => apply N.eqb_eq in H; try rewrite H end;
        cbn [N.eqb Pos.eqb orb andb bind]; rewrite IH;
        cbn [rk_lrki rk_rc rk_tmt rk_dpc rk_na rk_si rk_opcl];
        match goal with |- context [forallb ?f ps] => destruct (forallb f ps) end; [|reflexivity];
        repeat match goal with |- context [last_with ?u ps] => destruct (last_with u ps) end;
        reflexivity
      | ] end.
    reflexivity.
Qed.

Lemma rk_tags_Forall ps :
  forallb (fun q => existsb (N.eqb (p_tag q)) rk_tags) ps = true <->
  Forall (fun q => In (p_tag q) rk_tags) ps.
Proof.
  rewrite forallb_forall, Forall_forall. split; intros H x Hx; specialize (H x Hx).
  - apply existsb_exists in H as (y & Hy & E). apply N.eqb_eq in E. now rewrite E.
  - apply existsb_exists. exists (p_tag x). split; [exact H|apply N.eqb_refl].
Qed.

Lemma RoutingKey_exact p r :
  RoutingKey p = Ok r <-> p_tag p = 0x207%N /\ rk_read (p_data p) r.
Proof.
  unfold RoutingKey, tRoutingKey. destruct (p_tag p =? 0x207)%N eqn:E.
  2: { apply N.eqb_neq in E. split; [discriminate|]. intros [H _]. congruence. }
  apply N.eqb_eq in E. unfold ParseRoutingKeyPayload. split.
  - intros H. split; [exact E|]. destruct (ParseMultiParams (p_data p)) as [ps| |] eqn:P; cbn [bind] in H; try discriminate.
    apply ParseMultiParams_iff in P as [W T].
    destruct (length ps <? 3) eqn:L; [discriminate|]. rewrite rk_assign_all_exact in H.
    destruct (forallb _ ps) eqn:F; [|discriminate]. apply rk_tags_Forall in F.
    cbn [rk_lrki rk_rc rk_tmt rk_dpc rk_na rk_si rk_opcl] in H. injection H as <-.
    exists ps. split; [exact W|]. split; [exact T|]. split; [lia|]. split; [exact F|].
    repeat match goal with |- context [last_with ?u ps] => destruct (last_with u ps) end; reflexivity.
  - intros (_ & ps & W & T & L & F & ->).
    assert (P : ParseMultiParams (p_data p) = Ok ps) by (apply ParseMultiParams_iff; now split).
    rewrite P. cbn [bind]. replace (length ps <? 3) with false by lia.
    rewrite rk_assign_all_exact. apply rk_tags_Forall in F. rewrite F.
    cbn [rk_lrki rk_rc rk_tmt rk_dpc rk_na rk_si rk_opcl].
    repeat match goal with |- context [last_with ?u ps] => destruct (last_with u ps) end; reflexivity.
Qed.

Lemma RegistrationResult_exact p r :
  RegistrationResult p = Ok r <-> p_tag p = 0x208%N /\ rr_read (p_data p) r.
Proof.
  unfold RegistrationResult, tRegistrationResult. destruct (p_tag p =? 0x208)%N eqn:E.
  2: { apply N.eqb_neq in E. split; [discriminate|]. intros [H _]. congruence. }
  apply N.eqb_eq in E. unfold ParseRegistrationResultPayload. split.
  - intros H. split; [exact E|]. destruct (ParseMultiParams (p_data p)) as [ps| |] eqn:P; cbn [bind] in H; try discriminate.
    apply ParseMultiParams_iff in P as [W T].
    destruct ps as [|a [|b [|c [|]]]]; try discriminate. injection H as <-.
    now exists a, b, c.
  - intros (_ & a & b & c & W & T & ->).
    assert (P : ParseMultiParams (p_data p) = Ok [a; b; c]) by (apply ParseMultiParams_iff; now split).
    rewrite P. reflexivity.
Qed.

Lemma DeregistrationResult_exact p r :
  DeregistrationResult p = Ok r <-> p_tag p = 0x209%N /\ dr_read (p_data p) r.
Proof.
  unfold DeregistrationResult, tDeregistrationResult. destruct (p_tag p =? 0x209)%N eqn:E.
  2: { apply N.eqb_neq in E. split; [discriminate|]. intros [H _]. congruence. }
  apply N.eqb_eq in E. unfold ParseDeregResultPayload.
  assert (A : forall a b, fold_left dr_assign [a; b] (mkDR None None) =
                mkDR (last_with 6 [a; b]) (last_with 0x213 [a; b])).
  { intros a b. unfold last_with. cbn [fold_left rev app find]. unfold dr_assign, tRoutingContext, tDeregistrationStatus.
    destruct (p_tag a =? 6)%N eqn:A1; destruct (p_tag b =? 6)%N eqn:B1;
    try (apply N.eqb_eq in A1; rewrite A1; cbn [N.eqb Pos.eqb]);
    try (apply N.eqb_eq in B1; rewrite B1; cbn [N.eqb Pos.eqb]);
    repeat match goal with |- context [(p_tag ?x =? 0x213)%N] => destruct (p_tag x =? 0x213)%N end;
    reflexivity. }
  split.
  - intros H. split; [exact E|]. destruct (ParseMultiParams (p_data p)) as [ps| |] eqn:P; cbn [bind] in H; try discriminate.
    apply ParseMultiParams_iff in P as [W T].
    destruct ps as [|a [|b [|]]]; cbn [length Nat.eqb] in H; try discriminate.
    rewrite A in H. injection H as <-. now exists a, b.
  - intros (_ & a & b & W & T & ->).
    assert (P : ParseMultiParams (p_data p) = Ok [a; b]) by (apply ParseMultiParams_iff; now split).
    rewrite P. cbn [bind length Nat.eqb]. now rewrite A.
Qed.

Lemma nested_no_panic p :
  (forall k, RoutingKey p <> Panic k) /\ (forall k, RegistrationResult p <> Panic k) /\
  (forall k, DeregistrationResult p <> Panic k).
Proof.
  unfold RoutingKey, RegistrationResult, DeregistrationResult, ParseRoutingKeyPayload,
    ParseRegistrationResultPayload, ParseDeregResultPayload.
  destruct (ParseMultiParams_outcome (p_data p)) as [[ps ->]|[->| ->]]; cbn [bind].
  - repeat split; intros k.
    + destruct (_ =? _)%N; [|discriminate]. destruct (_ <? _); [discriminate|].
      rewrite rk_assign_all_exact. destruct (forallb _ _); discriminate.
    + destruct (_ =? _)%N; [|discriminate]. destruct ps as [|a [|b [|c [|]]]]; discriminate.
    + destruct (_ =? _)%N; [|discriminate]. destruct (_ =? _); discriminate.
  - repeat split; intros k; destruct (_ =? _)%N; discriminate.
  - repeat split; intros k; destruct (_ =? _)%N; discriminate.
Qed.

(** the errors of the nested decoders *)
Lemma nested_errors p :
  ((p_tag p <> 0x207%N -> RoutingKey p = Err EParamInvalidType) /\
   (p_tag p <> 0x208%N -> RegistrationResult p = Err EParamInvalidType) /\
   (p_tag p <> 0x209%N -> DeregistrationResult p = Err EParamInvalidType)) /\
  (forall e, ParseMultiParams (p_data p) = Err e ->
   (p_tag p = 0x207%N -> RoutingKey p = Err e) /\ (p_tag p = 0x208%N -> RegistrationResult p = Err e) /\
   (p_tag p = 0x209%N -> DeregistrationResult p = Err e)) /\
  (forall ps, ParseMultiParams (p_data p) = Ok ps ->
   (p_tag p = 0x207%N -> length ps < 3 -> RoutingKey p = Err EParamInvalidLength) /\
   (p_tag p = 0x207%N -> 3 <= length ps -> ~ Forall (fun q => In (p_tag q) rk_tags) ps -> RoutingKey p = Err EParamInvalidType) /\
   (p_tag p = 0x208%N -> length ps <> 3 -> RegistrationResult p = Err EParamInvalidLength) /\
   (p_tag p = 0x209%N -> length ps <> 2 -> DeregistrationResult p = Err EParamInvalidLength)).
Proof.
  unfold RoutingKey, RegistrationResult, DeregistrationResult, tRoutingKey, tRegistrationResult, tDeregistrationResult.
  unfold ParseRoutingKeyPayload, ParseRegistrationResultPayload, ParseDeregResultPayload.
  split; [|split].
  - repeat split; intros H; apply N.eqb_neq in H; rewrite H; reflexivity.
  - intros e E. rewrite E. repeat split; intros ->; reflexivity.
  - intros ps E. rewrite E. cbn [bind]. repeat split; intros ->; cbn [N.eqb Pos.eqb].
    + intros L. now replace (length ps <? 3) with true by lia.
    + intros L NF. replace (length ps <? 3) with false by lia. rewrite rk_assign_all_exact.
      destruct (forallb _ ps) eqn:F; [|reflexivity]. apply rk_tags_Forall in F. contradiction.
    + intros L. destruct ps as [|? [|? [|? [|? ?]]]]; cbn [length] in L; try reflexivity. now contradiction L.
    + intros L. apply Nat.eqb_neq in L. now rewrite L.
Qed.
