(** Proofs about re-used and edited message values (ReuseModel.v). *)
From Verif Require Import GoBase ParamsModel MessagesModel ReuseModel WireSpec ParamsSpec MsgSpec ReuseSpec
  BaseProofs ParamsProofs AccessorProofs MessagesProofs MessagesProofs2.
From Coq Require Import Arith Lia ZifyBool ZifyNat ZifyN.
Ltac Zify.zify_post_hook ::= Z.div_mod_to_equations.
Open Scope nat_scope.
Opaque max_value_len.

Lemma reuse_short x b :
  length b < 8 ->
  exists x', value_UnmarshalBinary x b = (x', Err EMsgTooShortParse) /\
    v_kind x' = v_kind x /\ v_f x' = v_f x /\
    value_Version x' = Panic PNil /\ value_MarshalBinary x' = Panic PNil /\
    value_SetLength x' = Panic PNil.
Proof.
  intros H. unfold value_UnmarshalBinary. rewrite ParseHeader_short by exact H.
  eexists. split; [reflexivity|]. cbn [v_kind v_f]. do 2 (split; [reflexivity|]).
  split; [reflexivity|]. split; [|reflexivity].
  unfold value_MarshalBinary, value_MarshalTo. rewrite zeros_length, Nat.ltb_irrefl. reflexivity.
Qed.

Lemma reuse_bad_body x v r c ty len body e :
  (len < 4294967296)%N -> ParseMultiParams body = Err e ->
  value_UnmarshalBinary x (packet v r c ty len body)
  = (mkValue (v_kind x) (Some (mkHeader v r c ty len body)) (v_f x), Err e).
Proof.
  intros Hl E. unfold value_UnmarshalBinary. rewrite ParseHeader_packet by exact Hl.
  cbn [h_payload]. rewrite E. reflexivity.
Qed.

Lemma assign_loop_spec k ps : forall s,
  exists pre rest s' r,
    assign_loop k s ps = (s', r) /\ ps = pre ++ rest /\
    Forall (fun p => In (p_tag p) (map field_tag (marshal_order k))) pre /\
    (rest = [] /\ r = Ok tt \/
     exists q rest', rest = q :: rest' /\ ~ In (p_tag q) (map field_tag (marshal_order k)) /\
       r = Err EMsgInvalidParameter) /\
    forall f, fget f s' =
      if in_dec field_eq_dec f (marshal_order k) then merge k s pre f else fget f s.
Proof.
  induction ps as [|p ps IH]; intros s.
  - exists [], [], s, (Ok tt). split; [reflexivity|]. split; [reflexivity|]. split; [constructor|].
    split; [now left|]. intros f. unfold merge. cbn.
    destruct (in_dec field_eq_dec f (marshal_order k)); reflexivity.
  - cbn [assign_loop]. destruct (lookup_case (p_tag p) (unmarshal_cases k)) as [g|] eqn:E.
    + apply lookup_order in E as [Eg Et].
      destruct (IH (fset g (Some p) s)) as (pre & rest & s' & r & A & B & C & D & F).
      exists (p :: pre), rest, s', r. split; [exact A|]. split; [cbn; now rewrite B|].
      split; [constructor; [rewrite Et; now apply in_map|exact C]|]. split; [exact D|].
      intros f. rewrite F. unfold merge. rewrite last_with_cons.
      destruct (in_dec field_eq_dec f (marshal_order k)) as [HI|HI].
      * destruct (last_with (field_tag f) pre); [reflexivity|].
        destruct (field_eq_dec f g) as [->|Hn].
        -- rewrite fget_fset_same. replace (p_tag p =? field_tag g)%N with true by lia. reflexivity.
        -- rewrite fget_fset_other by assumption.
           destruct (p_tag p =? field_tag f)%N eqn:E2; [|reflexivity].
           exfalso. apply Hn, field_tag_inj. lia.
      * apply fget_fset_other. intros ->. contradiction.
    + apply lookup_none in E. exists [], (p :: ps), s, (Err EMsgInvalidParameter).
      split; [reflexivity|]. split; [reflexivity|]. split; [constructor|].
      split; [right; eauto|]. intros f. unfold merge. cbn.
      destruct (in_dec field_eq_dec f (marshal_order k)); reflexivity.
Qed.

Lemma reuse_body t x v r c ty len body ps :
  v_kind x = go_type t -> (len < 4294967296)%N -> ParseMultiParams body = Ok ps ->
  exists pre rest x' res,
    value_UnmarshalBinary x (packet v r c ty len body) = (x', res) /\
    ps = pre ++ rest /\
    Forall (fun p => In (p_tag p) (rfc_params t)) pre /\
    (rest = [] /\ res = Ok tt \/
     exists q rest', rest = q :: rest' /\ ~ In (p_tag q) (rfc_params t) /\
       res = Err EMsgInvalidParameter) /\
    v_kind x' = v_kind x /\ v_hdr x' = Some (mkHeader v r c ty len body) /\
    forall f, In (field_tag f) (rfc_params t) ->
      fget f (v_f x') =
      match last_with (field_tag f) pre with Some p => Some p | None => fget f (v_f x) end.
Proof.
  intros K Hl E. unfold value_UnmarshalBinary. rewrite ParseHeader_packet by exact Hl.
  cbn [h_payload v_kind v_f]. rewrite E, K.
  destruct (assign_loop_spec (go_type t) ps (v_f x)) as (pre & rest & s' & rr & A & B & C & D & F).
  rewrite rfc_order in C, D.
  exists pre, rest, (mkValue (go_type t) (Some (mkHeader v r c ty len body)) s'), rr.
  rewrite A. split; [reflexivity|]. split; [exact B|]. split; [exact C|]. split; [exact D|].
  split; [reflexivity|]. split; [reflexivity|].
  intros f Hf. cbn [v_f]. rewrite F.
  destruct (in_dec field_eq_dec f (marshal_order (go_type t))) as [i|n]; [reflexivity|].
  contradiction n. now apply in_order_tag.
Qed.

Lemma assign_loop_all k ps : forall s,
  assign_all k s ps =
  match assign_loop k s ps with (s', Ok _) => Ok s' | (_, Err e) => Err e | (_, Panic p) => Panic p end.
Proof.
  induction ps as [|p ps IH]; intros s; [reflexivity|]. cbn [assign_all assign_loop].
  destruct (lookup_case (p_tag p) (unmarshal_cases k)); [apply IH|reflexivity].
Qed.

Lemma value_Parse_eq k b :
  value_Parse k b =
  let! m := msg_Unmarshal k b in Ok (mkValue k (Some (m_hdr m)) (m_f m)).
Proof.
  unfold value_Parse, value_UnmarshalBinary, msg_Unmarshal, zero_value.
  destruct (ParseHeader b) as [h|e|p]; cbn [bind]; try reflexivity. cbn [v_kind v_f].
  destruct (ParseMultiParams (h_payload h)) as [ps|e|p]; cbn [bind]; try reflexivity.
  rewrite assign_loop_all. destruct (assign_loop k no_fields ps) as [s [[]|e|p]]; reflexivity.
Qed.

Lemma greuse x v r c ty len body :
  (len < 4294967296)%N ->
  (forall ps, ParseMultiParams body = Ok ps ->
     gvalue_UnmarshalBinary x (packet v r c ty len body)
     = (mkGValue (Some (mkHeader v r c ty len body)) (gv_params x ++ ps), Ok tt)) /\
  (forall e, ParseMultiParams body = Err e ->
     gvalue_UnmarshalBinary x (packet v r c ty len body)
     = (mkGValue (Some (mkHeader v r c ty len body)) (gv_params x), Err e)).
Proof.
  intros Hl. split; intros z E; unfold gvalue_UnmarshalBinary; rewrite ParseHeader_packet by exact Hl;
    cbn [h_payload]; rewrite E; reflexivity.
Qed.
Lemma greuse_short x b :
  length b < 8 -> gvalue_UnmarshalBinary x b = (mkGValue None (gv_params x), Err EMsgTooShortParse).
Proof. intros H. unfold gvalue_UnmarshalBinary. now rewrite ParseHeader_short. Qed.

(** ** Parameters *)
Lemma preuse p b :
  (length b < 4 -> param_UnmarshalBinary p b = (p, Err EParamTooShortParse)) /\
  (4 <= length b ->
   let t := val (firstn 2 b) in let l := val (firstn 2 (skipn 2 b)) in
   param_UnmarshalBinary p b =
   if ((4 <=? l) && (l <=? N.of_nat (length b)))%N
   then (mkParam t l (firstn (N.to_nat l - 4) (skipn 4 b)), Ok tt)
   else (mkParam t l (p_data p), Err EParamInvalidLength)).
Proof.
  split; intros H.
  - unfold param_UnmarshalBinary. replace (length b <? 4) with true by lia. reflexivity.
  - destruct b as [|b0 [|b1 [|b2 [|b3 r]]]]; cbn in H; try lia.
    cbv zeta. cbn [firstn skipn].
    unfold param_UnmarshalBinary. cbn [length].
    replace (S (S (S (S (length r)))) <? 4) with false by lia.
    unfold Uint16. rewrite !slice_ok by (cbn [length]; lia). cbn [bind Nat.add Nat.sub skipn firstn].
    rewrite !get_u16_val.
    set (l := val [b2; b3]).
    destruct ((S (S (S (S (length r)))) <? N.to_nat l) || (l <? 4)%N) eqn:E.
    + replace ((4 <=? l) && (l <=? N.of_nat (S (S (S (S (length r)))))))%N with false by lia. reflexivity.
    + replace ((4 <=? l) && (l <=? N.of_nat (S (S (S (S (length r)))))))%N with true by lia.
      rewrite slice_ok by (cbn [length]; lia). reflexivity.
Qed.

(** ** Edited values *)

Lemma slots_eq t fs slots :
  slots_are t fs slots -> map (fun f => fget f fs) (marshal_order (go_type t)) = slots.
Proof.
  unfold slots_are. rewrite <- rfc_order. revert slots.
  induction (marshal_order (go_type t)) as [|f l IH]; cbn [map]; intros slots H; inversion H; subst.
  - reflexivity.
  - f_equal; auto.
Qed.

Lemma value_MarshalBinary_eq k h fs :
  value_MarshalBinary (mkValue k (Some h) fs) =
  Ok (mkValue k (Some (set_payload h (m_body (mkMsg k h fs)))) fs,
      hdr_bytes (set_payload h (m_body (mkMsg k h fs)))).
Proof.
  unfold value_MarshalBinary, value_MarshalTo. cbn [v_hdr].
  change (value_MarshalLen (mkValue k (Some h) fs)) with (msg_MarshalLen (mkMsg k h fs)).
  rewrite zeros_length, Nat.ltb_irrefl. cbn [v_kind v_f].
  rewrite msg_MarshalTo_ok by (rewrite zeros_length; lia). cbn [bind m_kind m_hdr m_f].
  rewrite skipn_all2 by (rewrite zeros_length; lia). rewrite app_nil_r. reflexivity.
Qed.

Lemma edited_bytes t h fs slots :
  slots_are t fs slots ->
  exists x', value_MarshalBinary (mkValue (go_type t) (Some h) fs) =
    Ok (x', packet (h_version h) (h_reserved h) (h_class h) (h_type h) (h_length h)
              (flat_map as_stored (present slots))).
Proof.
  intros S. rewrite value_MarshalBinary_eq. eexists. f_equal. f_equal.
  unfold hdr_bytes, set_payload, m_body, slots_of.
  cbn [h_version h_reserved h_class h_type h_length h_payload m_f m_kind].
  rewrite (slots_eq _ _ _ S), flat_map_concat_map. reflexivity.
Qed.

Lemma set_slots t fs slots :
  slots_are t fs slots ->
  map (fun f => fget f (setlen_fs (go_type t) fs)) (marshal_order (go_type t))
  = map (option_map SetLength) slots.
Proof.
  intros S. rewrite <- (slots_eq _ _ _ S), map_map. apply map_ext_in. intros f Hf.
  unfold setlen_fs. rewrite setlen_get, setlen_is_order.
  destruct (in_dec field_eq_dec f (marshal_order (go_type t))); [reflexivity|contradiction].
Qed.

Lemma present_opt_map (g : param -> param) slots : present (map (option_map g) slots) = map g (present slots).
Proof.
  induction slots as [|[p|] l IH]; [reflexivity| |]; cbn [map option_map present flat_map app];
    unfold present in IH; rewrite IH; reflexivity.
Qed.

Lemma present_slot_ok tags : forall slots,
  Forall (fun t => (t < 65536)%N) tags -> Forall2 slot_ok tags slots ->
  Forall wf_param (map SetLength (present slots)).
Proof.
  induction tags as [|t tags IH]; intros slots T H; inversion H as [|? o ? slots' Ho Hs]; subst;
    [constructor|]. inversion T; subst.
  destruct o as [p|]; cbn [present flat_map app map].
  - constructor; [|now apply IH]. destruct Ho as [Ht Hd]. apply SetLength_wf; [|exact Hd]. now rewrite Ht.
  - now apply IH.
Qed.

Lemma rfc_params_lt t : Forall (fun t => (t < 65536)%N) (rfc_params t).
Proof. rewrite <- rfc_order. apply Forall_forall. intros n H. apply in_map_iff in H as (f & <- & _). apply field_tag_lt. Qed.

Lemma edited_setlength t h fs slots :
  slots_are t fs slots -> Forall2 slot_ok (rfc_params t) slots ->
  let body := body_for (present slots) in
  exists x x',
    value_SetLength (mkValue (go_type t) (Some h) fs) = Ok x /\
    value_MarshalBinary x =
      Ok (x', packet (h_version h) (h_reserved h) (h_class h) (h_type h) (N.of_nat (8 + length body)) body) /\
    v_f x' = v_f x /\ slots_are t (v_f x) (map (option_map SetLength) slots).
Proof.
  intros S SO body.
  set (fs' := setlen_fs (go_type t) fs).
  assert (W : Forall wf_param (map SetLength (present slots)))
    by exact (present_slot_ok _ _ (rfc_params_lt t) SO).
  assert (B : concat (map pwire (present (map (fun f => fget f fs') (marshal_order (go_type t))))) = body).
  { unfold fs'. rewrite (set_slots _ _ _ S), present_opt_map.
    rewrite pwire_body by exact W. apply body_set. }
  assert (LB : (N.of_nat (8 + length body) < 4294967296)%N).
  { pose proof (body_bound (map SetLength (present slots)) 6) as BB.
    assert (L6 : length (map SetLength (present slots)) <= 6).
    { rewrite map_length. pose proof (present_length slots) as P.
      rewrite <- (slots_eq _ _ _ S), map_length in P. pose proof (order_short (go_type t)) as O.
      rewrite <- (slots_eq _ _ _ S). lia. }
    specialize (BB W L6). rewrite body_set in BB. unfold body, body_for. lia. }
  eexists (mkValue (go_type t)
     (Some (mkHeader (h_version h) (h_reserved h) (h_class h) (h_type h) (N.of_nat (8 + length body)) (h_payload h)))
     fs'), _.
  split; [|split; [|split]].
  - unfold value_SetLength. cbn [v_hdr v_kind v_f]. unfold msg_SetLength.
    cbn [m_kind m_hdr m_f]. fold (setlen_fs (go_type t) fs). fold fs'.
    rewrite msg_MarshalLen_sum, sum_len_length. unfold slots_of. cbn [m_f m_kind]. rewrite B.
    rewrite u32_small by exact LB. reflexivity.
  - rewrite value_MarshalBinary_eq. f_equal. f_equal.
    unfold hdr_bytes, set_payload, m_body, slots_of.
    cbn [h_version h_reserved h_class h_type h_length h_payload m_f m_kind]. rewrite B. reflexivity.
  - reflexivity.
  - cbn [v_f]. unfold slots_are. rewrite <- (set_slots _ _ _ S). fold fs'. rewrite <- rfc_order.
    generalize (marshal_order (go_type t)) as l. induction l as [|f l IH]; cbn [map]; constructor; [|exact IH].
    intros g E. apply field_tag_inj in E. now subst.
Qed.

(** ** Typed decoders *)
Lemma value_Parse_packet t v r c ty len body :
  (len < 4294967296)%N ->
  (forall l, TLVs body l -> Forall (fun x => In (fst x) (rfc_params t)) l ->
     exists x, value_Parse (go_type t) (packet v r c ty len body) = Ok x /\
       v_kind x = go_type t /\ v_hdr x = Some (mkHeader v r c ty len body) /\
       forall f, fget f (v_f x) =
         if in_dec N.eq_dec (field_tag f) (rfc_params t)
         then last_with (field_tag f) (map (fun x => mkParam (fst x) (N.of_nat (4 + length (snd x))) (snd x)) l)
         else None) /\
  ((~ exists l, TLVs body l /\ Forall (fun x => In (fst x) (rfc_params t)) l) ->
   exists e, value_Parse (go_type t) (packet v r c ty len body) = Err e).
Proof.
  intros Hl. rewrite value_Parse_eq. unfold msg_Unmarshal. rewrite ParseHeader_packet by exact Hl.
  cbn [bind h_payload]. split.
  - intros l T A. rewrite (TLVs_ok _ _ T). cbn [bind].
    assert (A' : Forall (fun p => In (p_tag p) (map field_tag (marshal_order (go_type t)))) (map mk l)).
    { rewrite rfc_order. apply Forall_forall. intros p Hp. apply in_map_iff in Hp as (x & <- & Hx).
      rewrite Forall_forall in A. exact (A x Hx). }
    destruct (assign_all_ok _ _ no_fields A') as (s & -> & F). cbn [bind m_hdr m_f].
    eexists. split; [reflexivity|]. cbn [v_kind v_hdr v_f]. do 2 (split; [reflexivity|]).
    intros f. rewrite F. unfold merge. rewrite fget_no. fold mk.
    destruct (in_dec field_eq_dec f (marshal_order (go_type t))) as [i|n];
      destruct (in_dec N.eq_dec (field_tag f) (rfc_params t)) as [i'|n'].
    + change (map (fun x => mkParam (fst x) (N.of_nat (4 + length (snd x))) (snd x)) l) with (map mk l).
      destruct (last_with (field_tag f) (map mk l)); reflexivity.
    + contradiction n'. now apply in_order_tag.
    + contradiction n. now apply in_order_tag.
    + reflexivity.
  - intros N. destruct (ParseMultiParams_outcome body) as [[ps E]|[-> | ->]]; cbn [bind]; eauto.
    rewrite E. cbn [bind]. pose proof (proj1 (ParseMultiParams_iff _ _) E) as [_ T].
    destruct (allowed_dec (go_type t) ps) as [A|A].
    + contradiction N. exists (map tv ps). split; [exact T|]. rewrite rfc_order in A.
      apply Forall_forall. intros x Hx. apply in_map_iff in Hx as (p & <- & Hp).
      rewrite Forall_forall in A. exact (A p Hp).
    + rewrite (assign_all_err _ _ no_fields A). cbn [bind]. eauto.
Qed.

(** ** Views *)
Lemma skipn_add (b : list byte) : forall n m, skipn n (skipn m b) = skipn (m + n) b.
Proof.
  induction b as [|x b IH]; intros n m; [now rewrite !skipn_nil|].
  destruct m; [reflexivity|]. cbn [skipn Nat.add]. apply IH.
Qed.

Lemma firstn_skipn_slice (b : list byte) i n m :
  firstn n (skipn m (skipn i b)) = firstn n (skipn (i + m) b).
Proof. now rewrite skipn_add. Qed.

Lemma ParseParam_view b p :
  ParseParam b = Ok p ->
  p_data p = firstn (length (p_data p)) (skipn 4 b) /\
  4 + length (p_data p) <= length b /\ p_length p = N.of_nat (4 + length (p_data p)).
Proof.
  unfold ParseParam. destruct (length b <? 4) eqn:H4; [discriminate|].
  destruct (Uint16 b 0) as [t| |]; cbn [bind]; try discriminate.
  destruct (Uint16 b 2) as [l| |]; cbn [bind]; try discriminate.
  destruct ((length b <? N.to_nat l) || (l <? 4)%N) eqn:HL; [discriminate|].
  rewrite slice_ok by lia. cbn [bind]. intros E. injection E as <-. cbn [p_data p_length].
  assert (L : length (firstn (N.to_nat l - 4) (skipn 4 b)) = N.to_nat l - 4).
  { rewrite firstn_length, skipn_length. lia. }
  change (match b with _ :: _ :: _ :: _ :: l3 => l3 | _ => [] end) with (skipn 4 b) in *.
  rewrite L. split; [reflexivity|]. lia.
Qed.


Lemma views_loop fuel : forall b off acc accp,
  off <= length b ->
  match ParseMulti_loop fuel (skipn off b) accp, ParseViews_loop fuel b off acc with
  | Ok ps, Ok ws => exists new, ws = acc ++ new /\ ps = accp ++ map (see b) new /\ chain off new (length b)
  | Err e, Err e' => e = e'
  | _, _ => False
  end.
Proof.
  induction fuel as [|fuel IH]; intros b off acc accp Ho; cbn [ParseMulti_loop ParseViews_loop].
  { reflexivity. }
  rewrite skipn_length. destruct (length b - off =? 0) eqn:E0.
  { exists []. rewrite !app_nil_r. now repeat split. }
  destruct (ParseParam (skipn off b)) as [p|e|q] eqn:EP; cbn [bind]; try reflexivity.
  2:{ exfalso. unfold ParseParam in EP. destruct (length (skipn off b) <? 4) eqn:H4; [discriminate|].
      unfold Uint16 in EP. rewrite !slice_ok in EP by lia.
      destruct (skipn off b) as [|c0 [|c1 [|c2 [|c3 r]]]]; cbn in H4; try lia.
      cbn [bind Nat.sub Nat.add skipn firstn] in EP.
      destruct (_ || _) eqn:HL in EP; [discriminate|]. rewrite slice_ok in EP by lia. discriminate. }
  destruct (ParseParam_view _ _ EP) as (D & L & PL). rewrite skipn_length in L.
  assert (S1 : see b (mkView (p_tag p) (p_length p) (off + 4) (length (p_data p))) = p).
  { unfold see. cbn [w_tag w_length w_off w_len]. rewrite <- firstn_skipn_slice, <- D. now destruct p. }
  assert (AD : N.to_nat (p_length p) + Padding p = 4 + length (p_data p) + pad_len (length (p_data p))).
  { rewrite Padding_pad. lia. }
  destruct (length b - off <? N.to_nat (p_length p) + Padding p) eqn:EA.
  - eexists [_]. split; [reflexivity|]. split; [cbn [map]; now rewrite S1|].
    cbn [chain w_off w_len]. split; [reflexivity|]. split; [lia|exact I].
  - rewrite slice_ok by (rewrite ?skipn_length; lia). cbn [bind].
    rewrite firstn_all2 by (rewrite !skipn_length; lia). rewrite skipn_add.
    specialize (IH b (off + (N.to_nat (p_length p) + Padding p))
      (acc ++ [mkView (p_tag p) (p_length p) (off + 4) (length (p_data p))]) (accp ++ [p])).
    set (X := ParseMulti_loop fuel _ _) in *. set (Y := ParseViews_loop fuel _ _ _) in *.
    clearbody X Y. destruct X as [ps|e|q]; destruct Y as [ws|e'|q']; try (apply IH; lia).
    destruct IH as (new & A & B & C); [lia|].
    eexists (_ :: new). split; [rewrite A, <- app_assoc; reflexivity|].
    split; [rewrite B, <- app_assoc; cbn [app map]; now rewrite S1|].
    cbn [chain w_off w_len]. split; [reflexivity|]. split; [lia|].
    replace (off + 4 + length (p_data p) + pad_len (length (p_data p)))
      with (off + (N.to_nat (p_length p) + Padding p)) by lia. exact C.
Qed.

Lemma views_ok b :
  match ParseMultiParams b, ParseViews b with
  | Ok ps, Ok ws => ps = map (see b) ws /\ chain 0 ws (length b)
  | Err e, Err e' => e = e'
  | _, _ => False
  end.
Proof.
  pose proof (views_loop (S (length b)) b 0 [] [] (Nat.le_0_l _)) as H.
  cbn [skipn] in H. unfold ParseMultiParams, ParseViews.
  set (X := ParseMulti_loop _ _ _) in *. set (Y := ParseViews_loop _ _ _ _) in *.
  clearbody X Y. destruct X, Y; try exact H.
  destruct H as (new & -> & -> & C). now split.
Qed.

Lemma views_overwritten b b' ps :
  ParseMultiParams b = Ok ps ->
  exists ws, ParseViews b = Ok ws /\ map (see b) ws = ps /\
    (length b' = length b ->
     Forall2 (fun w p => p_tag (see b' w) = p_tag p /\ p_length (see b' w) = p_length p /\
                length (p_data (see b' w)) = length (p_data p) /\
                p_data (see b' w) = firstn (length (p_data p)) (skipn (w_off w) b')) ws ps).
Proof.
  intros E. pose proof (views_ok b) as H. rewrite E in H.
  destruct (ParseViews b) as [ws|e|q]; try contradiction. destruct H as [-> C].
  exists ws. split; [reflexivity|]. split; [reflexivity|]. intros L.
  clear E. revert C. generalize 0 as lo. induction ws as [|w ws IH]; cbn [map chain]; intros lo C; constructor.
  - destruct C as (C1 & C2 & _). unfold see. cbn [p_tag p_length p_data].
    rewrite !firstn_length, !skipn_length.
    replace (Nat.min (w_len w) (length b - w_off w)) with (w_len w) by lia.
    split; [reflexivity|]. split; [reflexivity|]. split; [lia|reflexivity].
  - destruct C as (_ & _ & C). exact (IH _ C).
Qed.
