(** Lemmas about the texts of values and the deprecated names. *)
From Verif Require Import GoBase ParamsModel MessagesModel ReuseModel PcModel TextModel WireSpec ParamsSpec MsgSpec PcSpec TextSpec
  BaseProofs ParamsProofs MessagesProofs MessagesProofs2 ReuseSpec ReuseProofs PcProofs.
From Coq Require Import Arith Lia Strings.String.
Open Scope nat_scope.
Open Scope list_scope.
Opaque max_value_len.

(** * Numbers *)
Lemma fmt_d_num n : (n < 4294967296)%N -> num n (fmt_d n).
Proof. exact (Itoa_spec n). Qed.
Lemma num_fun n n' s : num n s -> num n' s -> n = n'.
Proof. intros [(_ & _ & A) _] [(_ & _ & B) _]. congruence. Qed.
Lemma hexdigit_val n : (n < 16)%N -> hexval (hexdigit n) = Some n.
Proof.
  intros H. assert (I : In n (map N.of_nat (seq 0 16))) by (apply in_map_iff; exists (N.to_nat n); split; [lia|apply in_seq; lia]).
  cbn in I. intuition (subst; reflexivity).
Qed.
Lemma fmt_x_hexes b : hexes b (fmt_x b).
Proof.
  induction b as [|x b IH]; [constructor|]. unfold fmt_x. cbn [flat_map app]. pose proof (b2n_lt x).
  econstructor; [apply hexdigit_val; apply N.div_lt_upper_bound; lia|apply hexdigit_val; apply N.mod_lt; lia| |exact IH].
  apply N.div_mod; lia.
Qed.
Lemma hexes_fun b b' s : hexes b s -> hexes b' s -> b = b'.
Proof.
  intros H. revert b'. induction H as [|x b c d h l s Hc Hd Hx _ IH]; intros b' H'; inversion H'; subst; [reflexivity|].
  f_equal; [|auto]. apply b2n_inj. replace h0 with h in * by congruence. replace l0 with l in * by congruence. congruence.
Qed.
Lemma hexes_digits b s : hexes b s -> Forall (fun c => hexval c <> None) s.
Proof. induction 1; constructor; [congruence|]. constructor; [congruence|auto]. Qed.
Lemma fmt_sharp_hexnum x : exists s, hexnum x s /\ fmt_sharp_x x = lit "0x" ++ s.
Proof. destruct x; eexists; (split; [|reflexivity]); (split; [discriminate|]); (split; [repeat constructor; discriminate|]); (split; [reflexivity|]); intros c r E H; inversion E; subst; try reflexivity; discriminate. Qed.
Lemma hexnum_fun x y s : hexnum x s -> hexnum y s -> x = y.
Proof. intros (_ & _ & A & _) (_ & _ & B & _). apply b2n_inj. congruence. Qed.

(** * Texts have the stated form *)
Lemma Param_shows o : (forall p, o = Some p -> param_fits p) -> shows_param o (Param_String o).
Proof.
  destruct o as [p|]; intros H; [|reflexivity]. destruct (H p eq_refl) as [A B]. exists (fmt_d (p_tag p)), (fmt_d (p_length p)), (fmt_x (p_data p)).
  split; [apply fmt_d_num; lia|]. split; [apply fmt_d_num; lia|]. split; [apply fmt_x_hexes|reflexivity].
Qed.
Lemma byte_num x : num (b2n x) (fmt_d (b2n x)).
Proof. apply fmt_d_num. pose proof (b2n_lt x). lia. Qed.
Lemma Payload_shows p : (pd_opc p < 4294967296)%N -> (pd_dpc p < 4294967296)%N -> shows_payload p (Payload_String p).
Proof.
  intros A B. exists (fmt_d (pd_opc p)), (fmt_d (pd_dpc p)), (fmt_d (b2n (pd_si p))), (fmt_d (b2n (pd_ni p))), (fmt_d (b2n (pd_mp p))), (fmt_d (b2n (pd_sls p))), (fmt_x (pd_data p)).
  do 2 (split; [apply fmt_d_num; assumption|]). do 4 (split; [apply byte_num|]). split; [apply fmt_x_hexes|reflexivity].
Qed.
Lemma Header_shows h : (h_length h < 4294967296)%N -> shows_header h (Header_String h).
Proof.
  intros A. destruct (fmt_sharp_hexnum (h_reserved h)) as (r & R & E).
  exists (fmt_d (b2n (h_version h))), r, (fmt_d (b2n (h_class h))), (fmt_d (b2n (h_type h))), (fmt_d (h_length h)), (fmt_x (h_payload h)).
  split; [apply byte_num|]. split; [exact R|]. do 2 (split; [apply byte_num|]). split; [apply fmt_d_num; assumption|]. split; [apply fmt_x_hexes|].
  unfold Header_String. rewrite E. reflexivity.
Qed.
Lemma fields_shows m : (forall f p, fget f (m_f m) = Some p -> param_fits p) -> forall l,
  Forall (fun x => tag_label (field_tag (snd x)) = fst x) l ->
  shows_params m (map (fun x => field_tag (snd x)) l) (fields_String l (m_f m)).
Proof.
  intros F l H. induction H as [|[s f] l E H IH]; [constructor|]. unfold fields_String. cbn [flat_map map fst snd] in *. rewrite <- app_assoc, <- E.
  apply sp_cons with (f := f); [reflexivity|apply Param_shows; eauto|exact IH].
Qed.
Lemma text_table t : match text_fields (go_type t) with
  | None => header_only t
  | Some l => ~ header_only t /\ map (fun x => field_tag (snd x)) l = rfc_params t /\ Forall (fun x => tag_label (field_tag (snd x)) = fst x) l
  end.
Proof.
  unfold header_only.
  destruct t; cbn [go_type text_fields]; try (cbn; tauto);
    (split; [cbn; intuition discriminate|]); (split; [reflexivity|]); repeat constructor.
Qed.
Lemma msg_shows t m : m_kind m = go_type t -> msg_fits m -> ~ header_only t -> exists s, m3_String (Typed m) = Ok s /\ shows_msg t m s.
Proof.
  intros K [L F] N. unfold m3_String, value_String. cbn [v_hdr v_kind v_f]. rewrite K. pose proof (text_table t) as T.
  destruct (text_fields (go_type t)) as [l|]; [|contradiction]. destruct T as (_ & T & E). eexists; split; [reflexivity|].
  exists (Header_String (m_hdr m)), (fields_String l (m_f m)). split; [apply Header_shows; exact L|]. split; [|reflexivity].
  rewrite <- T. apply fields_shows; auto.
Qed.
Lemma msg_header_only t m : m_kind m = go_type t -> (h_length (m_hdr m) < 4294967296)%N -> header_only t ->
  exists s, m3_String (Typed m) = Ok s /\ shows_header (m_hdr m) s.
Proof.
  intros K L N. unfold m3_String, value_String. cbn [v_hdr v_kind v_f]. rewrite K. pose proof (text_table t) as T.
  destruct (text_fields (go_type t)) as [l|]; [tauto|]. eexists; split; [reflexivity|]. apply Header_shows; exact L.
Qed.
Lemma spaced_shows ps : Forall param_fits ps -> shows_list ps (spaced (map (fun p => Param_String (Some p)) ps)).
Proof.
  assert (Q : forall p, param_fits p -> shows_param (Some p) (Param_String (Some p))) by (intros; apply Param_shows; intros ? [= <-]; assumption).
  intros F. induction F as [|p ps P H IH]; [constructor|]. destruct ps as [|p2 ps]; [apply sl_one, Q, P|].
  change (spaced (map (fun p => Param_String (Some p)) (p :: p2 :: ps))) with
    (Param_String (Some p) ++ lit " " ++ spaced (map (fun p => Param_String (Some p)) (p2 :: ps))).
  constructor; auto. discriminate.
Qed.
Lemma gen_shows g : gen_fits g -> exists s, m3_String (Gen g) = Ok s /\ shows_generic g s.
Proof.
  intros [L F]. eexists; split; [reflexivity|]. exists (Header_String (g_hdr g)), (spaced (map (fun p => Param_String (Some p)) (g_params g))).
  split; [apply Header_shows; exact L|]. split; [apply spaced_shows; exact F|]. cbn [gv_params gv_hdr]. unfold fmt_s_slice.
  change (txt ", Params: ") with (lit ", Params: "). change (lit ", Params: [") with (lit ", Params: " ++ [x5b]). change (lit "]}") with ([x5d] ++ lit "}").
  change (x5b :: ?s ++ [x5d]) with ([x5b] ++ s ++ [x5d]). rewrite <- !app_assoc. reflexivity.
Qed.

(** * A text determines the value *)
Lemma span (p : byte -> Prop) s t c c' r r' : Forall p s -> Forall p t -> ~ p c -> ~ p c' -> s ++ c :: r = t ++ c' :: r' -> s = t /\ c :: r = c' :: r'.
Proof.
  intros A. revert t. induction A as [|x s X A IH]; intros [|y t] B C C' E; cbn [app] in E.
  - auto.
  - inversion B; subst. inversion E; subst. contradiction.
  - inversion E; subst. contradiction.
  - inversion B; subst. inversion E; subst. destruct (IH t) as [-> ?]; auto.
Qed.
Lemma span_lit (p : byte -> Prop) c l s t r r' : Forall p s -> Forall p t -> ~ p c -> s ++ (c :: l) ++ r = t ++ (c :: l) ++ r' -> s = t /\ r = r'.
Proof.
  intros A B C E. destruct (span p s t c c (l ++ r) (l ++ r') A B C C E) as [? E']. split; [assumption|]. injection E' as E'. eapply app_inv_head, E'.
Qed.
Lemma num_digits n s : num n s -> Forall is_digit s.
Proof. intros [(_ & H & _) _]. exact H. Qed.
Lemma comma_digit : ~ is_digit x2c. Proof. unfold is_digit. vm_compute. intuition congruence. Qed.
Lemma num_lit n n' s t l r r' : num n s -> num n' t -> s ++ (x2c :: l) ++ r = t ++ (x2c :: l) ++ r' -> n = n' /\ r = r'.
Proof.
  intros A B E. destruct (span_lit is_digit x2c l s t r r') as [-> ?]; eauto using num_digits, comma_digit. split; [eapply num_fun; eauto|assumption].
Qed.
Lemma hexes_lit b b' s t c l r r' : hexval c = None -> hexes b s -> hexes b' t -> s ++ (c :: l) ++ r = t ++ (c :: l) ++ r' -> b = b' /\ r = r'.
Proof.
  intros C A B E. destruct (span_lit (fun c => hexval c <> None) c l s t r r') as [-> ?]; eauto using hexes_digits. split; [eapply hexes_fun; eauto|assumption].
Qed.
Lemma hexnum_lit b b' s t c l r r' : hexval c = None -> hexnum b s -> hexnum b' t -> s ++ (c :: l) ++ r = t ++ (c :: l) ++ r' -> b = b' /\ r = r'.
Proof.
  intros C A B E. destruct (span_lit (fun c => hexval c <> None) c l s t r r') as [-> ?]; auto; [apply A|apply B|]. split; [eapply hexnum_fun; eauto|assumption].
Qed.
Ltac peel_lit E := rewrite <- ?app_assoc in E; apply app_inv_head in E.
Ltac peel_num E A B H := let E' := fresh in destruct (num_lit _ _ _ _ _ _ _ A B E) as [H E']; clear E; rename E' into E.
Lemma param_some_det p p' s t r r' : shows_param (Some p) s -> shows_param (Some p') t -> s ++ r = t ++ r' -> p = p' /\ r = r'.
Proof.
  intros (a & b & c & A & B & C & ->) (a' & b' & c' & A' & B' & C' & ->) E. peel_lit E. rewrite <- ?app_assoc in E.
  peel_num E A A' H1. peel_num E B B' H2. destruct (hexes_lit _ _ _ _ x7d [] _ _ eq_refl C C' E) as [H3 E'].
  split; [|exact E']. destruct p, p'; cbn in *; congruence.
Qed.
Lemma param_det o o' s t c c' r r' : shows_param o s -> shows_param o' t -> c <> x7b -> c' <> x7b -> s ++ c :: r = t ++ c' :: r' -> o = o' /\ c :: r = c' :: r'.
Proof.
  intros A B C C' E. destruct o as [p|], o' as [p'|].
  - destruct (param_some_det _ _ _ _ _ _ A B E) as [-> ?]. auto.
  - destruct A as (? & ? & ? & _ & _ & _ & ->). cbn [shows_param] in B. subst t. exfalso. apply C'. now inversion E.
  - destruct B as (? & ? & ? & _ & _ & _ & ->). cbn [shows_param] in A. subst s. exfalso. apply C. now inversion E.
  - cbn [shows_param] in A, B. subst. auto.
Qed.
Lemma header_det h h' s t r r' : shows_header h s -> shows_header h' t -> s ++ r = t ++ r' -> h = h' /\ r = r'.
Proof.
  intros (a & b & c & d & e & f & A & B & C & D & G & F & ->) (a' & b' & c' & d' & e' & f' & A' & B' & C' & D' & G' & F' & ->) E.
  peel_lit E. rewrite <- ?app_assoc in E. peel_num E A A' H1.
  destruct (hexnum_lit _ _ _ _ x2c _ _ _ eq_refl B B' E) as [H2 E2]. clear E. rename E2 into E.
  peel_num E C C' H3. peel_num E D D' H4. peel_num E G G' H5. destruct (hexes_lit _ _ _ _ x7d [] _ _ eq_refl F F' E) as [H6 E'].
  split; [|exact E']. apply b2n_inj in H1, H3, H4. destruct h, h'; cbn in *; congruence.
Qed.
Lemma payload_det p p' s : shows_payload p s -> shows_payload p' s -> p = p'.
Proof.
  intros (a & b & c & d & e & f & x & A & B & C & D & G & F & X & ->) (a' & b' & c' & d' & e' & f' & x' & A' & B' & C' & D' & G' & F' & X' & E).
  peel_lit E. peel_num E A A' H1. peel_num E B B' H2. peel_num E C C' H3. peel_num E D D' H4. peel_num E G G' H5. peel_num E F F' H6.
  rewrite <- (app_nil_r (x ++ _)), <- (app_nil_r (x' ++ _)), <- !app_assoc in E.
  destruct (hexes_lit _ _ _ _ x7d [] _ _ eq_refl X X' E) as [H7 _]. apply b2n_inj in H3, H4, H5, H6. destruct p, p'; cbn in *; congruence.
Qed.
Lemma field_tag_inj f g : field_tag f = field_tag g -> f = g.
Proof. destruct f, g; cbn; congruence. Qed.
Lemma label_head f : exists l, tag_label (field_tag f) = x2c :: l.
Proof. destruct f; eexists; reflexivity. Qed.
Lemma shows_params_head m tags s r : shows_params m tags s -> exists c q, s ++ lit "}" ++ r = c :: q /\ c <> x7b.
Proof.
  intros [|tag tags' f s' r' T P Q]; [exists x7d, r; split; [reflexivity|discriminate]|]. subst tag. destruct (label_head f) as [l ->].
  eexists x2c, _. split; [reflexivity|discriminate].
Qed.
Lemma params_det m m' tags : forall s s' r r', shows_params m tags s -> shows_params m' tags s' -> s ++ lit "}" ++ r = s' ++ lit "}" ++ r' ->
  Forall (fun tag => forall f, field_tag f = tag -> fget f (m_f m) = fget f (m_f m')) tags /\ r = r'.
Proof.
  induction tags as [|tag tags IH]; intros s s' r r' A B E.
  - inversion A; inversion B; subst. split; [constructor|]. inversion E; auto.
  - inversion A as [|? ? f p q T P Q]; inversion B as [|? ? f' p' q' T' P' Q']; subst. pose proof (field_tag_inj _ _ T') as ->.
    peel_lit E. destruct (shows_params_head _ _ _ r Q) as (c & x & E1 & C). destruct (shows_params_head _ _ _ r' Q') as (c' & x' & E2 & C').
    rewrite E1, E2 in E. destruct (param_det _ _ _ _ _ _ _ _ P P' C C' E) as [G E3]. rewrite <- E1, <- E2 in E3.
    destruct (IH _ _ _ _ Q Q' E3) as [H ->]. split; [|reflexivity]. constructor; [|exact H]. intros g Hg. apply field_tag_inj in Hg. subst. exact G.
Qed.
Lemma msg_det t m m' s : shows_msg t m s -> shows_msg t m' s ->
  m_hdr m = m_hdr m' /\ forall f, In (field_tag f) (rfc_params t) -> fget f (m_f m) = fget f (m_f m').
Proof.
  intros (h & p & A & B & ->) (h' & p' & A' & B' & E). peel_lit E. destruct (header_det _ _ _ _ _ _ A A' E) as [H E']. split; [exact H|].
  rewrite <- (app_nil_r (lit "}")) in E'. destruct (params_det _ _ _ _ _ _ _ B B' E') as [F _]. rewrite Forall_forall in F. eauto.
Qed.
Lemma shows_list_inv p ps s : shows_list (p :: ps) s -> exists a b, shows_param (Some p) a /\ s = a ++ b /\
  ((ps = [] /\ b = []) \/ (ps <> [] /\ exists r, b = lit " " ++ r /\ shows_list ps r)).
Proof. intros H. inversion H; subst; [exists s, []; rewrite app_nil_r; auto|]. exists s0, (lit " " ++ r). eauto 8. Qed.
Lemma list_det ps : forall ps' s s' r r', shows_list ps s -> shows_list ps' s' -> s ++ lit "]}" ++ r = s' ++ lit "]}" ++ r' -> ps = ps' /\ r = r'.
Proof.
  assert (N : forall p ps s, shows_list (p :: ps) s -> exists q, s = x7b :: q).
  { intros p qs s H. apply shows_list_inv in H as (a & b & (? & ? & ? & _ & _ & _ & ->) & -> & _). eexists; reflexivity. }
  induction ps as [|p ps IH]; intros [|p' ps'] s s' r r' A B E.
  - inversion A; inversion B; subst. split; [reflexivity|]. now inversion E.
  - inversion A; subst. destruct (N _ _ _ B) as [q ->]. discriminate.
  - inversion B; subst. destruct (N _ _ _ A) as [q ->]. discriminate.
  - apply shows_list_inv in A as (a & b & P & -> & D), B as (a' & b' & P' & -> & D').
    rewrite <- !app_assoc in E. destruct (param_some_det _ _ _ _ _ _ P P' E) as [-> E'].
    destruct D as [[-> ->]|(_ & q & -> & Q)], D' as [[-> ->]|(_ & q' & -> & Q')]; try discriminate.
    + split; [reflexivity|]. now inversion E'.
    + peel_lit E'. destruct (IH _ _ _ _ _ Q Q' E') as [-> ->]. auto.
Qed.
Lemma generic_det g g' s : shows_generic g s -> shows_generic g' s -> g = g'.
Proof.
  intros (h & p & A & B & ->) (h' & p' & A' & B' & E). peel_lit E. destruct (header_det _ _ _ _ _ _ A A' E) as [H E']. peel_lit E'.
  rewrite <- (app_nil_r (lit "]}")) in E'. destruct (list_det _ _ _ _ _ _ B B' E') as [F _]. destruct g, g'; cbn in *; congruence.
Qed.

(** * Decoded messages *)
Lemma header_String_det h h' r r' : (h_length h < 4294967296)%N -> (h_length h' < 4294967296)%N -> Header_String h ++ r = Header_String h' ++ r' -> h = h' /\ r = r'.
Proof. intros A B. eapply header_det; apply Header_shows; assumption. Qed.
Lemma m3_String_start m : exists r, m3_String m = Ok (lit "{Header: " ++ Header_String (hdr_of m) ++ r) \/ m3_String m = Ok (Header_String (hdr_of m)).
Proof.
  destruct m as [[k h f]|[h ps]]; cbn [m3_String value_String gvalue_String v_hdr v_kind v_f gv_hdr gv_params m_kind m_hdr m_f g_hdr g_params hdr_of].
  - unfold value_String. cbn [v_hdr v_kind v_f]. destruct (text_fields k); [eexists; left; reflexivity|exists []; right; reflexivity].
  - eexists; left; reflexivity.
Qed.
Lemma m3_String_det m m' s : (h_length (hdr_of m) < 4294967296)%N -> (h_length (hdr_of m') < 4294967296)%N -> m3_String m = Ok s -> m3_String m' = Ok s -> hdr_of m = hdr_of m'.
Proof.
  intros L L' A B. destruct (m3_String_start m) as (r & [E|E]), (m3_String_start m') as (r' & [E'|E']); rewrite E in A; rewrite E' in B; injection A as A; injection B as B; subst s.
  - apply (f_equal (skipn 9)) in B. change (skipn 9 (lit "{Header: " ++ ?x)) with x in B. symmetry. exact (proj1 (header_String_det _ _ _ _ L' L B)).
  - apply (f_equal (fun l => nth_error l 1)) in B. (change (Some x48 = Some x56) in B || change (Some x56 = Some x48) in B). discriminate.
  - apply (f_equal (fun l => nth_error l 1)) in B. (change (Some x48 = Some x56) in B || change (Some x56 = Some x48) in B). discriminate.
  - symmetry. refine (proj1 (header_String_det _ _ [] [] L' L _)). rewrite !app_nil_r. exact B.
Qed.
Lemma Parse_hdr b m : Parse b = Ok m -> ParseHeader b = Ok (hdr_of m).
Proof.
  unfold Parse. destruct (List.length b <? 4); [discriminate|]. destruct (GoBase.index b 2) as [c| |]; cbn [bind]; try discriminate. destruct (GoBase.index b 3) as [t| |]; cbn [bind]; try discriminate.
  destruct (dispatch c t) as [k|].
  - unfold msg_Unmarshal. destruct (ParseHeader b) as [h| |]; cbn [bind]; try discriminate. destruct (ParseMultiParams _) as [ps| |]; cbn [bind]; try discriminate.
    destruct (assign_all k no_fields ps) as [s| |]; cbn [bind]; try discriminate. intros [= <-]. reflexivity.
  - unfold gen_Unmarshal. destruct (ParseHeader b) as [h| |]; cbn [bind]; try discriminate. destruct (ParseMultiParams _) as [ps| |]; cbn [bind]; try discriminate.
    intros [= <-]. reflexivity.
Qed.
Lemma packet_text b b' m m' s : Parse b = Ok m -> Parse b' = Ok m' -> m3_String m = Ok s -> m3_String m' = Ok s -> b = b'.
Proof.
  intros A B S S'. apply Parse_hdr, ParseHeader_inv in A as [L E], B as [L' E']. pose proof (m3_String_det _ _ _ L L' S S') as H. congruence.
Qed.

(** * Names *)
Lemma names_kind k k' : kind_TypeName k = kind_TypeName k' -> k = k'.
Proof. destruct k, k'; cbn; congruence. Qed.
Lemma names_class k k' : kind_ClassName k = kind_ClassName k' <-> kind_class k = kind_class k'.
Proof. destruct k, k'; cbn; split; intros H; try reflexivity; discriminate. Qed.

(** * Deprecated names *)
Lemma deprecated_own x b : own_deprecated (v_kind x) = true ->
  value_Serialize x = value_MarshalBinary x /\ value_SerializeTo x b = value_MarshalTo x b /\
  value_DecodeFromBytes x b = value_UnmarshalBinary x b /\ value_Len x = Ok (value_MarshalLen x).
Proof. intros H. unfold value_Serialize, value_SerializeTo, value_DecodeFromBytes, value_Len. rewrite H. auto. Qed.
Definition value_of (m : msg) : value := mkValue (m_kind m) (Some (m_hdr m)) (m_f m).
Lemma value_MarshalBinary_of m m' b : m3_MarshalBinary (Typed m) = Ok (Typed m', b) -> value_MarshalBinary (value_of m) = Ok (value_of m', b) /\ m_kind m' = m_kind m.
Proof.
  unfold m3_MarshalBinary, m3_MarshalTo, value_MarshalBinary, value_MarshalTo. cbn [m3_MarshalLen].
  change (value_MarshalLen (value_of m)) with (msg_MarshalLen m). destruct (List.length (zeros (msg_MarshalLen m)) <? msg_MarshalLen m) eqn:L.
  - unfold msg_MarshalTo. rewrite L. discriminate.
  - cbn [v_hdr value_of v_kind v_f]. replace (mkMsg (m_kind m) (m_hdr m) (m_f m)) with m by (destruct m; reflexivity).
    destruct (msg_MarshalTo m (zeros (msg_MarshalLen m))) as [[m1 b1]| |] eqn:E; cbn [bind]; try discriminate. intros [= <- <-]. split; [reflexivity|].
    unfold msg_MarshalTo in E. rewrite L in E. destruct (marshal_params _ _ _) as [pl| |]; cbn [bind] in E; try discriminate.
    destruct (Header_MarshalTo _ _) as [b2| |]; cbn [bind] in E; try discriminate. injection E as <- <-. reflexivity.
Qed.
Lemma Parse_Unmarshal b m : Parse b = Ok (Typed m) -> msg_Unmarshal (m_kind m) b = Ok m.
Proof.
  unfold Parse. destruct (List.length b <? 4); [discriminate|]. destruct (GoBase.index b 2) as [c| |]; cbn [bind]; try discriminate. destruct (GoBase.index b 3) as [t| |]; cbn [bind]; try discriminate.
  destruct (dispatch c t) as [k|].
  - destruct (msg_Unmarshal k b) as [m1| |] eqn:E; cbn [bind]; try discriminate. intros [= <-]. assert (m_kind m1 = k); [|congruence].
    unfold msg_Unmarshal in E. destruct (ParseHeader b) as [h| |]; cbn [bind] in E; try discriminate. destruct (ParseMultiParams _) as [ps| |]; cbn [bind] in E; try discriminate.
    destruct (assign_all k no_fields ps) as [s| |]; cbn [bind] in E; try discriminate. injection E as <-. reflexivity.
  - destruct (gen_Unmarshal b); cbn [bind]; discriminate.
Qed.
Lemma Unmarshal_zero k b m : msg_Unmarshal k b = Ok m -> value_UnmarshalBinary (zero_value k) b = (mkValue k (Some (m_hdr m)) (m_f m), Ok tt).
Proof.
  intros E. pose proof (value_Parse_eq k b) as P. rewrite E in P. unfold value_Parse in P. destruct (value_UnmarshalBinary (zero_value k) b) as [x [[]| |]]; cbn [bind] in P; try discriminate.
  injection P as ->. reflexivity.
Qed.
Lemma deprecated_roundtrip t slots m : t <> SCON -> t <> DUPU -> roundtrips t slots m ->
  let body := body_for (present slots) in
  let bs := packet x01 x00 (rfc_class t) (rfc_type t) (N.of_nat (8 + List.length body)) body in
  exists x y, value_Serialize (value_of m) = Ok (x, bs) /\ value_Len (value_of m) = Ok (List.length bs) /\
    value_SerializeTo (value_of m) (zeros (List.length bs)) = Ok (x, bs) /\
    value_DecodeFromBytes (zero_value (go_type t)) bs = (y, Ok tt) /\ slots_are t (v_f y) (map (option_map SetLength) slots).
Proof.
  intros N1 N2 R body bs. destruct R as (m' & M & L & P & K & F & _). fold body in M, L, P. fold bs in M, L, P.
  destruct (value_MarshalBinary_of _ _ _ M) as [V E]. pose proof (Parse_Unmarshal _ _ P) as U. rewrite K in U.
  assert (O : own_deprecated (go_type t) = true) by (destruct t; try reflexivity; congruence).
  assert (O' : own_deprecated (v_kind (value_of m)) = true) by (cbn [value_of v_kind]; rewrite <- E, K; exact O).
  exists (value_of m'), (mkValue (go_type t) (Some (m_hdr m')) (m_f m')).
  destruct (deprecated_own (value_of m) (zeros (List.length bs)) O') as (A & B & _ & D). destruct (deprecated_own (zero_value (go_type t)) bs O) as (_ & _ & C & _).
  rewrite A, B, C, D. split; [exact V|]. split; [f_equal; exact L|]. split.
  - rewrite <- L. exact V.
  - split; [apply Unmarshal_zero; exact U|exact F].
Qed.
(** the two types without deprecated methods of their own *)
Lemma promoted x h b : own_deprecated (v_kind x) = false -> v_hdr x = Some h ->
  value_Serialize x = Ok (x, packet (h_version h) (h_reserved h) (h_class h) (h_type h) (h_length h) (h_payload h)) /\
  value_Len x = Ok (8 + List.length (h_payload h)) /\ v_f (fst (value_DecodeFromBytes x b)) = v_f x.
Proof.
  intros O H. unfold value_Serialize, value_Len, value_DecodeFromBytes. rewrite O, H. split; [|split; [reflexivity|]].
  - unfold Header_MarshalBinary. assert (Z : List.length (zeros (Header_MarshalLen h)) = Header_MarshalLen h) by apply repeat_length.
    rewrite Header_MarshalTo_ok by lia. rewrite skipn_all2 by lia. rewrite app_nil_r. reflexivity.
  - destruct (ParseHeader b); reflexivity.
Qed.
Lemma promoted_zero k b : own_deprecated k = false -> 8 <= List.length b -> value_DecodeFromBytes (zero_value k) b = (zero_value k, Panic PNil).
Proof.
  intros O L. unfold value_DecodeFromBytes, zero_value. cbn [v_kind v_hdr]. rewrite O. destruct (destruct8 b L) as (b0 & b1 & b2 & b3 & b4 & b5 & b6 & b7 & r & ->).
  rewrite ParseHeader_cons. reflexivity.
Qed.
