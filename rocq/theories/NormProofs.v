(** Decoding a packet and encoding it again. *)
From Verif Require Import GoBase BaseProofs ParamsModel MessagesModel WireSpec ParamsSpec MsgSpec ParamsProofs
  MessagesProofs MessagesProofs2 NormSpec.
From Coq Require Import Arith Lia.
Open Scope nat_scope.
Opaque max_value_len.

Lemma last_value_with tag l : last_with tag (map mk l) = option_map (fun v => mk (tag, v)) (last_value tag l).
Proof.
  induction l as [|[t v] l IH]; [reflexivity|]. cbn [map]. rewrite last_with_cons, IH. cbn [last_value].
  destruct (last_value tag l); [reflexivity|]. cbn [option_map mk p_tag fst].
  destruct (t =? tag)%N eqn:E; [|reflexivity]. apply N.eqb_eq in E. subst. reflexivity.
Qed.
Lemma last_value_in tag l v : last_value tag l = Some v -> In (tag, v) l.
Proof.
  induction l as [|[t w] l IH]; cbn [last_value]; [discriminate|].
  destruct (last_value tag l); [intros [= <-]; right; auto|].
  destruct (t =? tag)%N eqn:E; [|discriminate]. apply N.eqb_eq in E. subst. intros [= <-]. left. reflexivity.
Qed.

(** the list of a body is well formed *)
Lemma TLVs_all b l : TLVs b l -> Forall (fun x => (fst x < 65536)%N /\ length (snd x) <= max_value_len) l.
Proof. induction 1; repeat constructor; auto. Qed.
Lemma normal_sized mt l : Forall (fun x => (fst x < 65536)%N /\ length (snd x) <= max_value_len) l ->
  Forall (fun x => (fst x < 65536)%N /\ length (snd x) <= max_value_len) (normal_list mt l).
Proof.
  intros F. destruct mt as [t|]; [|exact F]. cbn [normal_list]. rewrite <- rfc_order. apply zip_ok.
  apply Forall_forall. intros o I. apply in_map_iff in I as (tag & <- & _).
  destruct (last_value tag l) as [v|] eqn:E; [|exact Logic.I]. apply last_value_in in E.
  rewrite Forall_forall in F. exact (proj2 (F _ E)).
Qed.
Lemma normal_in t l x : In x (normal_list (Some t) l) -> In (fst x) (rfc_params t).
Proof.
  cbn [normal_list]. rewrite <- rfc_order. generalize (map (fun tag => last_value tag l) (map field_tag (marshal_order (go_type t)))).
  intros s. apply zip_in.
Qed.
Lemma last_value_zip tags slots tag : ~ In tag tags -> last_value tag (zip_slots tags slots) = None.
Proof.
  revert slots; induction tags as [|t tags IH]; intros slots N; [reflexivity|].
  destruct slots as [|[v|] slots]; cbn [zip_slots]; [reflexivity| |].
  - cbn [last_value]. rewrite IH by (intros i; apply N; now right).
    destruct (t =? tag)%N eqn:E; [|reflexivity]. apply N.eqb_eq in E. exfalso. apply N. now left.
  - apply IH. intros i; apply N; now right.
Qed.
Lemma last_value_normal (f : N -> option (list byte)) tags tag : NoDup tags -> In tag tags ->
  last_value tag (zip_slots tags (map f tags)) = f tag.
Proof.
  induction tags as [|t tags IH]; intros ND I; [destruct I|]. inversion ND as [|? ? N ND']; subst.
  cbn [map zip_slots]. destruct (N.eq_dec t tag) as [->|Ne].
  - destruct (f tag) as [v|] eqn:E; [cbn [last_value]|]; rewrite last_value_zip by exact N; [|reflexivity].
    rewrite N.eqb_refl. reflexivity.
  - destruct I as [I|I]; [contradiction|]. destruct (f t) as [v|]; [cbn [last_value]|]; rewrite IH by assumption; [|reflexivity].
    destruct (f tag); [reflexivity|]. destruct (t =? tag)%N eqn:E; [|reflexivity]. apply N.eqb_eq in E. contradiction.
Qed.
Lemma rfc_nodup t : NoDup (rfc_params t).
Proof. destruct t; cbn; repeat (constructor; [cbn; intuition discriminate|]); constructor. Qed.

Lemma body_pwire l : Forall (fun x => (fst x < 65536)%N /\ length (snd x) <= max_value_len) l ->
  concat (map pwire (map mk l)) = body_of l.
Proof. intros F. rewrite pwire_body by (apply wf_mk_all, F). now rewrite tv_mk_all. Qed.

(** what encoding writes depends on the content alone *)
Lemma same_bytes m1 m2 m1' m2' b1 b2 : same_content m1 m2 ->
  m3_MarshalBinary m1 = Ok (m1', b1) -> m3_MarshalBinary m2 = Ok (m2', b2) -> m1' = m2' /\ b1 = b2.
Proof.
  destruct m1 as [a|a], m2 as [b|b]; cbn [same_content]; try contradiction.
  - intros (K & F & H1 & H2 & H3 & H4 & H5). rewrite !msg_MarshalBinary_ok.
    assert (E : m_body a = m_body b) by (unfold m_body, slots_of; rewrite K, F; reflexivity).
    rewrite E, K, F. intros E1 E2.
    assert (X : set_payload (m_hdr a) (m_body b) = set_payload (m_hdr b) (m_body b)).
    { destruct (m_hdr a), (m_hdr b). cbn in *. unfold set_payload. cbn. congruence. }
    rewrite X in E1. rewrite E1 in E2. injection E2 as -> ->. split; reflexivity.
  - intros (P & H1 & H2 & H3 & H4 & H5). rewrite !gen_MarshalBinary_ok. rewrite P. intros E1 E2.
    assert (X : set_payload (g_hdr a) (concat (map pwire (g_params b))) = set_payload (g_hdr b) (concat (map pwire (g_params b)))).
    { destruct (g_hdr a), (g_hdr b). cbn in *. unfold set_payload. cbn. congruence. }
    rewrite X in E1. rewrite E1 in E2. injection E2 as -> ->. split; reflexivity.
Qed.
Lemma same_sym m1 m2 : same_content m1 m2 -> same_content m2 m1.
Proof.
  destruct m1, m2; cbn; try contradiction; intros H; decompose [and] H; unfold same_head in *; intuition congruence.
Qed.
Lemma same_trans m1 m2 m3 : same_content m1 m2 -> same_content m2 m3 -> same_content m1 m3.
Proof.
  destruct m1, m2, m3; cbn; try contradiction; unfold same_head; intuition congruence.
Qed.
Lemma same_refl m : same_content m m.
Proof. destruct m; cbn; unfold same_head; auto 10. Qed.

Lemma last_mk t l f : In (field_tag f) (rfc_params t) ->
  last_with (field_tag f) (map mk (normal_list (Some t) l)) = last_with (field_tag f) (map mk l).
Proof.
  intros I. rewrite !last_value_with. cbn [normal_list]. rewrite last_value_normal; [reflexivity|apply rfc_nodup|exact I].
Qed.

Lemma normalise v r c ty len body l mt :
  (len < 4294967296)%N -> coded c ty mt -> TLVs body l -> only_of mt l ->
  exists m m',
    Parse (packet v r c ty len body) = Ok m /\
    m3_MarshalBinary m = Ok (m', packet v r c ty len (body_of (normal_list mt l))) /\
    Parse (packet v r c ty len (body_of (normal_list mt l))) = Ok m' /\
    same_content m m'.
Proof.
  intros Hl C T Pm. pose proof (TLVs_all _ _ T) as LO. pose proof (normal_sized mt l LO) as NO.
  destruct mt as [t|].
  - cbn [coded only_of] in C, Pm. apply dispatch_spec in C.
    pose proof (TLVs_ok _ _ T) as P1. pose proof (TLVs_ok _ _ (TLVs_body _ NO)) as P2.
    destruct (proj1 (Parse_typed t v r c ty len body _ Hl C P1)) as (m & E1 & K1 & H1 & F1).
    { apply Forall_forall. intros p I. apply in_map_iff in I as (x & <- & I). cbn [mk p_tag].
      rewrite Forall_forall in Pm. exact (Pm _ I). }
    destruct (proj1 (Parse_typed t v r c ty len _ _ Hl C P2)) as (m' & E2 & K2 & H2 & F2).
    { apply Forall_forall. intros p I. apply in_map_iff in I as (x & <- & I). cbn [mk p_tag]. exact (normal_in _ _ _ I). }
    assert (SF : m_f m = m_f m').
    { apply fields_ext. intros f. rewrite F1, F2. destruct (in_dec _ _ _) as [i|]; [|reflexivity]. symmetry. now apply last_mk. }
    exists (Typed m), (Typed m'). split; [exact E1|]. split; [|split; [exact E2|]].
    + rewrite msg_MarshalBinary_ok.
      assert (B : m_body m = body_of (normal_list (Some t) l)).
      { unfold m_body, slots_of. rewrite K1.
        replace (map (fun f => fget f (m_f m)) (marshal_order (go_type t)))
          with (map (fun f => last_with (field_tag f)
                  (slotted (marshal_order (go_type t)) (map (fun tag => last_value tag l) (rfc_params t)))) (marshal_order (go_type t))).
        - rewrite Z_present by apply order_nodup. unfold slotted. rewrite rfc_order. apply body_pwire, NO.
        - apply map_ext_in. intros f If. rewrite F1. assert (It : In (field_tag f) (rfc_params t)) by (rewrite <- rfc_order; now apply in_map).
          destruct (in_dec _ _ _); [|contradiction]. unfold slotted. rewrite rfc_order. exact (last_mk t l f It). }
      rewrite B, K1, H1. cbn [set_payload]. unfold hdr_bytes, set_payload, packet. cbn.
      assert (X : m' = mkMsg (go_type t) (mkHeader v r c ty len (body_of (normal_list (Some t) l))) (m_f m)).
      { destruct m' as [k h f]. cbn in *. congruence. }
      rewrite X. reflexivity.
    + cbn. rewrite K1, K2, SF, H1, H2. unfold same_head. cbn. auto 10.
  - cbn [coded] in C. apply dispatch_none in C. cbn [normal_list] in *.
    rewrite !Parse_generic by assumption. rewrite (TLVs_ok _ _ T), (TLVs_ok _ _ (TLVs_body _ LO)). cbn [bind].
    eexists _, _. split; [reflexivity|]. split; [|split; [reflexivity|]].
    + rewrite gen_MarshalBinary_ok. cbn [g_params g_hdr]. rewrite body_pwire by exact LO. reflexivity.
    + cbn. unfold same_head. cbn. auto 10.
Qed.

(** ** Sizes *)
Lemma filter_weight (w : list byte -> nat) tag l v : last_value tag l = Some v ->
  w v + list_sum (map (fun x => w (snd x)) (filter (fun x => negb (fst x =? tag)%N) l)) <= list_sum (map (fun x => w (snd x)) l).
Proof.
  assert (G : forall l, list_sum (map (fun x => w (snd x)) (filter (fun x : N * list byte => negb (fst x =? tag)%N) l)) <= list_sum (map (fun x => w (snd x)) l)).
  { clear. intros l. induction l as [|[t u] l IH]; [apply le_n|]. cbn [filter fst]. destruct (t =? tag)%N; cbn [negb map list_sum fold_right snd] in *; unfold list_sum in *; cbn [fold_right map snd] in *; lia. }
  induction l as [|[t u] l IH]; cbn [last_value]; [discriminate|].
  destruct (last_value tag l) as [x|]; [intros E|].
  - specialize (IH E). cbn [filter fst]. unfold list_sum in *. destruct (t =? tag)%N; cbn [negb map fold_right snd] in *; lia.
  - destruct (t =? tag)%N eqn:E; [|discriminate]. intros [= <-]. cbn [filter fst]. rewrite E. specialize (G l).
    unfold list_sum in *. cbn [negb map fold_right snd]. lia.
Qed.
Lemma last_value_filter tag tag' l : tag <> tag' ->
  last_value tag (filter (fun x => negb (fst x =? tag')%N) l) = last_value tag l.
Proof.
  intros N. induction l as [|[t u] l IH]; [reflexivity|]. cbn [filter fst last_value].
  destruct (t =? tag')%N eqn:E; cbn [negb last_value]; rewrite IH; [|reflexivity].
  apply N.eqb_eq in E. subst. destruct (last_value tag l); [reflexivity|].
  destruct (tag' =? tag)%N eqn:E; [|reflexivity]. apply N.eqb_eq in E. congruence.
Qed.
Lemma zip_weight (w : list byte -> nat) tags : NoDup tags -> forall l,
  list_sum (map (fun x => w (snd x)) (zip_slots tags (map (fun tag => last_value tag l) tags))) <= list_sum (map (fun x => w (snd x)) l).
Proof.
  induction 1 as [|t tags N ND IH]; intros l; [apply Nat.le_0_l|]. cbn [map zip_slots].
  assert (X : map (fun tag => last_value tag l) tags = map (fun tag => last_value tag (filter (fun x => negb (fst x =? t)%N) l)) tags).
  { apply map_ext_in. intros a I. symmetry. apply last_value_filter. intros ->. contradiction. }
  destruct (last_value t l) as [v|] eqn:E.
  - pose proof (filter_weight w t l v E) as F. specialize (IH (filter (fun x => negb (fst x =? t)%N) l)). rewrite <- X in IH.
    unfold list_sum in *. cbn [map fold_right snd] in *. lia.
  - apply IH.
Qed.
Lemma normal_weight (w : list byte -> nat) mt l :
  list_sum (map (fun x => w (snd x)) (normal_list mt l)) <= list_sum (map (fun x => w (snd x)) l).
Proof. destruct mt as [t|]; [apply zip_weight, rfc_nodup|apply le_n]. Qed.

Definition wide (v : list byte) : nat := 4 + length v + pad_len (length v).
Lemma body_wide l : length (body_of l) = list_sum (map (fun x => wide (snd x)) l).
Proof.
  induction l as [|[t v] l IH]; [reflexivity|]. unfold body_of in *. cbn [map concat fst snd]. rewrite app_length, IH.
  unfold tlv, wide. rewrite !app_length, !be_length, repeat_length. unfold list_sum. cbn [map fold_right snd]. lia.
Qed.
Lemma pad_four n : (4 + n + pad_len n) mod 4 = 0 /\ pad_len n < 4.
Proof.
  split; [|apply pad_len_lt]. pose proof (pad_len_mod n). lia.
Qed.
(** rounding up to a multiple of four *)
Lemma TLVs_wide b l : TLVs b l -> exists k, list_sum (map (fun x => wide (snd x)) l) = 4 * k /\ 4 * k < length b + 4.
Proof.
  induction 1 as [|tag v pad Ht Hl Hp|tag v pad rest l Ht Hl Hp T IH].
  - exists 0. split; [reflexivity|cbn; lia].
  - destruct (pad_four (length v)) as [M L]. apply Nat.mod_divides in M as [k M]; [|discriminate]. exists k.
    unfold list_sum, wide. cbn [map fold_right snd]. rewrite !app_length, !be_length. lia.
  - destruct IH as (k0 & E & B). destruct (pad_four (length v)) as [M L]. apply Nat.mod_divides in M as [k M]; [|discriminate]. exists (k + k0).
    unfold list_sum, wide in *. cbn [map fold_right snd]. rewrite !app_length, !be_length. lia.
Qed.
Lemma TLVs_held b l : TLVs b l -> list_sum (map (fun x => 4 + length (snd x)) l) <= length b.
Proof.
  induction 1 as [|tag v pad Ht Hl Hp|tag v pad rest l Ht Hl Hp T IH]; unfold list_sum in *; cbn [map fold_right snd];
    rewrite ?app_length, ?be_length; cbn [length]; lia.
Qed.
Lemma round4 a k n : n = 4 * k -> n < a + 4 -> 8 + n <= 4 * ((8 + a + 3) / 4).
Proof.
  intros -> L. assert (E := Nat.div_mod (8 + a + 3) 4 ltac:(discriminate)).
  assert (H : (8 + a + 3) mod 4 < 4) by (apply Nat.mod_upper_bound; discriminate). lia.
Qed.

Lemma coded_dec c ty : exists mt, coded c ty mt.
Proof.
  destruct (dispatch c ty) as [k|] eqn:D.
  - destruct (go_type_surj k) as [t <-]. exists (Some t). cbn. now apply dispatch_spec.
  - exists None. cbn. intros t E. apply dispatch_spec in E. congruence.
Qed.

(** of every accepted packet *)
Lemma accepted_shape b m : Parse b = Ok m -> exists v r c ty len body l mt,
  (len < 4294967296)%N /\ b = packet v r c ty len body /\ coded c ty mt /\ TLVs body l /\ only_of mt l.
Proof.
  intros P. destruct (proj1 (Parse_accepts_exactly b) (ex_intro _ m P)) as (v & r & c & ty & len & body & l & Hl & -> & T & F).
  destruct (coded_dec c ty) as [mt C]. exists v, r, c, ty, len, body, l, mt. repeat split; auto.
  destruct mt as [t|]; [exact (F t C)|exact Logic.I].
Qed.
Lemma reencode_any b m : Parse b = Ok m -> exists m' b',
  m3_MarshalBinary m = Ok (m', b') /\ Parse b' = Ok m' /\ same_content m m' /\
  m3_MarshalBinary m' = Ok (m', b') /\ length b' <= 4 * ((length b + 3) / 4).
Proof.
  intros P. destruct (accepted_shape b m P) as (v & r & c & ty & len & body & l & mt & Hl & -> & C & T & Pm).
  destruct (normalise v r c ty len body l mt Hl C T Pm) as (m0 & m' & P0 & M & P' & S).
  rewrite P in P0. injection P0 as <-. eexists _, _. split; [exact M|]. split; [exact P'|]. split; [exact S|]. split.
  - assert (X : exists m2 b2, m3_MarshalBinary m' = Ok (m2, b2)).
    { destruct m'; [rewrite msg_MarshalBinary_ok|rewrite gen_MarshalBinary_ok]; eauto. }
    destruct X as (m2 & b2 & X). destruct (same_bytes _ _ _ _ _ _ S M X) as [-> ->]. exact X.
  - rewrite !packet_length, body_wide. destruct (TLVs_wide _ _ T) as (k & E & L).
    pose proof (normal_weight wide mt l) as W.
    destruct (TLVs_wide _ _ (TLVs_body _ (normal_sized mt l (TLVs_all _ _ T)))) as (k' & E' & L').
    apply (round4 _ k'); [exact E'|]. lia.
Qed.

Lemma same_octets b1 m1 m1' b1' b2 m2 m2' b2' : Parse b1 = Ok m1 -> Parse b2 = Ok m2 ->
  m3_MarshalBinary m1 = Ok (m1', b1') -> m3_MarshalBinary m2 = Ok (m2', b2') ->
  (b1' = b2' <-> same_content m1 m2).
Proof.
  intros P1 P2 M1 M2. split.
  - intros ->. destruct (reencode_any _ _ P1) as (x & y & A & B & S1 & _). destruct (reencode_any _ _ P2) as (x' & y' & A' & B' & S2 & _).
    rewrite M1 in A. injection A as <- <-. rewrite M2 in A'. injection A' as <- <-. rewrite B in B'. injection B' as <-.
    eapply same_trans; [exact S1|apply same_sym, S2].
  - intros S. exact (proj2 (same_bytes _ _ _ _ _ _ S M1 M2)).
Qed.

(** ** What a decoded message holds *)
Lemma held_eq l : held (map mk l) = list_sum (map (fun x => 4 + length (snd x)) l).
Proof. unfold held. rewrite map_map. reflexivity. Qed.
Definition all_tags : list N := map field_tag all_fields.
Lemma all_nodup : NoDup all_tags.
Proof. cbn; repeat (constructor; [cbn; intuition discriminate|]); constructor. Qed.
Lemma params_slots (g : field -> option param) l fs :
  (forall f, In f fs -> g f = option_map (fun v => mk (field_tag f, v)) (last_value (field_tag f) l) \/ g f = None) ->
  held (flat_map (fun f => match g f with Some p => [p] | None => [] end) fs) <=
  held (map mk (zip_slots (map field_tag fs) (map (fun tag => last_value tag l) (map field_tag fs)))).
Proof.
  induction fs as [|f fs IH]; intros H; [apply le_n|]. cbn [flat_map map zip_slots].
  assert (H' : forall f, In f fs -> g f = option_map (fun v => mk (field_tag f, v)) (last_value (field_tag f) l) \/ g f = None)
    by (intros; apply H; now right).
  specialize (IH H'). destruct (H f (or_introl eq_refl)) as [E|E]; rewrite E;
    destruct (last_value (field_tag f) l) as [v|]; cbn [option_map app zip_slots map]; unfold held, list_sum in *;
    cbn [map fold_right] in *; cbn [mk p_data snd] in *; lia.
Qed.
Lemma decoded_size b m : Parse b = Ok m -> held (params_of m) + 8 <= length b.
Proof.
  intros P. destruct (accepted_shape b m P) as (v & r & c & ty & len & body & l & mt & Hl & -> & C & T & Pm).
  rewrite packet_length. pose proof (TLVs_held _ _ T) as W. destruct mt as [t|].
  - cbn [coded only_of] in C, Pm. apply dispatch_spec in C.
    destruct (proj1 (Parse_typed t v r c ty len body _ Hl C (TLVs_ok _ _ T))) as (m1 & E1 & K1 & H1 & F1).
    { apply Forall_forall. intros p I. apply in_map_iff in I as (x & <- & I). cbn [mk p_tag].
      rewrite Forall_forall in Pm. exact (Pm _ I). }
    rewrite P in E1. injection E1 as ->. cbn [params_of].
    pose proof (params_slots (fun f => fget f (m_f m1)) l all_fields) as A. rewrite held_eq in A.
    pose proof (zip_weight (fun v => 4 + length v) all_tags all_nodup l) as Z. unfold all_tags in Z.
    specialize (A ltac:(intros f _; rewrite F1; destruct (in_dec _ _ _); [left; apply last_value_with|right; reflexivity])).
    cbv beta in *. lia.
  - cbn [coded] in C. apply dispatch_none in C. rewrite Parse_generic, (TLVs_ok _ _ T) in P by assumption.
    cbn [bind] in P. injection P as <-. cbn [params_of g_params]. rewrite held_eq. lia.
Qed.
