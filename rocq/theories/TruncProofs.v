(** Truncated packets. *)
From Verif Require Import GoBase BaseProofs ParamsModel ParamsProofs MessagesModel WireSpec ParamsSpec MsgSpec MessagesProofs MessagesProofs2.
From Coq Require Import Arith Lia.
Open Scope nat_scope.
Opaque max_value_len.

(** octets of a body up to and including the last value, without its padding *)
Fixpoint bare (l : list (N * list byte)) : nat :=
  match l with
  | [] => 0
  | [(t, v)] => 4 + length v
  | (t, v) :: l => length (tlv t v) + bare l
  end.
Definition sized (x : N * list byte) : Prop := (fst x < 65536)%N /\ length (snd x) <= max_value_len.

Lemma tlv_length t v : length (tlv t v) = 4 + length v + pad_len (length v).
Proof. unfold tlv. rewrite !app_length, !be_length, repeat_length. lia. Qed.
Lemma bare_le l : bare l <= length (body_of l).
Proof.
  induction l as [|[t v] l IH]; [auto|]. unfold body_of in *. cbn [map concat fst snd]. rewrite app_length, tlv_length.
  destruct l as [|y l]; [cbn; lia|]. change (bare ((t, v) :: y :: l)) with (length (tlv t v) + bare (y :: l)). rewrite tlv_length. lia.
Qed.
Lemma be2_inj a b : (a < 65536)%N -> (b < 65536)%N -> be 2 a = be 2 b -> a = b.
Proof. intros A B E. apply (f_equal val) in E. rewrite !val_be in E. change (256 ^ N.of_nat 2)%N with 65536%N in E. rewrite !N.mod_small in E; auto. Qed.
Lemma app_eq_len {A} (a b c d : list A) : length a = length c -> a ++ b = c ++ d -> a = c /\ b = d.
Proof.
  revert c. induction a as [|x a IH]; intros [|y c] L E; cbn in *; try discriminate; auto. injection E as -> E. destruct (IH c) as [-> ->]; auto.
Qed.
Lemma TLVs_inv b l : TLVs b l -> (b = [] /\ l = []) \/
  exists t v k, b = be 2 t ++ be 2 (N.of_nat (4 + length v)) ++ v ++ k /\ (t < 65536)%N /\ length v <= max_value_len /\
    ((length k < pad_len (length v) /\ l = [(t, v)]) \/
     exists pad rest l2, k = pad ++ rest /\ length pad = pad_len (length v) /\ TLVs rest l2 /\ l = (t, v) :: l2).
Proof.
  intros H. inversion H; subst; [auto| |].
  - right. exists tag, v, pad. auto 6.
  - right. exists tag, v, (pad ++ rest). repeat split; auto. right. exists pad, rest, l0. auto.
Qed.
Lemma max_small (v : list byte) : length v <= max_value_len -> (N.of_nat (4 + length v) < 65536)%N.
Proof. Transparent max_value_len. unfold max_value_len. Opaque max_value_len. lia. Qed.

Lemma TLVs_trunc l : Forall sized l -> forall n l', n <= length (body_of l) ->
  (TLVs (firstn n (body_of l)) l' <-> exists l2, l = l' ++ l2 /\ bare l' <= n <= length (body_of l')).
Proof.
  induction 1 as [|[t v] l [Ht Hv] Hl IH]; intros n l' Hn.
  - cbn in Hn. assert (n = 0) as -> by lia. cbn [firstn]. split.
    + intros H. apply TLVs_inv in H as [[_ ->]|(t' & v' & k & E & _)]; [exists []; cbn; auto|].
      exfalso. apply (f_equal (@length byte)) in E. rewrite !app_length, !be_length in E. cbn in E. lia.
    + intros (l2 & E & _). symmetry in E. apply app_eq_nil in E as [-> _]. constructor.
  - cbn [fst snd] in Ht, Hv.
    assert (Eb : body_of ((t, v) :: l) = tlv t v ++ body_of l) by reflexivity.
    rewrite Eb in *. rewrite app_length, tlv_length in Hn.
    (* lengths of prefixes *)
    assert (Split : forall l'', (exists l2, (t, v) :: l = l'' ++ l2 /\ bare l'' <= n <= length (body_of l'')) ->
        (n = 0 /\ l'' = []) \/ (4 + length v <= n <= length (tlv t v) /\ l'' = [(t, v)]) \/
        (exists l3, l'' = (t, v) :: l3 /\ l3 <> [] /\ length (tlv t v) <= n /\ exists l2, l = l3 ++ l2 /\ bare l3 <= n - length (tlv t v) <= length (body_of l3))).
    { intros [|x [|y l3]] (l2 & E & L1 & L2).
      - left. cbn in L2. split; auto; lia.
      - right. left. injection E as <- E. cbn [bare] in L1. unfold body_of in L2. cbn [map concat fst snd] in L2. rewrite app_nil_r in L2. auto.
      - right. right. injection E as <- E. exists (y :: l3). split; auto. split; [discriminate|].
        change (bare ((t, v) :: y :: l3)) with (length (tlv t v) + bare (y :: l3)) in L1.
        change (body_of ((t, v) :: y :: l3)) with (tlv t v ++ body_of (y :: l3)) in L2. rewrite app_length in L2.
        split; [lia|]. exists l2. split; [exact E|]. lia. }
    destruct (Nat.lt_ge_cases n (length (tlv t v))) as [Lt|Ge].
    + rewrite firstn_app, (proj2 (Nat.sub_0_le n (length (tlv t v)))) by lia. cbn [firstn]. rewrite app_nil_r.
      rewrite tlv_length in Lt. split.
      * intros H. apply TLVs_inv in H as [[E ->]|(t' & v' & k & E & Ht' & Hv' & D)].
        -- exists ((t, v) :: l). split; auto. cbn [bare]. apply (f_equal (@length byte)) in E. rewrite firstn_length, tlv_length in E. cbn in E. cbn. lia.
        -- assert (L : n = 4 + length v' + length k).
           { apply (f_equal (@length byte)) in E. rewrite firstn_length, tlv_length, !app_length, !be_length in E. lia. }
           assert (E4 : firstn n (tlv t v) = be 2 t ++ be 2 (N.of_nat (4 + length v)) ++ firstn (n - 4) (v ++ repeat x00 (pad_len (length v)))).
           { unfold tlv. rewrite !firstn_app, !be_length, !firstn_all2 by (rewrite be_length; lia). now replace (n - 2 - 2) with (n - 4) by lia. }
           rewrite E4 in E. apply app_eq_len in E as [Et E]; [|now rewrite !be_length].
           apply app_eq_len in E as [En E]; [|now rewrite !be_length].
           apply be2_inj in Et; auto. apply be2_inj in En; auto using max_small. assert (Lv : length v = length v') by lia. subst t'.
           rewrite firstn_app in E. rewrite firstn_all2 in E by lia. apply app_eq_len in E as [<- Ek]; [|exact Lv].
           destruct D as [[Lk ->]|(pad & rest & l2 & -> & Lp & _)].
           ++ exists l. split; auto. cbn [bare]. unfold body_of. cbn [map concat fst snd]. rewrite app_nil_r, tlv_length. lia.
           ++ exfalso. rewrite app_length in L. lia.
      * intros H. apply Split in H as [[-> ->]|[[L ->]|(l3 & -> & _ & L & _)]].
        -- constructor.
        -- unfold tlv. rewrite !firstn_app, !be_length, !firstn_all2 by (rewrite ?be_length; lia). rewrite tlv_length in L.
           apply TLVs_cut; auto. rewrite firstn_length, repeat_length. lia.
        -- rewrite tlv_length in L. lia.
    + rewrite firstn_app, firstn_all2 by exact Ge. specialize (IH (n - length (tlv t v))).
      assert (Ln : n - length (tlv t v) <= length (body_of l)) by (rewrite tlv_length in *; lia). split.
      * intros H. apply TLVs_inv in H as [[E ->]|(t' & v' & k & E & Ht' & Hv' & D)].
        { exfalso. apply (f_equal (@length byte)) in E. rewrite app_length, tlv_length in E. cbn in E. lia. }
        remember (firstn (n - length (tlv t v)) (body_of l)) as r eqn:Rr.
        unfold tlv in E. rewrite <- !app_assoc in E.
        apply app_eq_len in E as [Et E]; [|now rewrite !be_length]. apply app_eq_len in E as [En E]; [|now rewrite !be_length].
        apply be2_inj in Et; auto. apply be2_inj in En; auto using max_small. assert (Lv : length v = length v') by lia. subst t'.
        apply app_eq_len in E as [<- Ek]; [|exact Lv].
        destruct D as [[Lk ->]|(pad & rest & l2 & -> & Lp & T & ->)].
        { exfalso. apply (f_equal (@length byte)) in Ek. rewrite app_length, repeat_length in Ek. lia. }
        apply app_eq_len in Ek as [<- Er]; [|rewrite repeat_length; lia].
        assert (T' : TLVs r l2) by (rewrite Er; exact T).
        apply IH in T' as (l3 & -> & L1 & L2); [|exact Ln]. exists l3. split; [reflexivity|].
        destruct l2 as [|y l2].
        { change (length (body_of [])) with 0 in L2. cbn [bare]. unfold body_of. cbn [map concat fst snd]. rewrite app_nil_r. rewrite tlv_length in *. lia. }
        change (bare ((t, v) :: y :: l2)) with (length (tlv t v) + bare (y :: l2)).
        change (body_of ((t, v) :: y :: l2)) with (tlv t v ++ body_of (y :: l2)). rewrite app_length. lia.
      * intros H. apply Split in H as [[-> ->]|[[L ->]|(l3 & -> & _ & L & B)]].
        -- exfalso. rewrite tlv_length in Ge. lia.
        -- replace (n - length (tlv t v)) with 0 by lia. cbn [firstn]. rewrite app_nil_r.
           unfold tlv. rewrite <- (app_nil_r (repeat x00 (pad_len (length v)))).
           apply TLVs_cons; auto; [apply repeat_length|constructor].
        -- unfold tlv at 1. rewrite <- !app_assoc. apply TLVs_cons; auto; [apply repeat_length|]. apply IH; auto.
Qed.

(** ** Packets cut short *)
(** the parameters that the packet's type allows *)
Definition permitted (c ty : byte) (l : list (N * list byte)) : Prop :=
  forall mt, N.lor ((16 * b2n c) mod 256) (b2n ty) = (16 * b2n (rfc_class mt) + b2n (rfc_type mt))%N ->
    Forall (fun x => In (fst x) (rfc_params mt)) l.
(** what Parse found: message type and parameters *)
Definition content (m : m3ua) : option kind * (fields * list param) :=
  match m with Typed t => (Some (m_kind t), (m_f t, [])) | Gen g => (None, (no_fields, g_params g)) end.

Lemma firstn_packet n v r c ty len body : 8 <= n -> firstn n (packet v r c ty len body) = packet v r c ty len (firstn (n - 8) body).
Proof.
  intros L. unfold packet. rewrite !app_assoc, firstn_app, firstn_all2 by (rewrite app_length, be_length; cbn; lia).
  f_equal.
Qed.
Lemma packet_length v r c ty len body : length (packet v r c ty len body) = 8 + length body.
Proof. unfold packet. rewrite !app_length, be_length. reflexivity. Qed.
Lemma permitted_app c ty l1 l2 : permitted c ty (l1 ++ l2) -> permitted c ty l1.
Proof. intros P mt D. specialize (P mt D). apply Forall_app in P as [P _]. exact P. Qed.

Lemma Parse_trunc v r c ty len l n : (len < 4294967296)%N -> Forall sized l -> permitted c ty l -> n <= 8 + length (body_of l) ->
  (exists m, Parse (firstn n (packet v r c ty len (body_of l))) = Ok m) <->
  exists l1 l2, l = l1 ++ l2 /\ 8 + bare l1 <= n <= 8 + length (body_of l1).
Proof.
  intros Hl S P L. destruct (Nat.lt_ge_cases n 8) as [L8|L8].
  - split.
    + intros [m H]. rewrite Parse_short in H; [discriminate|]. rewrite firstn_length. lia.
    + intros (l1 & l2 & _ & L1 & _). lia.
  - rewrite firstn_packet by exact L8. split.
    + intros H. apply Parse_accepts in H as (l' & T & _); [|exact Hl].
      apply (TLVs_trunc l S) in T as (l2 & E & L1); [|lia]. exists l', l2. split; [exact E|]. lia.
    + intros (l1 & l2 & E & L1). apply Parse_accepts; [exact Hl|]. exists l1. split.
      * apply (TLVs_trunc l S); [lia|]. exists l2. split; [exact E|]. lia.
      * intros mt D. apply dispatch_spec in D. apply (permitted_app c ty l1 l2); [rewrite <- E; exact P|exact D].
Qed.
Lemma Parse_trunc_content v r c ty len l1 l2 n : (len < 4294967296)%N -> Forall sized (l1 ++ l2) ->
  8 + bare l1 <= n <= 8 + length (body_of l1) ->
  forall m, Parse (firstn n (packet v r c ty len (body_of (l1 ++ l2)))) = Ok m ->
  exists m1, Parse (packet v r c ty len (body_of l1)) = Ok m1 /\ content m = content m1.
Proof.
  intros Hl S Ln m H. rewrite firstn_packet in H by lia.
  assert (A : length (body_of l1) <= length (body_of (l1 ++ l2))) by (unfold body_of; rewrite map_app, concat_app, app_length; lia).
  assert (T : TLVs (firstn (n - 8) (body_of (l1 ++ l2))) l1).
  { apply (TLVs_trunc _ S); [lia|]. exists l2. split; [reflexivity|]. lia. }
  assert (T1 : TLVs (body_of l1) l1) by (apply TLVs_body; apply Forall_app in S as [S _]; exact S).
  rewrite Parse_packet in * by exact Hl. cbv zeta in *. rewrite (TLVs_ok _ _ T) in H. rewrite (TLVs_ok _ _ T1). cbn [bind] in *.
  destruct (dispatch c ty) as [k|].
  - destruct (assign_all k no_fields (map mk l1)) as [fs| |]; cbn [bind] in *; try discriminate. injection H as <-. eexists; split; reflexivity.
  - injection H as <-. eexists; split; reflexivity.
Qed.

(** ** A packet read in pieces of 1500 octets *)
Lemma body_of_4 l : length (body_of l) mod 4 = 0.
Proof.
  induction l as [|[t v] l IH]; [reflexivity|]. change (body_of ((t, v) :: l)) with (tlv t v ++ body_of l).
  rewrite app_length, tlv_length. unfold pad_len.
  pose proof (Nat.div_mod (length v) 4). pose proof (Nat.mod_upper_bound (length v) 4).
  rewrite <- Nat.add_mod_idemp_r, IH, Nat.add_0_r by lia.
  lia.
Qed.
Lemma bare_gt l : length (body_of l) < bare l + 4.
Proof.
  induction l as [|[t v] l IH]; [cbn; lia|]. change (body_of ((t, v) :: l)) with (tlv t v ++ body_of l). rewrite app_length, tlv_length.
  destruct l as [|y l].
  - cbn [bare]. change (length (body_of [])) with 0. unfold pad_len. pose proof (Nat.mod_upper_bound (4 - length v mod 4) 4). lia.
  - change (bare ((t, v) :: y :: l)) with (length (tlv t v) + bare (y :: l)). rewrite tlv_length. lia.
Qed.
Lemma rfc_tag_hi mt t : In t (rfc_params mt) -> (t < 65536)%N /\ (t / 256 = 0 \/ t / 256 = 2)%N.
Proof. intros H. destruct mt; cbn in H; repeat (destruct H as [<-|H]; [split; [reflexivity|vm_compute; auto]|]); destruct H. Qed.

Lemma pieces mt len l q : (len < 4294967296)%N -> Forall sized l -> Forall (fun x => In (fst x) (rfc_params mt)) l ->
  let bs := packet x01 x00 (rfc_class mt) (rfc_type mt) len (body_of l) in
  8 <= q -> q mod 4 = 0 -> q < length bs ->
  (forall m, Parse (firstn q bs) <> Ok m) \/
  (forall m, Parse (firstn q (skipn q bs)) = Ok m -> b2n (Version m) <> 1%N).
Proof.
  intros Hl S P bs L8 L4 Lq. unfold bs in Lq. rewrite packet_length in Lq.
  destruct (Parse (firstn q bs)) as [m| |] eqn:E; [right|left; discriminate|left; discriminate].
  assert (X : exists m, Parse (firstn q bs) = Ok m) by eauto.
  unfold bs in X. apply Parse_trunc in X as (l1 & l2 & -> & L1); auto; [| |lia].
  2:{ intros mt' D. assert (mt' = mt) as ->; [|exact P]. destruct mt, mt'; try reflexivity; vm_compute in D; discriminate. }
  assert (Q : q = 8 + length (body_of l1)).
  { pose proof (bare_gt l1). pose proof (body_of_4 l1).
    apply Nat.mod_divide in L4; [|lia]. apply Nat.mod_divide in H0; [|lia]. destruct L4 as [a A], H0 as [b B]. lia. }
  intros m2 H2 V. destruct l2 as [|[t v] l2]; [rewrite app_nil_r in Lq; lia|].
  assert (K : skipn q bs = body_of ((t, v) :: l2)).
  { unfold bs, packet, body_of. rewrite map_app, concat_app, !app_assoc, skipn_app, skipn_all2.
    - rewrite Q. replace (8 + length (body_of l1) - _) with 0; [reflexivity|]. rewrite !app_length, be_length. unfold body_of. cbn. lia.
    - rewrite Q, !app_length, be_length. unfold body_of. cbn. lia. }
  rewrite K in H2. apply Forall_app in P as [_ P]. apply Forall_cons_iff in P as [Pt _]. cbn [fst] in Pt. apply rfc_tag_hi in Pt as [_ Pt].
  destruct q as [|q]; [lia|].
  assert (B0 : exists r, firstn (Datatypes.S q) (body_of ((t, v) :: l2)) = n2b (t / 256) :: r).
  { eexists. change (body_of ((t, v) :: l2)) with (tlv t v ++ body_of l2). unfold tlv. cbn [be app firstn]. reflexivity. }
  destruct B0 as [r B0]. rewrite B0 in H2.
  assert (V2 : Version m2 = n2b (t / 256)).
  { destruct (Nat.lt_ge_cases (length (n2b (t / 256) :: r)) 8) as [Ls|Ls]; [rewrite Parse_short in H2 by exact Ls; discriminate|].
    destruct (packet_of_8 _ Ls) as (v' & r' & c' & ty' & len' & body' & Hl' & Eq). rewrite Eq in H2.
    pose proof (Parse_class _ _ _ _ _ _ _ Hl' H2) as (_ & _ & _ & V' & _). rewrite V'. unfold packet in Eq. cbn [app] in Eq. now injection Eq. }
  rewrite V2 in V. destruct Pt as [Pt|Pt]; rewrite Pt in V; vm_compute in V; discriminate.
Qed.
