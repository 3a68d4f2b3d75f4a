(** Proofs: one octet of a packet changed. *)
From Verif Require Import GoBase BaseProofs WireSpec ParamsModel ParamsSpec ParamsProofs AccessorProofs MessagesModel MsgSpec NormSpec MessagesProofs MessagesProofs2 TruncProofs ChangeSpec JoinProofs.
From Coq Require Import Arith Lia.
Open Scope nat_scope.

Lemma changed_len k x b : length (changed k x b) = length b.
Proof. revert k. induction b as [|y b IH]; intros [|k]; cbn; auto. Qed.
Lemma changed_r k x a b : length a <= k -> changed k x (a ++ b) = a ++ changed (k - length a) x b.
Proof. revert k. induction a as [|y a IH]; intros [|k] H; cbn in *; try lia; auto. rewrite IH by lia. reflexivity. Qed.
Lemma changed_l k x a b : k < length a -> changed k x (a ++ b) = changed k x a ++ b.
Proof. revert k. induction a as [|y a IH]; intros [|k] H; cbn in *; try lia; auto. rewrite IH by lia. reflexivity. Qed.
Lemma changed_nth k x b : k < length b -> nth_error (changed k x b) k = Some x.
Proof. revert k. induction b as [|y b IH]; intros [|k] H; cbn in *; try lia; auto. apply IH. lia. Qed.

Lemma spot_shift l : forall i k, spot_at (S i) l k =
  match spot_at i l k with STag a j => STag (S a) j | SLen a j => SLen (S a) j | SVal a j => SVal (S a) j | s => s end.
Proof.
  induction l as [|[t v] l IH]; intros i k; [reflexivity|]. cbn [spot_at].
  destruct (k <? 2); [reflexivity|]. destruct (k <? 4); [reflexivity|]. destruct (k <? 4 + length v); [reflexivity|].
  destruct (k <? 4 + length v + pad_len (length v)); [reflexivity|]. apply IH.
Qed.

Lemma be2_octets t : (t < 65536)%N -> forall j x, be 2 (val (changed j x (be 2 t))) = changed j x (be 2 t) /\ (val (changed j x (be 2 t)) < 65536)%N.
Proof.
  intros H j x. assert (L : length (changed j x (be 2 t)) = 2) by now rewrite changed_len, be_length.
  destruct (changed j x (be 2 t)) as [|a [|b [|c r]]]; try discriminate L. split; [apply be2_inv|apply val2_lt].
Qed.

(** the head of a sequence of parameters, changed *)
Lemma head_cases t v k x rest : let b := be 2 t ++ be 2 (N.of_nat (4 + length v)) ++ v ++ rest in
  (k < 2 -> changed k x b = changed k x (be 2 t) ++ be 2 (N.of_nat (4 + length v)) ++ v ++ rest) /\
  (4 <= k < 4 + length v -> changed k x b = be 2 t ++ be 2 (N.of_nat (4 + length v)) ++ changed (k - 4) x v ++ rest) /\
  (4 + length v <= k -> changed k x b = be 2 t ++ be 2 (N.of_nat (4 + length v)) ++ v ++ changed (k - 4 - length v) x rest).
Proof.
  intros b. unfold b. repeat split; intros H.
  - apply changed_l. now rewrite be_length.
  - rewrite changed_r by (rewrite be_length; lia). rewrite be_length. rewrite changed_r by (rewrite be_length; lia). rewrite be_length.
    rewrite changed_l by lia. now replace (k - 2 - 2) with (k - 4) by lia.
  - rewrite changed_r by (rewrite be_length; lia). rewrite be_length. rewrite changed_r by (rewrite be_length; lia). rewrite be_length.
    rewrite changed_r by lia. now replace (k - 2 - 2 - length v) with (k - 4 - length v) by lia.
Qed.

(** what the list of parameters becomes *)
Definition retag (i j : nat) (x : byte) (l : list (N * list byte)) (l' : list (N * list byte)) : Prop :=
  exists l1 t v l2, l = l1 ++ (t, v) :: l2 /\ length l1 = i /\ j < 2 /\ l' = l1 ++ (val (changed j x (be 2 t)), v) :: l2.
Definition revalue (i j : nat) (x : byte) (l : list (N * list byte)) (l' : list (N * list byte)) : Prop :=
  exists l1 t v l2, l = l1 ++ (t, v) :: l2 /\ length l1 = i /\ j < length v /\ l' = l1 ++ (t, changed j x v) :: l2.

Lemma TLVs_changed b l : TLVs b l -> forall k x, k < length b ->
  match spot_at 0 l k with
  | STag i j => exists l', retag i j x l l' /\ TLVs (changed k x b) l'
  | SVal i j => exists l', revalue i j x l l' /\ TLVs (changed k x b) l'
  | SPad => TLVs (changed k x b) l
  | SLen i j => i < length l /\ j < 2
  | SNone => False
  end.
Proof.
  induction 1 as [|t v pad Ht Hv Hp|t v pad rest l Ht Hv Hp HT IH]; intros k x Hk; [cbn in Hk; lia| |].
  - rewrite !app_length, !be_length in Hk. cbn [spot_at]. destruct (head_cases t v k x pad) as (C1 & C2 & C3).
    destruct (Nat.ltb_spec k 2) as [K|K].
    { rewrite C1 by lia. destruct (be2_octets t Ht k x) as [E B]. exists [(val (changed k x (be 2 t)), v)]. split.
      - exists [], t, v, []. auto.
      - set (t2 := val (changed k x (be 2 t))) in *. rewrite <- E. apply TLVs_cut; auto. }
    destruct (Nat.ltb_spec k 4) as [K4|K4]; [cbn; lia|].
    destruct (Nat.ltb_spec k (4 + length v)) as [Kv|Kv].
    { rewrite C2 by lia. exists [(t, changed (k - 4) x v)]. split; [exists [], t, v, []; repeat split; auto; lia|].
      rewrite <- (changed_len (k - 4) x v) at 1. apply TLVs_cut; rewrite ?changed_len; auto. }
    destruct (Nat.ltb_spec k (4 + length v + pad_len (length v))) as [Kp|Kp]; [|lia].
    rewrite C3 by lia. apply TLVs_cut; rewrite ?changed_len; auto.
  - rewrite !app_length, !be_length in Hk. cbn [spot_at]. destruct (head_cases t v k x (pad ++ rest)) as (C1 & C2 & C3).
    destruct (Nat.ltb_spec k 2) as [K|K].
    { rewrite C1 by lia. destruct (be2_octets t Ht k x) as [E B]. exists ((val (changed k x (be 2 t)), v) :: l). split.
      - exists [], t, v, l. auto.
      - set (t2 := val (changed k x (be 2 t))) in *. rewrite <- E. apply TLVs_cons; auto. }
    destruct (Nat.ltb_spec k 4) as [K4|K4]; [cbn; lia|].
    destruct (Nat.ltb_spec k (4 + length v)) as [Kv|Kv].
    { rewrite C2 by lia. exists ((t, changed (k - 4) x v) :: l). split; [exists [], t, v, l; repeat split; auto; lia|].
      rewrite <- (changed_len (k - 4) x v) at 1. apply TLVs_cons; rewrite ?changed_len; auto. }
    destruct (Nat.ltb_spec k (4 + length v + pad_len (length v))) as [Kp|Kp].
    { rewrite C3, changed_l by lia. apply TLVs_cons; rewrite ?changed_len; auto. }
    rewrite C3, changed_r by lia. rewrite Hp. replace (k - 4 - length v - pad_len (length v)) with (k - (4 + length v + pad_len (length v))) by lia.
    rewrite spot_shift. specialize (IH (k - (4 + length v + pad_len (length v))) x ltac:(lia)).
    destruct (spot_at 0 l _) as [i j|i j|i j| |]; auto.
    + destruct IH as (l' & (l1 & t0 & v0 & l2 & -> & L & J & ->) & T). eexists. split; [|apply TLVs_cons; [exact Ht|exact Hv|exact Hp|exact T]].
      exists ((t, v) :: l1), t0, v0, l2. cbn. auto.
    + cbn. lia.
    + destruct IH as (l' & (l1 & t0 & v0 & l2 & -> & L & J & ->) & T). eexists. split; [|apply TLVs_cons; [exact Ht|exact Hv|exact Hp|exact T]].
      exists ((t, v) :: l1), t0, v0, l2. cbn. auto.
    + apply TLVs_cons; auto.
Qed.

Lemma last_with_app t a b : last_with t (a ++ b) = or_else (last_with t b) (last_with t a).
Proof.
  induction a as [|p a IH]; [cbn [app]; change (last_with t []) with (@None param); now destruct (last_with t b)|]. cbn [app]. rewrite !last_with_cons, IH.
  destruct (last_with t b), (last_with t a); reflexivity.
Qed.
Lemma last_with_none t l : last_with t (map mk l) = None <-> forall v, ~ In (t, v) l.
Proof.
  induction l as [|[u w] l IH]; [split; [intros _ v []|reflexivity]|]. cbn [map]. rewrite last_with_cons. unfold mk at 2. cbn [p_tag fst snd].
  destruct (N.eqb_spec u t) as [->|Ne].
  - split; [|intros H; destruct (H w); now left]. destruct (last_with t (map mk l)); discriminate.
  - split.
    + intros H v [E|I]; [injection E as -> _; congruence|]. destruct (last_with t (map mk l)) eqn:L; [discriminate|]. apply (proj1 IH eq_refl v I).
    + intros H. replace (last_with t (map mk l)) with (@None param); [reflexivity|]. symmetry. apply IH. intros v I. apply (H v). now right.
Qed.

(** what Parse makes of parameters: a message, described by its list *)
Lemma Parse_list v r c ty len body l : (len < 4294967296)%N -> TLVs body l ->
  (forall mt, dispatch c ty = Some (go_type mt) ->
    (Forall (fun x => In (fst x) (rfc_params mt)) l -> exists m, Parse (packet v r c ty len body) = Ok (Typed m) /\ m_kind m = go_type mt /\ m_hdr m = mkHeader v r c ty len body /\
       forall f, fget f (m_f m) = if in_dec N.eq_dec (field_tag f) (rfc_params mt) then last_with (field_tag f) (map mk l) else None) /\
    (~ Forall (fun x => In (fst x) (rfc_params mt)) l -> Parse (packet v r c ty len body) = Err EMsgInvalidParameter)) /\
  (dispatch c ty = None -> Parse (packet v r c ty len body) = Ok (Gen (mkGeneric (mkHeader v r c ty len body) (map mk l)))).
Proof.
  intros Hl T. pose proof (TLVs_ok _ _ T) as E. split.
  - intros mt D. destruct (Parse_typed mt v r c ty len body _ Hl D E) as [A B].
    assert (Q : Forall (fun p => In (p_tag p) (rfc_params mt)) (map mk l) <-> Forall (fun x => In (fst x) (rfc_params mt)) l) by (rewrite Forall_map; reflexivity).
    split; intros H; [apply A, Q, H|apply B; intros X; apply H, Q, X].
  - intros D. rewrite Parse_packet by exact Hl. cbv zeta. rewrite E. cbn [bind]. now rewrite D.
Qed.

Lemma is_last_none i l t : is_last i l t = true <-> last_with t (map mk (skipn (S i) l)) = None.
Proof.
  unfold is_last. rewrite Bool.negb_true_iff, last_with_none. split.
  - intros E v I. assert (X : existsb (fun y => (fst y =? t)%N) (skipn (S i) l) = true) by (apply existsb_exists; exists (t, v); split; [exact I|apply N.eqb_refl]). congruence.
  - intros H. destruct (existsb _ _) eqn:E; [|reflexivity]. apply existsb_exists in E as ([u w] & I & Q). cbn in Q. apply N.eqb_eq in Q as ->. destruct (H w I).
Qed.
Lemma skipn_mid {A} (l1 : list A) x l2 : skipn (S (length l1)) (l1 ++ x :: l2) = l2.
Proof. induction l1; cbn; auto. Qed.
Lemma nth_mid {A} (l1 : list A) x l2 : nth_error (l1 ++ x :: l2) (length l1) = Some x.
Proof. induction l1; cbn; auto. Qed.
Lemma firstn_mid {A} (l1 : list A) l2 : firstn (length l1) (l1 ++ l2) = l1.
Proof. induction l1; cbn; [destruct l2; reflexivity|now f_equal]. Qed.

(** taking a packet apart *)
Lemma packet_of b m : Parse b = Ok m -> exists v r c ty len, (len < 4294967296)%N /\ b = packet v r c ty len (skipn 8 b) /\ exists l, TLVs (skipn 8 b) l /\
  ((exists mt, dispatch c ty = Some (go_type mt) /\ Forall (fun x => In (fst x) (rfc_params mt)) l) \/ dispatch c ty = None).
Proof.
  intros P. assert (A : exists m0, Parse b = Ok m0) by eauto. apply Parse_accepts_exactly in A as (v & r & c & ty & len & body & l & Hl & -> & T & F).
  exists v, r, c, ty, len. split; [exact Hl|]. change (skipn 8 (packet v r c ty len body)) with body. split; [reflexivity|]. exists l. split; [exact T|].
  destruct (dispatch c ty) as [k|] eqn:D; [|now right]. destruct (go_type_surj k) as [mt <-]. left. exists mt. split; [reflexivity|]. apply F, dispatch_spec, D.
Qed.
Lemma TLVs_same b l l' : TLVs b l -> TLVs b l' -> l = l'.
Proof.
  intros A B. apply TLVs_ok in A, B. rewrite A in B. injection B as B. clear A. revert l' B. induction l as [|[t v] l IH]; intros [|[t' v'] l'] E; cbn in E; try discriminate; [reflexivity|].
  injection E as -> _ -> E. f_equal. now apply IH.
Qed.
Lemma changed_body v r c ty len body k x : changed (8 + k) x (packet v r c ty len body) = packet v r c ty len (changed k x body).
Proof.
  unfold packet. rewrite changed_r by (cbn; lia). cbn [length]. rewrite changed_r by (rewrite be_length; lia). rewrite be_length. now replace (8 + k - 4 - 4) with k by lia.
Qed.

Lemma change_value b m l k x i j : Parse b = Ok m -> TLVs (skipn 8 b) l -> 8 + k < length b -> spot_at 0 l k = SVal i j ->
  exists m', Parse (changed (8 + k) x b) = Ok m' /\ alters i j x l m m'.
Proof.
  intros P T Hk S. pose proof P as P0. apply packet_of in P as (v & r & c & ty & len & Hl & E & l0 & T0 & D).
  rewrite <- (TLVs_same _ _ _ T T0) in D. clear l0 T0.
  assert (Hb : k < length (skipn 8 b)) by (rewrite skipn_length; lia).
  pose proof (TLVs_changed _ _ T k x Hb) as X. rewrite S in X. destruct X as (l' & (l1 & t & w & l2 & -> & <- & J & ->) & T').
  rewrite E in P0 |- *. rewrite changed_body. set (body := skipn 8 b) in *. clearbody body. clear E Hk b.
  set (p := mkParam t (N.of_nat (4 + length w)) (changed j x w)).
  assert (Ep : mk (t, changed j x w) = p) by (unfold mk, p; cbn [fst snd]; now rewrite changed_len).
  destruct (Parse_list v r c ty len _ _ Hl T) as [A1 A2]. destruct (Parse_list v r c ty len _ _ Hl T') as [B1 B2].
  destruct D as [(mt & D & F)|D].
  - destruct (A1 mt D) as [A _]. destruct (A F) as (a & Pa & Ka & Ha & Fa). rewrite Pa in P0. injection P0 as <-.
    destruct (B1 mt D) as [B _]. destruct B as (a' & Pb & Kb & Hb' & Fb).
    { rewrite Forall_app in F |- *. destruct F as [F1 F2]. split; [exact F1|]. inversion F2; subst. constructor; auto. }
    exists (Typed a'). split; [exact Pb|]. exists t, w. split; [apply nth_mid|]. split; [exact J|]. fold p. cbv zeta. split; [congruence|]. split; [now rewrite Ha, Hb'|].
    intros f. rewrite Fa, Fb. rewrite !map_app, !last_with_app. cbn [map]. rewrite !last_with_cons, Ep. cbn [p_tag mk fst p]. rewrite (N.eqb_sym t).
    destruct (N.eqb_spec (field_tag f) t) as [->|Ne]; cbn [andb].
    + destruct (is_last (length l1) (l1 ++ (t, w) :: l2) t) eqn:L.
      * apply is_last_none in L. rewrite skipn_mid in L. rewrite L. cbn [or_else].
        destruct (in_dec N.eq_dec t (rfc_params mt)) as [I|I]; [reflexivity|]. exfalso. apply I. rewrite Forall_app in F. destruct F as [_ F]. now inversion F.
      * destruct (last_with t (map mk l2)) eqn:Q; [reflexivity|]. exfalso. rewrite <- (skipn_mid l1 (t, w) l2) in Q. apply is_last_none in Q. congruence.
    + reflexivity.
  - rewrite (A2 D) in P0. injection P0 as <-. rewrite (B2 D). eexists. split; [reflexivity|]. exists t, w. split; [apply nth_mid|]. split; [exact J|]. fold p. cbv zeta.
    split; [cbn; unfold same_head; auto|]. cbn [g_params]. rewrite !map_app. cbn [map]. rewrite Ep. rewrite <- (map_length mk l1), firstn_mid, skipn_mid. reflexivity.
Qed.

Lemma fields_same s s' : (forall f, fget f s' = fget f s) -> s' = s.
Proof. intros H. apply fields_ext. exact H. Qed.

Lemma same_parse v r c ty len body v' r' len' body' l m : (len < 4294967296)%N -> (len' < 4294967296)%N -> TLVs body l -> TLVs body' l ->
  Parse (packet v r c ty len body) = Ok m -> exists m', Parse (packet v' r' c ty len' body') = Ok m' /\ same_inside m m' /\
  hdr_of m = mkHeader v r c ty len body /\ hdr_of m' = mkHeader v' r' c ty len' body'.
Proof.
  intros Hl Hl' T T' P. destruct (Parse_list v r c ty len _ _ Hl T) as [A1 A2]. destruct (Parse_list v' r' c ty len' _ _ Hl' T') as [B1 B2].
  destruct (dispatch c ty) as [k|] eqn:D.
  - destruct (go_type_surj k) as [mt <-]. destruct (A1 mt eq_refl) as [A Nf]. destruct (B1 mt eq_refl) as [B _].
    destruct (Forall_dec (fun x : N * list byte => In (fst x) (rfc_params mt)) (fun x => in_dec N.eq_dec (fst x) (rfc_params mt)) l) as [F|F]; [|rewrite (Nf F) in P; discriminate].
    destruct (A F) as (a & Pa & Ka & Ha & Fa). destruct (B F) as (a' & Pb & Kb & Hb & Fb). rewrite Pa in P. injection P as <-.
    exists (Typed a'). split; [exact Pb|]. split; [|split; [exact Ha|exact Hb]]. split; [congruence|]. apply fields_same. intros f. now rewrite Fa, Fb.
  - rewrite (A2 eq_refl) in P. injection P as <-. rewrite (B2 eq_refl). eexists. split; [reflexivity|]. repeat split; reflexivity.
Qed.
Lemma change_pad b m l k x : Parse b = Ok m -> TLVs (skipn 8 b) l -> 8 + k < length b -> spot_at 0 l k = SPad ->
  exists m', Parse (changed (8 + k) x b) = Ok m' /\ same_content m m'.
Proof.
  intros P T Hk S. pose proof P as P0. apply packet_of in P as (v & r & c & ty & len & Hl & E & _).
  assert (Hb : k < length (skipn 8 b)) by (rewrite skipn_length; lia).
  pose proof (TLVs_changed _ _ T k x Hb) as X. rewrite S in X. rewrite E in P0 |- *. rewrite changed_body.
  destruct (same_parse _ _ _ _ _ _ v r len _ _ _ Hl Hl T X P0) as (m' & P' & I & H1 & H2). exists m'. split; [exact P'|].
  destruct m as [a|a], m' as [a'|a']; try contradiction; cbn [hdr_of same_inside] in *.
  - destruct I as [I1 I2]. split; [congruence|]. split; [congruence|]. rewrite H1, H2. unfold same_head. cbn. auto.
  - split; [congruence|]. rewrite H1, H2. unfold same_head. cbn. auto.
Qed.
Lemma change_head b m k x : Parse b = Ok m -> In k [0; 1; 4; 5; 6; 7] -> exists m', Parse (changed k x b) = Ok m' /\ same_inside m m' /\
  h_class (hdr_of m') = h_class (hdr_of m) /\ h_type (hdr_of m') = h_type (hdr_of m) /\ h_payload (hdr_of m') = h_payload (hdr_of m).
Proof.
  intros P I. pose proof P as P0. apply packet_of in P as (v & r & c & ty & len & Hl & E & l & T & _). rewrite E in P0 |- *. set (body := skipn 8 b) in *. clearbody body. clear E b.
  assert (Q : exists v' r' len', (len' < 4294967296)%N /\ changed k x (packet v r c ty len body) = packet v' r' c ty len' body).
  { unfold packet. assert (L : forall q, length (changed q x (be 4 len)) = 4) by (intros; now rewrite changed_len, be_length).
    assert (B : forall q, exists len', (len' < 4294967296)%N /\ changed q x (be 4 len) = be 4 len').
    { intros q. specialize (L q). destruct (changed q x (be 4 len)) as [|a [|d [|e [|f [|g z]]]]]; try discriminate L. exists (val [a; d; e; f]). split; [apply val4_lt|symmetry; apply be4_inv]. }
    destruct I as [<-|[<-|[<-|[<-|[<-|[<-|[]]]]]]].
    - exists x, r, len. split; [exact Hl|reflexivity].
    - exists v, x, len. split; [exact Hl|reflexivity].
    - destruct (B 0) as (n & Hn & En). exists v, r, n. split; [exact Hn|]. rewrite changed_r by (cbn; lia). rewrite changed_l by (rewrite be_length; cbn; lia). cbn [length Nat.sub]. now rewrite En.
    - destruct (B 1) as (n & Hn & En). exists v, r, n. split; [exact Hn|]. rewrite changed_r by (cbn; lia). rewrite changed_l by (rewrite be_length; cbn; lia). cbn [length Nat.sub]. now rewrite En.
    - destruct (B 2) as (n & Hn & En). exists v, r, n. split; [exact Hn|]. rewrite changed_r by (cbn; lia). rewrite changed_l by (rewrite be_length; cbn; lia). cbn [length Nat.sub]. now rewrite En.
    - destruct (B 3) as (n & Hn & En). exists v, r, n. split; [exact Hn|]. rewrite changed_r by (cbn; lia). rewrite changed_l by (rewrite be_length; cbn; lia). cbn [length Nat.sub]. now rewrite En. }
  destruct Q as (v' & r' & len' & Hl' & ->).
  destruct (same_parse _ _ _ _ _ _ v' r' len' _ _ _ Hl Hl' T T P0) as (m' & P' & Is & H1 & H2). exists m'. rewrite H1, H2. auto.
Qed.
Lemma change_tag b m l k x i j t w mt : Parse b = Ok (Typed m) -> m_kind m = go_type mt -> TLVs (skipn 8 b) l -> 8 + k < length b -> spot_at 0 l k = STag i j ->
  nth_error l i = Some (t, w) ->
  (In (val (changed j x (be 2 t))) (rfc_params mt) -> exists m', Parse (changed (8 + k) x b) = Ok (Typed m') /\ m_kind m' = m_kind m) /\
  (~ In (val (changed j x (be 2 t))) (rfc_params mt) -> Parse (changed (8 + k) x b) = Err EMsgInvalidParameter).
Proof.
  intros P K T Hk S Hi. pose proof P as P0. apply packet_of in P as (v & r & c & ty & len & Hl & E & l0 & T0 & D). rewrite <- (TLVs_same _ _ _ T T0) in D. clear l0 T0.
  assert (Hb : k < length (skipn 8 b)) by (rewrite skipn_length; lia).
  pose proof (TLVs_changed _ _ T k x Hb) as X. rewrite S in X. destruct X as (l' & (l1 & t0 & w0 & l2 & -> & <- & J & ->) & T').
  rewrite nth_mid in Hi. injection Hi as -> ->.
  rewrite E in P0 |- *. rewrite changed_body. destruct (Parse_list v r c ty len _ _ Hl T) as [A1 A2]. destruct (Parse_list v r c ty len _ _ Hl T') as [B1 B2].
  destruct D as [(mt' & D & F)|D]; [|rewrite (A2 D) in P0; discriminate].
  destruct (A1 mt' D) as [A _]. destruct (A F) as (a & Pa & Ka & _). rewrite Pa in P0. injection P0 as ->.
  assert (mt' = mt) as ->. { rewrite Ka in K. destruct mt', mt; try reflexivity; discriminate K. }
  destruct (B1 mt D) as [B Nf]. split; intros H.
  - destruct B as (a' & Pb & Kb & _). { rewrite Forall_app in F |- *. destruct F as [F1 F2]. split; [exact F1|]. inversion F2; subst. constructor; auto. }
    exists a'. split; [exact Pb|congruence].
  - apply Nf. intros F'. rewrite Forall_app in F'. destruct F' as [_ F']. inversion F'; subst. contradiction.
Qed.
Lemma short_value (v : list byte) : length v < 100 -> length v <= max_value_len.
Proof. Transparent max_value_len. unfold max_value_len. Opaque max_value_len. lia. Qed.
