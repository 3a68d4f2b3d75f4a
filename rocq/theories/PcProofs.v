(** Proofs about package pc. *)
From Verif Require Import GoBase BaseProofs PcModel PcSpec.
From Coq Require Import Arith Lia ZifyBool ZifyNat ZifyN.
Ltac Zify.zify_post_hook ::= Z.div_mod_to_equations.
Open Scope nat_scope.

Lemma str_eqb_iff a b : str_eqb a b = true <-> a = b.
Proof. unfold str_eqb. destruct (list_eq_dec _ a b); split; congruence. Qed.
Lemma str_eqb_refl a : str_eqb a a = true.
Proof. now apply str_eqb_iff. Qed.

Lemma vname_not_none v : str_eqb (vname v) VariantNone = false.
Proof. now destruct v. Qed.
Lemma vname_slice v : variant_slice (vname v) = widths v.
Proof. now destruct v. Qed.
Lemma vname_bits v : BitLength (vname v) = bits v.
Proof. now destruct v. Qed.
Lemma bits_le v : (bits v <= 24)%N.
Proof. destruct v; vm_compute; discriminate. Qed.

(** ** decimal *)
Definition dstep (a : N) (c : byte) : N := (a * 10 + (b2n c - 48))%N.

Lemma digit_iff c d : digit c = Some d <-> is_digit c /\ d = (b2n c - 48)%N.
Proof.
  unfold digit, is_digit. destruct ((48 <=? b2n c) && (b2n c <=? 57))%N eqn:E.
  - split; [intros H; inversion H; split; lia|intros [_ ->]; reflexivity].
  - split; [discriminate|intros [H _]; lia].
Qed.

Lemma digits_iff s : forall acc n, digits s acc = Some n <-> Forall is_digit s /\ fold_left dstep s acc = n.
Proof.
  induction s as [|c r IH]; intros acc n; cbn [digits fold_left].
  - split; [intros H; inversion H; auto|intros [_ ->]; reflexivity].
  - destruct (digit c) as [d|] eqn:E.
    + apply digit_iff in E. destruct E as [Hc ->]. rewrite IH. fold (dstep acc c).
      split; intros [H1 H2]; split; auto. now inversion H1.
    + split; [discriminate|]. intros [H _]. inversion H; subst.
      assert (digit c = Some (b2n c - 48)%N) by (apply digit_iff; auto). congruence.
Qed.

Lemma atou_iff s n : atou s = Some n <-> decimal s n.
Proof.
  unfold atou, decimal. destruct s as [|c r].
  - split; [discriminate|intros (H & _); congruence].
  - rewrite digits_iff. unfold dec_val. fold dstep. split.
    + intros [H1 H2]. repeat split; auto. discriminate.
    + intros (_ & H1 & H2). auto.
Qed.

Lemma decimal_Atoi s n : decimal s n -> (n < 9223372036854775808)%N -> Atoi s = Some (Z.of_N n).
Proof.
  intros D L. pose proof (proj2 (atou_iff s n) D) as A.
  destruct D as (Hne & Hd & _). destruct s as [|c r]; [congruence|].
  inversion Hd as [|? ? Hc _]; subst.
  assert (c <> x2d) by (intros ->; unfold is_digit in Hc; vm_compute in Hc; intuition congruence).
  assert (c <> x2b) by (intros ->; unfold is_digit in Hc; vm_compute in Hc; intuition congruence).
  unfold Atoi. replace (n <? 9223372036854775808)%N with true by lia.
  destruct c; try congruence; rewrite A; replace (n <? 9223372036854775808)%N with true by lia; reflexivity.
Qed.

Lemma itoa_loop_spec fuel : forall n acc, (0 < fuel)%nat -> (n < 10 ^ N.of_nat fuel)%N ->
  exists ds, itoa_loop fuel n acc = ds ++ acc /\ decimal ds n /\ canonical ds.
Proof.
  induction fuel as [|f IH]; intros n acc Hf Hn; [lia|].
  assert (D : forall m, (m < 10)%N -> is_digit (n2b (48 + m)) /\ (b2n (n2b (48 + m)) - 48 = m)%N).
  { intros m Hm. unfold is_digit. rewrite b2n_n2b. rewrite N.mod_small by lia. lia. }
  cbn [itoa_loop]. destruct (n <? 10)%N eqn:E.
  - exists [n2b (48 + n mod 10)]. split; [reflexivity|]. rewrite N.mod_small by lia.
    destruct (D n ltac:(lia)) as [D1 D2]. split.
    + split; [discriminate|]. split; [auto|]. unfold dec_val. cbn [fold_left]. rewrite D2. lia.
    + intros c r H Hc. now inversion H.
  - assert (Hq : (n / 10 < 10 ^ N.of_nat f)%N).
    { rewrite Nnat.Nat2N.inj_succ, N.pow_succ_r' in Hn. apply N.div_lt_upper_bound; lia. }
    assert (f <> 0) by (intros ->; change (10 ^ N.of_nat 0)%N with 1%N in Hq; lia).
    destruct (IH (n / 10)%N (n2b (48 + n mod 10) :: acc) ltac:(lia) Hq) as (ds & E1 & D1 & C1).
    exists (ds ++ [n2b (48 + n mod 10)]). split; [rewrite E1, <- app_assoc; reflexivity|].
    destruct (D (n mod 10)%N ltac:(lia)) as [D2 D3]. destruct D1 as (Dn & Df & Dv). split.
    + split; [destruct ds; discriminate|]. split; [apply Forall_app; split; auto|].
      unfold dec_val in *. rewrite fold_left_app. cbn [fold_left]. rewrite Dv, D3. lia.
    + intros c r Hcr Hc. destruct ds as [|c' r']; [congruence|]. cbn [app] in Hcr.
      inversion Hcr; subst. rewrite (C1 _ _ eq_refl eq_refl) in *.
      unfold dec_val in Dv. cbn [fold_left] in Dv. change (b2n x30) with 48%N in Dv. lia.
Qed.

Lemma Itoa_spec n : (n < 4294967296)%N -> decimal (Itoa n) n /\ canonical (Itoa n).
Proof.
  intros H. unfold Itoa. destruct (itoa_loop_spec 20 n []) as (ds & E & D & C); [lia| |].
  - eapply N.lt_trans; [exact H|]. reflexivity.
  - rewrite app_nil_r in E. rewrite E. auto.
Qed.

(** canonical decimal notation is unique *)
Lemma fold_dstep_lin s : forall a, fold_left dstep s a = (a * 10 ^ N.of_nat (length s) + fold_left dstep s 0)%N.
Proof.
  induction s as [|c r IH]; intros a; cbn [fold_left length].
  - rewrite N.mul_1_r. lia.
  - rewrite IH. rewrite (IH (dstep 0 c)). unfold dstep.
    rewrite Nnat.Nat2N.inj_succ, N.pow_succ_r'. nia.
Qed.
Lemma dec_val_bound s : Forall is_digit s -> (fold_left dstep s 0 < 10 ^ N.of_nat (length s))%N.
Proof.
  induction s as [|c r IH]; intros H; cbn [fold_left length]; [reflexivity|].
  inversion H as [|? ? Hc Hr]; subst. specialize (IH Hr). rewrite fold_dstep_lin.
  rewrite Nnat.Nat2N.inj_succ, N.pow_succ_r'. unfold dstep, is_digit in *. nia.
Qed.
Lemma dec_same_len : forall s t, length s = length t -> Forall is_digit s -> Forall is_digit t ->
  fold_left dstep s 0%N = fold_left dstep t 0%N -> s = t.
Proof.
  induction s as [|c r IH]; intros [|d t] L Hs Ht E; try discriminate; [reflexivity|].
  inversion Hs as [|? ? Hc Hr]; inversion Ht as [|? ? Hd Htt]; subst.
  cbn [length] in L. cbn [fold_left] in E. rewrite fold_dstep_lin, (fold_dstep_lin t) in E.
  pose proof (dec_val_bound _ Hr). pose proof (dec_val_bound _ Htt).
  injection L as L'. rewrite <- L' in *.
  set (P := (10 ^ N.of_nat (length r))%N) in *.
  change (dstep 0 c) with (0 * 10 + (b2n c - 48))%N in E.
  change (dstep 0 d) with (0 * 10 + (b2n d - 48))%N in E. rewrite !N.add_0_l, !(N.mul_comm _ P) in E.
  destruct (N.div_mod_unique _ _ _ _ _ H H0 E) as [E1' E2]. unfold is_digit in *.
  assert (E1 : b2n c = b2n d) by lia.
  f_equal; [now apply b2n_inj|]. apply IH; auto.
Qed.
Lemma canonical_unique s t n : decimal s n -> canonical s -> decimal t n -> canonical t -> s = t.
Proof.
  assert (K : forall s n, decimal s n -> canonical s -> (1 < length s)%nat ->
                (10 ^ N.of_nat (length s - 1) <= n)%N).
  { intros u m (Hn & Hd & Hv) C L. destruct u as [|c r]; [cbn in L; lia|].
    unfold dec_val in Hv. fold dstep in Hv. cbn [fold_left] in Hv. rewrite fold_dstep_lin in Hv.
    cbn [length]. replace (S (length r) - 1) with (length r) by lia.
    inversion Hd as [|? ? Hc Hr]; subst. unfold is_digit in Hc.
    assert (b2n c <> 48%N).
    { intros Hz. assert (c = x30) by (apply b2n_inj; rewrite Hz; reflexivity). subst c.
      specialize (C _ _ eq_refl eq_refl). subst r. cbn in L. lia. }
    unfold dstep at 1. nia. }
  intros Ds Cs Dt Ct. pose proof Ds as (Hs & Hsd & Hsv). pose proof Dt as (Ht & Htd & Htv).
  apply dec_same_len; auto.
  2:{ unfold dec_val in *. fold dstep in *. congruence. }
  pose proof (dec_val_bound _ Hsd) as B1. pose proof (dec_val_bound _ Htd) as B2.
  unfold dec_val in *. fold dstep in *. rewrite Hsv in B1. rewrite Htv in B2.
  destruct s as [|cs rs]; [congruence|]. destruct t as [|ct rt]; [congruence|].
  cbn [length] in *.
  destruct (Nat.lt_trichotomy (length rs) (length rt)) as [L|[L|L]]; [|lia|].
  - specialize (K _ _ Dt Ct ltac:(cbn [length]; lia)). cbn [length] in K.
    assert (10 ^ N.of_nat (S (length rs)) <= 10 ^ N.of_nat (S (length rt) - 1))%N
      by (apply N.pow_le_mono_r; lia). lia.
  - specialize (K _ _ Ds Cs ltac:(cbn [length]; lia)). cbn [length] in K.
    assert (10 ^ N.of_nat (S (length rt)) <= 10 ^ N.of_nat (S (length rs) - 1))%N
      by (apply N.pow_le_mono_r; lia). lia.
Qed.

(** ** split and join *)
Lemma digit_no_dash s : Forall is_digit s -> no_dash s.
Proof.
  intros H. eapply Forall_impl; [|exact H]. cbn beta. intros c Hc ->.
  unfold is_digit in Hc. vm_compute in Hc. intuition congruence.
Qed.
Lemma beqb_refl c : Byte.eqb c c = true.
Proof. now destruct c. Qed.
Lemma beqb_neq c d : c <> d -> Byte.eqb c d = false.
Proof. intros H. destruct (Byte.eqb c d) eqn:E; auto. apply Byte.byte_dec_bl in E. congruence. Qed.
Lemma split_nonempty s : split_dash s <> [].
Proof. destruct s as [|c r]; cbn [split_dash]; [discriminate|]. destruct (Byte.eqb c x2d); [discriminate|]. destruct (split_dash r); discriminate. Qed.
Lemma split_one w : no_dash w -> split_dash w = [w].
Proof.
  induction w as [|c r IH]; intros H; [reflexivity|]. inversion H; subst.
  cbn [split_dash]. rewrite beqb_neq by auto. now rewrite IH.
Qed.
Lemma split_app w s : no_dash w -> split_dash (w ++ x2d :: s) = w :: split_dash s.
Proof.
  induction w as [|c r IH]; intros H; [reflexivity|]. inversion H; subst.
  cbn [app split_dash]. rewrite beqb_neq by auto. now rewrite IH.
Qed.
Lemma text_split ws s : text ws s -> Forall no_dash ws -> split_dash s = ws.
Proof.
  induction 1 as [w|w ws s T IH]; intros H; inversion H; subst.
  - now apply split_one.
  - rewrite split_app by auto. now rewrite IH.
Qed.
(** every string is the text of its dash-separated components *)
Lemma split_text s : text (split_dash s) s /\ Forall no_dash (split_dash s).
Proof.
  induction s as [|c r [IH1 IH2]]; cbn [split_dash].
  - split; [constructor|]. constructor; constructor.
  - destruct (Byte.eqb c x2d) eqn:E.
    + apply Byte.byte_dec_bl in E. subst. split; [apply (text_cons [])|]; auto. constructor; auto. constructor.
    + assert (c <> x2d) by (intros ->; discriminate).
      destruct (split_dash r) as [|w ws] eqn:Es; [now apply split_nonempty in Es|].
      inversion IH2; subst. split.
      * inversion IH1; subst; [constructor|]. apply (text_cons (c :: w)); auto.
      * constructor; auto. constructor; auto.
Qed.
Lemma text_fun ws s : text ws s -> forall s', text ws s' -> s = s'.
Proof.
  induction 1 as [w|w ws s T IH]; intros s' H; inversion H; subst; auto.
  - match goal with H : text [] _ |- _ => inversion H end.
  - inversion T.
  - f_equal. f_equal. now apply IH.
Qed.
Lemma join_text l : l <> [] -> text l (join_dash l).
Proof.
  induction l as [|w r IH]; intros H; [congruence|]. destruct r as [|w' r'].
  - constructor.
  - cbn [join_dash]. apply text_cons. apply IH. discriminate.
Qed.

(** ** uint32 arithmetic *)
Lemma sub32_le a b : (b <= a)%N -> (a < 4294967296)%N -> sub32 a b = (a - b)%N.
Proof. intros H1 H2. unfold sub32. rewrite Z.mod_small by lia. lia. Qed.
Lemma shl32_one r : (r < 32)%N -> shl32 1 r = (2 ^ r)%N.
Proof.
  intros H. unfold shl32. replace (32 <=? r)%N with false by lia.
  rewrite N.shiftl_1_l. unfold u32. apply N.mod_small.
  change 4294967296%N with (2 ^ 32)%N. apply N.pow_lt_mono_r; lia.
Qed.
Lemma pow32 r : (r < 32)%N -> (2 ^ r < 4294967296)%N.
Proof. intros H. change 4294967296%N with (2 ^ 32)%N. apply N.pow_lt_mono_r; lia. Qed.
Lemma mask_eq r n : (r < 32)%N -> N.land n (sub32 (shl32 1 r) 1) = (n mod 2 ^ r)%N.
Proof.
  intros H. rewrite shl32_one by auto. pose proof (pow32 r H).
  assert (1 <= 2 ^ r)%N by (pose proof (N.pow_nonzero 2 r); lia).
  rewrite sub32_le by lia. rewrite <- N.land_ones. f_equal. rewrite N.ones_equiv. lia.
Qed.

Lemma field_eq n r v : (v <= r)%N -> (r < 32)%N ->
  shr32 (N.land n (sub32 (shl32 1 r) (shl32 1 (sub32 r v)))) (sub32 r v) = ((n / 2 ^ (r - v)) mod 2 ^ v)%N.
Proof.
  intros H1 H2. pose proof (pow32 r H2). rewrite (sub32_le r v) by lia.
  rewrite !shl32_one by lia.
  assert (2 ^ (r - v) <= 2 ^ r)%N by (apply N.pow_le_mono_r; lia).
  rewrite sub32_le by lia.
  unfold shr32. replace (32 <=? r - v)%N with false by lia.
  assert (E : (2 ^ r - 2 ^ (r - v) = N.shiftl (N.ones v) (r - v))%N).
  { rewrite N.shiftl_mul_pow2, N.ones_equiv. replace r with ((r - v) + v)%N at 1 by lia.
    rewrite N.pow_add_r. pose proof (N.pow_nonzero 2 v). pose proof (N.pow_nonzero 2 (r-v)). nia. }
  rewrite E, N.shiftr_land, N.shiftr_shiftl_l by lia. rewrite N.sub_diag, N.shiftl_0_r.
  rewrite N.land_ones, N.shiftr_div_pow2. reflexivity.
Qed.

(** ** formatting *)
Definition sum (ws : list N) : N := fold_right N.add 0%N ws.
Fixpoint fields (ws : list N) (n : N) : list N :=
  match ws with
  | [] => []
  | w :: ws' => ((n / 2 ^ sum ws') mod 2 ^ w)%N :: fields ws' n
  end.

Lemma fmt_loop_eq ws : forall n, (sum ws < 32)%N ->
  fmt_loop ws n (sum ws) = map Itoa (fields ws n).
Proof.
  induction ws as [|w ws IH]; intros n H; [reflexivity|].
  cbn [fmt_loop fields map]. unfold sum in *. cbn [fold_right] in *. fold (sum ws) in *.
  rewrite field_eq by lia. rewrite sub32_le by lia.
  replace (w + sum ws - w)%N with (sum ws) by lia. rewrite IH by lia. reflexivity.
Qed.

Lemma fields_range ws n : in_range ws (fields ws n).
Proof.
  induction ws as [|w ws IH]; cbn [fields]; constructor; auto.
  apply N.mod_lt. apply N.pow_nonzero. lia.
Qed.

Lemma fields_compose ws n : compose ws (fields ws n) = (n mod 2 ^ sum ws)%N.
Proof.
  induction ws as [|w ws IH]; cbn [fields compose sum fold_right].
  - now rewrite N.mod_1_r.
  - fold (sum ws). rewrite IH.
    assert (P1 : (2 ^ sum ws <> 0)%N) by (apply N.pow_nonzero; lia).
    assert (P2 : (2 ^ w <> 0)%N) by (apply N.pow_nonzero; lia).
    rewrite N.add_comm with (n := w). rewrite N.pow_add_r.
    rewrite N.mod_mul_r by auto. lia.
Qed.

Lemma compose_lt ws cs : in_range ws cs -> (compose ws cs < 2 ^ sum ws)%N.
Proof.
  induction 1 as [|w c ws cs Hc H IH]; cbn [compose sum fold_right]; [reflexivity|].
  fold (sum ws). rewrite N.pow_add_r.
  assert (P1 : (2 ^ sum ws <> 0)%N) by (apply N.pow_nonzero; lia). nia.
Qed.

Lemma fields_of_compose ws cs : in_range ws cs -> fields ws (compose ws cs) = cs.
Proof.
  assert (G : forall ws n k, fields ws (k * 2 ^ sum ws + n)%N = fields ws n).
  { clear. induction ws as [|w ws IH]; intros n k; cbn [fields]; [reflexivity|].
    assert (P1 : (2 ^ sum ws <> 0)%N) by (apply N.pow_nonzero; lia).
    cbn [sum fold_right]. fold (sum ws). rewrite N.pow_add_r. f_equal.
    - replace (k * (2 ^ w * 2 ^ sum ws) + n)%N with (n + (k * 2 ^ w) * 2 ^ sum ws)%N by lia.
      rewrite N.div_add by auto. rewrite N.mod_add; auto. apply N.pow_nonzero; lia.
    - replace (k * (2 ^ w * 2 ^ sum ws) + n)%N with ((k * 2 ^ w) * 2 ^ sum ws + n)%N by lia.
      apply IH. }
  induction 1 as [|w c ws cs Hc H IH]; cbn [compose fields]; [reflexivity|].
  fold (sum ws). assert (P1 : (2 ^ sum ws <> 0)%N) by (apply N.pow_nonzero; lia).
  rewrite G, IH. f_equal. rewrite N.add_comm, N.div_add by auto.
  rewrite N.div_small by now apply compose_lt. rewrite N.mod_small; lia.
Qed.

Lemma convRawToStr_eq v n :
  convRawToStr n (vname v) = Some (join_dash (map Itoa (fields (widths v) n))).
Proof.
  unfold convRawToStr. rewrite vname_not_none, vname_slice, vname_bits.
  pose proof (bits_le v). rewrite mask_eq by lia. unfold bits. fold (sum (widths v)).
  rewrite fmt_loop_eq by (unfold bits, sum in *; lia). f_equal. f_equal. f_equal.
  assert (G : forall ws n k, fields ws (n mod 2 ^ (k + sum ws))%N = fields ws n).
  { clear. induction ws as [|w ws IH]; intros n k; cbn [fields]; [reflexivity|].
    assert (P1 : (2 ^ sum ws <> 0)%N) by (apply N.pow_nonzero; lia).
    cbn [sum fold_right]. fold (sum ws). f_equal.
    - replace (k + (w + sum ws))%N with (sum ws + (w + k))%N by lia.
      rewrite N.pow_add_r. rewrite N.mod_mul_r by (auto; apply N.pow_nonzero; lia).
      rewrite N.mul_comm, N.div_add by auto. rewrite N.div_small by (apply N.mod_lt; auto).
      rewrite N.add_0_l. rewrite N.pow_add_r. rewrite N.mod_mul_r by (apply N.pow_nonzero; lia).
      rewrite N.mul_comm, N.mod_add by (apply N.pow_nonzero; lia). apply N.mod_mod. apply N.pow_nonzero; lia.
    - replace (k + (w + sum ws))%N with ((k + w) + sum ws)%N by lia. apply IH. }
  apply (G (widths v) n 0%N).
Qed.

(** ** parsing *)
Lemma atoi_u32 d x : Atoi d = Some (Z.of_N x) -> (x < 4294967296)%N -> u32z (Z.of_N x) = x.
Proof. intros _ H. unfold u32z. rewrite Z.mod_small by lia. lia. Qed.

Lemma raw_loop_eq ds cs : Forall2 decimal ds cs -> forall ws acc, in_range ws cs -> (sum ws < 32)%N ->
  raw_loop ds ws (sum ws) (acc * 2 ^ sum ws)%N = Some (acc * 2 ^ sum ws + compose ws cs)%N.
Proof.
  induction 1 as [|d c ds cs Hd H IH]; intros ws acc R L; inversion R as [|w ? ws' ? Hc R']; subst.
  - cbn [raw_loop compose]. f_equal. lia.
  - cbn [raw_loop]. cbn [sum fold_right] in *. fold (sum ws') in *.
    assert (C32 : (c < 4294967296)%N).
    { eapply N.lt_trans; [exact Hc|]. apply pow32. lia. }
    rewrite (decimal_Atoi d c) by (auto; lia).
    rewrite sub32_le by lia. replace (w + sum ws' - w)%N with (sum ws') by lia.
    unfold u32z. rewrite Z.mod_small by lia. rewrite N2Z.id.
    unfold shl32. replace (32 <=? sum ws')%N with false by lia. rewrite N.shiftl_mul_pow2.
    assert (P1 : (2 ^ sum ws' <> 0)%N) by (apply N.pow_nonzero; lia).
    assert (B : (c * 2 ^ sum ws' < 2 ^ (w + sum ws'))%N) by (rewrite N.pow_add_r; nia).
    unfold u32. rewrite N.mod_small by (eapply N.lt_trans; [exact B|]; apply pow32; lia).
    assert (E : N.lor (acc * 2 ^ (w + sum ws')) (c * 2 ^ sum ws') = ((acc * 2 ^ w + c) * 2 ^ sum ws')%N).
    { assert (D : N.land (acc * 2 ^ (w + sum ws')) (c * 2 ^ sum ws') = 0%N).
      { apply N.bits_inj_0. intros k. rewrite N.land_spec. destruct (N.lt_ge_cases k (w + sum ws')) as [K|K].
        - rewrite N.mul_pow2_bits_low by auto. reflexivity.
        - rewrite <- (N.mod_small (c * 2 ^ sum ws') (2 ^ (w + sum ws'))) by auto.
          rewrite N.mod_pow2_bits_high by auto. apply andb_false_r. }
      rewrite <- N.lxor_lor by exact D. rewrite <- N.add_nocarry_lxor by exact D.
      rewrite N.pow_add_r. lia. }
    rewrite E, IH by (auto; lia). f_equal. cbn [compose]. fold (sum ws').
    rewrite N.pow_add_r. lia.
Qed.

Lemma Forall2_len {A B} (R : A -> B -> Prop) l m : Forall2 R l m -> length l = length m.
Proof. induction 1; cbn; auto. Qed.

Lemma dec_list_no_dash ds cs : Forall2 decimal ds cs -> Forall no_dash ds.
Proof. induction 1 as [|d c ds cs (H1 & H2 & _) H IH]; constructor; auto. now apply digit_no_dash. Qed.

Lemma convStrToRaw_eq v f ds cs :
  text ds f -> Forall2 decimal ds cs -> in_range (widths v) cs ->
  convStrToRaw f (vname v) = Some (compose (widths v) cs).
Proof.
  intros T D R. unfold convStrToRaw. rewrite vname_not_none.
  rewrite (text_split _ _ T) by (eapply dec_list_no_dash; eauto).
  rewrite vname_slice, vname_bits.
  assert (L : @length str ds = length (widths v)).
  { change (@length str ds) with (length ds). rewrite (Forall2_len _ _ _ D). symmetry. eapply Forall2_len; exact R. }
  rewrite L, Nat.eqb_refl. replace (length (widths v) =? 0) with false by now destruct v.
  cbn [negb]. pose proof (bits_le v).
  apply (raw_loop_eq ds cs D (widths v) 0%N R). unfold bits in *. fold (sum (widths v)) in *. lia.
Qed.

Lemma raw_loop_none ds : forall ws r n, length ds = length ws ->
  (raw_loop ds ws r n = None <-> Exists (fun d => Atoi d = None) ds).
Proof.
  induction ds as [|d ds IH]; intros [|w ws] r n L; try discriminate; cbn [raw_loop].
  - split; [discriminate|]. intros H. inversion H.
  - destruct (Atoi d) as [x|] eqn:E.
    + rewrite IH by (cbn in L; lia). split; [auto|]. intros H. inversion H; subst; auto. congruence.
    + split; auto.
Qed.


Lemma Atoi_numeric s : no_dash s -> (Atoi s <> None <-> numeric s).
Proof.
  intros ND. split.
  - intros H. unfold Atoi in H. destruct s as [|c r]; [now cbn in H|].
    inversion ND as [|? ? Hc _]; subst.
    destruct (Byte.byte_eq_dec c x2b) as [->|Hp].
    + destruct (atou r) as [n|] eqn:A; [|congruence].
      destruct (n <? 9223372036854775808)%N eqn:L; [|congruence].
      exists n. split; [lia|]. right. exists r. split; auto. now apply atou_iff.
    + assert (H' : match atou (c :: r) with
         | Some n => if (n <? 9223372036854775808)%N then Some (Z.of_N n) else None
         | None => None end <> None) by (destruct c; try congruence; exact H).
      destruct (atou (c :: r)) as [n|] eqn:A; [|congruence].
      destruct (n <? 9223372036854775808)%N eqn:L; [|congruence].
      exists n. split; [lia|]. left. now apply atou_iff.
  - intros (n & L & [D|(r & -> & D)]).
    + rewrite (decimal_Atoi _ _ D L). discriminate.
    + cbn [Atoi]. apply atou_iff in D. rewrite D. replace (n <? 9223372036854775808)%N with true by lia. discriminate.
Qed.

Lemma widths_len_pos v : length (widths v) <> 0.
Proof. now destruct v. Qed.

(** ** the theorems *)
Lemma New_eq v raw :
  NewPointCode raw (vname v) =
  Some (mkPC (raw mod 2 ^ bits v) (join_dash (map Itoa (fields (widths v) (raw mod 2 ^ bits v)))) (vname v)).
Proof.
  unfold NewPointCode, ConvertTo. rewrite vname_bits. pose proof (bits_le v).
  rewrite mask_eq by lia. cbn [pc_raw]. rewrite convRawToStr_eq. reflexivity.
Qed.

Lemma String_vname raw s v : String_ (mkPC raw s (vname v)) = s.
Proof. unfold String_. cbn [pc_form pc_formatted]. now rewrite vname_not_none. Qed.

Lemma fields_dec ws n : (sum ws < 32)%N ->
  Forall2 (fun d c => decimal d c /\ canonical d) (map Itoa (fields ws n)) (fields ws n).
Proof.
  induction ws as [|w ws IH]; intros H; cbn [fields map]; constructor.
  - apply Itoa_spec. cbn [sum fold_right] in H. fold (sum ws) in H.
    eapply N.lt_le_trans with (m := (2 ^ w)%N).
    + apply N.mod_lt, N.pow_nonzero. lia.
    + apply N.lt_le_incl. apply pow32. lia.
  - apply IH. cbn [sum fold_right] in H. fold (sum ws) in H. lia.
Qed.

Lemma Forall2_weaken {A B} (P Q : A -> B -> Prop) l m :
  (forall a b, P a b -> Q a b) -> Forall2 P l m -> Forall2 Q l m.
Proof. induction 2; constructor; auto. Qed.


Lemma printed_join v n :
  printed v (n mod 2 ^ bits v) (join_dash (map Itoa (fields (widths v) n))).
Proof.
  exists (map Itoa (fields (widths v) n)), (fields (widths v) n).
  repeat split.
  - apply join_text. destruct v; discriminate.
  - apply fields_dec. pose proof (bits_le v). unfold bits in *. fold (sum (widths v)) in *. lia.
  - apply fields_range.
  - apply fields_compose.
Qed.

Lemma printed_unique v n s t : printed v n s -> printed v n t -> s = t.
Proof.
  intros (ds & cs & T & D & R & C) (ds' & cs' & T' & D' & R' & C').
  assert (cs = cs') as <-.
  { rewrite <- (fields_of_compose _ _ R), <- (fields_of_compose _ _ R'). congruence. }
  assert (ds = ds') as <-.
  { clear - D D'. revert ds' D'. induction D as [|d c ds cs [H1 H2] H IH]; intros ds' D'; inversion D'; subst; auto.
    match goal with H : _ /\ _ |- _ => destruct H end. f_equal; [eapply canonical_unique; eauto|auto]. }
  eapply text_fun; eauto.
Qed.

Lemma pc_number_text_number v raw :
  exists p q, NewPointCode raw (vname v) = Some p /\
    Uint32_ p = (raw mod 2 ^ bits v)%N /\
    Variant p = vname v /\
    printed v (raw mod 2 ^ bits v) (String_ p) /\
    NewPointCodeFrom (String_ p) (vname v) = Some q /\
    Uint32_ q = (raw mod 2 ^ bits v)%N /\ String_ q = String_ p.
Proof.
  rewrite New_eq. eexists. exists (mkPC (raw mod 2 ^ bits v)
     (join_dash (map Itoa (fields (widths v) (raw mod 2 ^ bits v)))) (vname v)).
  split; [reflexivity|]. rewrite String_vname.
  assert (P : printed v (raw mod 2 ^ bits v) (join_dash (map Itoa (fields (widths v) (raw mod 2 ^ bits v))))).
  { pose proof (printed_join v (raw mod 2 ^ bits v)) as P. rewrite N.mod_mod in P by (apply N.pow_nonzero; lia). exact P. }
  repeat split; auto.
  destruct P as (ds & cs & T & D & R & C).
  unfold NewPointCodeFrom. rewrite vname_not_none.
  assert (D' : Forall2 decimal ds cs) by (eapply Forall2_weaken; [|exact D]; cbn; tauto).
  rewrite (convStrToRaw_eq v _ ds cs T D' R).
  rewrite C. reflexivity.
Qed.

Lemma pc_text_number v f ds cs :
  text ds f -> Forall2 decimal ds cs -> in_range (widths v) cs ->
  exists p, NewPointCodeFrom f (vname v) = Some p /\
    Uint32_ p = compose (widths v) cs /\ (Uint32_ p < 2 ^ bits v)%N /\ String_ p = f /\ Variant p = vname v.
Proof.
  intros T D R. unfold NewPointCodeFrom. rewrite vname_not_none, (convStrToRaw_eq v f ds cs T D R).
  eexists. split; [reflexivity|]. rewrite String_vname. repeat split. now apply compose_lt.
Qed.

Lemma pc_canonical_text v f ds cs :
  text ds f -> Forall2 decimal ds cs -> Forall canonical ds -> in_range (widths v) cs ->
  exists p, NewPointCode (compose (widths v) cs) (vname v) = Some p /\ String_ p = f.
Proof.
  intros T D Cn R. destruct (pc_number_text_number v (compose (widths v) cs)) as (p & q & E & U & _ & P & _).
  exists p. split; [exact E|].
  eapply printed_unique; [exact P|]. exists ds, cs. repeat split; auto.
  - clear - D Cn. induction D; inversion Cn; subst; constructor; auto.
  - symmetry. apply N.mod_small. now apply compose_lt.
Qed.

Lemma pc_text_nil v f :
  NewPointCodeFrom f (vname v) = None <->
  (forall ds, text ds f -> Forall no_dash ds ->
     length ds <> length (widths v) \/ Exists (fun d => ~ numeric d) ds).
Proof.
  assert (E : NewPointCodeFrom f (vname v) = None <->
     length (split_dash f) <> length (widths v) \/ Exists (fun d => ~ numeric d) (split_dash f)).
  { unfold NewPointCodeFrom, convStrToRaw. rewrite vname_not_none, vname_slice, vname_bits.
    pose proof (widths_len_pos v). destruct (split_text f) as [_ ND].
    assert (Hlen : length (split_dash f) <> 0)
      by (pose proof (split_nonempty f); destruct (split_dash f); [congruence|discriminate]).
    replace (length (split_dash f) =? 0) with false by lia.
    destruct (length (split_dash f) =? length (widths v)) eqn:L; cbn [negb].
    - apply Nat.eqb_eq in L.
      assert (X : raw_loop (split_dash f) (widths v) (bits v) 0 = None <-> Exists (fun d => ~ numeric d) (split_dash f)).
      { rewrite raw_loop_none by exact L. clear - ND. induction ND as [|d ds H1 H2 IH].
        - split; intros H; inversion H.
        - rewrite !Exists_cons, IH. pose proof (Atoi_numeric d H1) as A.
          destruct (Atoi d); split; intros [H|H]; auto; try discriminate.
          + destruct A as [A _]. exfalso. apply H, A. discriminate.
          + left. intros Hn. apply A in Hn. congruence. }
      destruct (raw_loop _ _ _ _); split.
      + discriminate. + intros [Hc|Hc]; [congruence|]. apply X in Hc. discriminate.
      + intros _. right. now apply X. + auto.
    - apply Nat.eqb_neq in L. split; auto. }
  rewrite E. split.
  - intros H ds T ND. rewrite (text_split _ _ T ND) in H. exact H.
  - intros H. destruct (split_text f) as [T ND]. exact (H _ T ND).
Qed.

Lemma ConvertTo_ok p v :
  exists s, ConvertTo p (vname v) = (Some s, mkPC (pc_raw p) s (pc_form p)) /\
    printed v (pc_raw p mod 2 ^ bits v) s.
Proof.
  unfold ConvertTo. rewrite convRawToStr_eq. eexists. split; [reflexivity|]. apply printed_join.
Qed.

(** variant 4-4-6 *)
Lemma new_446 raw : NewPointCode raw Variant446 = Some (mkPC 0 [x30; x2d; x30; x2d; x30] Variant446).
Proof.
  unfold NewPointCode. change (sub32 (shl32 1 (BitLength Variant446)) 1) with 0%N.
  rewrite N.land_0_r. reflexivity.
Qed.
Lemma from_446 f p : NewPointCodeFrom f Variant446 = Some p -> Uint32_ p = 0%N.
Proof.
  unfold NewPointCodeFrom, convStrToRaw. cbn [str_eqb].
  change (str_eqb Variant446 VariantNone) with false.
  change (variant_slice Variant446) with [4; 4; 6]%N. change (BitLength Variant446) with 0%N.
  assert (Z0 : forall x r, (32 <= r)%N -> shl32 x r = 0%N)
    by (intros x r H; unfold shl32; now replace (32 <=? r)%N with true by lia).
  destruct (split_dash f) as [|a [|b [|c [|d l]]]]; cbn [length Nat.eqb negb]; try discriminate.
  cbn [raw_loop].
  destruct (Atoi a); try discriminate. destruct (Atoi b); try discriminate. destruct (Atoi c); try discriminate.
  change (sub32 0 4) with 4294967292%N. change (sub32 4294967292 4) with 4294967288%N.
  change (sub32 4294967288 6) with 4294967282%N.
  rewrite !Z0 by lia. intros H. inversion H. reflexivity.
Qed.
