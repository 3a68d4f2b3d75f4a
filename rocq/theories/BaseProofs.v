(** Lemmas about the Go base notions and the elementary wire functions. *)
From Verif Require Import GoBase WireSpec.
From Coq Require Import Arith Lia ZifyBool ZifyNat ZifyN.
Ltac Zify.zify_post_hook ::= Z.div_mod_to_equations.
Open Scope nat_scope.

Lemma b2n_lt b : (b2n b < 256)%N.
Proof. unfold b2n. pose proof (Byte.to_N_bounded b). lia. Qed.

Lemma n2b_b2n b : n2b (b2n b) = b.
Proof.
  unfold n2b. rewrite N.mod_small by apply b2n_lt. unfold b2n. now rewrite Byte.of_to_N.
Qed.

Lemma b2n_n2b n : b2n (n2b n) = (n mod 256)%N.
Proof.
  unfold n2b, b2n. destruct (Byte.of_N (n mod 256)) as [b|] eqn:E.
  - now apply Byte.to_of_N in E.
  - apply Byte.of_N_None_iff in E. pose proof (N.mod_lt n 256). lia.
Qed.

Lemma b2n_inj a b : b2n a = b2n b -> a = b.
Proof. intros H. rewrite <- (n2b_b2n a), <- (n2b_b2n b). now rewrite H. Qed.

Lemma n2b_mod n : n2b (n mod 256) = n2b n.
Proof. unfold n2b. rewrite N.mod_mod by lia. reflexivity. Qed.

Lemma n2b_ext n m : (n mod 256 = m mod 256)%N -> n2b n = n2b m.
Proof. intros H. unfold n2b. now rewrite H. Qed.

(** encoding/binary agrees with the specification's [be]/[val] *)
Lemma put_u16_be v : put_u16 v = be 2 v.
Proof. unfold put_u16, be. cbn [app]. rewrite N.shiftr_div_pow2. reflexivity. Qed.

Lemma put_u32_be v : put_u32 v = be 4 v.
Proof.
  unfold put_u32, be. cbn [app]. rewrite !N.shiftr_div_pow2.
  rewrite !N.div_div by lia. reflexivity.
Qed.

Lemma lor_shiftl_add a b k : (a < 2 ^ k)%N -> N.lor a (N.shiftl b k) = (a + b * 2 ^ k)%N.
Proof.
  intros H. rewrite <- N.lxor_lor, N.add_nocarry_lxor, N.shiftl_mul_pow2; [reflexivity| |].
  - rewrite <- N.shiftl_mul_pow2. apply N.bits_inj. intros i. rewrite N.land_spec, N.bits_0.
    destruct (N.lt_ge_cases i k) as [L|L].
    + rewrite N.shiftl_spec_low by assumption. apply andb_false_r.
    + rewrite <- (N.mod_small a (2 ^ k)) by assumption.
      rewrite N.mod_pow2_bits_high by assumption. reflexivity.
  - apply N.bits_inj. intros i. rewrite N.land_spec, N.bits_0.
    destruct (N.lt_ge_cases i k) as [L|L].
    + rewrite N.shiftl_spec_low by assumption. apply andb_false_r.
    + rewrite <- (N.mod_small a (2 ^ k)) by assumption.
      rewrite N.mod_pow2_bits_high by assumption. reflexivity.
Qed.

Lemma get_u16_val a b : get_u16 a b = val [a; b].
Proof.
  unfold get_u16, val. cbn [fold_left]. pose proof (b2n_lt a); pose proof (b2n_lt b).
  rewrite lor_shiftl_add by (change (2 ^ 8)%N with 256%N; lia).
  change (2 ^ 8)%N with 256%N. lia.
Qed.

Lemma get_u32_val a b c d : get_u32 a b c d = val [a; b; c; d].
Proof.
  unfold get_u32, val. cbn [fold_left].
  pose proof (b2n_lt a); pose proof (b2n_lt b); pose proof (b2n_lt c); pose proof (b2n_lt d).
  rewrite (lor_shiftl_add (b2n d)) by (change (2 ^ 8)%N with 256%N; lia).
  change (2 ^ 8)%N with 256%N.
  rewrite (lor_shiftl_add _ (b2n b)) by (change (2 ^ 16)%N with 65536%N; lia).
  change (2 ^ 16)%N with 65536%N.
  rewrite (lor_shiftl_add _ (b2n a)) by (change (2 ^ 24)%N with 16777216%N; lia).
  change (2 ^ 24)%N with 16777216%N. lia.
Qed.

Lemma be_length w n : length (be w n) = w.
Proof. revert n; induction w; intros n; cbn [be]; [easy|]. rewrite app_length, IHw. cbn. lia. Qed.

Lemma val_app l b : val (l ++ [b]) = (val l * 256 + b2n b)%N.
Proof. unfold val. rewrite fold_left_app. reflexivity. Qed.

Lemma val_be w n : val (be w n) = (n mod 256 ^ N.of_nat w)%N.
Proof.
  revert n; induction w; intros n.
  - cbn. now rewrite N.mod_1_r.
  - cbn [be]. rewrite val_app, IHw, b2n_n2b.
    replace (N.of_nat (S w)) with (N.succ (N.of_nat w)) by lia.
    rewrite N.pow_succ_r'.
    rewrite N.mod_mul_r; [lia|lia|]. apply N.pow_nonzero. lia.
Qed.

Lemma val_snoc_lt l : (val l < 256 ^ N.of_nat (length l))%N.
Proof.
  induction l as [|b l IH] using rev_ind; [cbn; lia|].
  rewrite val_app, app_length. cbn [length].
  replace (N.of_nat (length l + 1)) with (N.succ (N.of_nat (length l))) by lia.
  rewrite N.pow_succ_r'. pose proof (b2n_lt b). lia.
Qed.

Lemma be_val l : be (length l) (val l) = l.
Proof.
  induction l as [|b l IH] using rev_ind; [easy|].
  rewrite app_length. cbn [length]. rewrite Nat.add_1_r. cbn [be].
  rewrite val_app. pose proof (b2n_lt b).
  replace ((val l * 256 + b2n b) / 256)%N with (val l).
  2:{ apply N.div_unique with (r := b2n b); lia. }
  rewrite IH. f_equal. f_equal.
  rewrite <- (n2b_b2n b) at 2. apply n2b_ext. rewrite N.add_comm, N.mod_add by lia. reflexivity.
Qed.

Lemma val2_lt a b : (val [a; b] < 65536)%N.
Proof. exact (val_snoc_lt [a; b]). Qed.

Lemma val4_lt a b c d : (val [a; b; c; d] < 4294967296)%N.
Proof. exact (val_snoc_lt [a; b; c; d]). Qed.

Lemma be2_inv a b : be 2 (val [a; b]) = [a; b].
Proof. exact (be_val [a; b]). Qed.

Lemma be4_inv a b c d : be 4 (val [a; b; c; d]) = [a; b; c; d].
Proof. exact (be_val [a; b; c; d]). Qed.

Lemma be2_cons n : be 2 n = [n2b (n / 256); n2b n].
Proof. reflexivity. Qed.

Lemma val_be2 n : (n < 65536)%N -> val [n2b (n / 256); n2b n] = n.
Proof. intros H. change (val (be 2 n) = n). rewrite val_be. apply N.mod_small. exact H. Qed.

Lemma val_be4 n : (n < 4294967296)%N -> val (be 4 n) = n.
Proof. intros H. rewrite val_be. apply N.mod_small. exact H. Qed.

Lemma be_mod w n : be w (n mod 256 ^ N.of_nat w) = be w n.
Proof. rewrite <- val_be. rewrite <- (be_length w n) at 1. apply be_val. Qed.

(** * Slices *)
Lemma slice_full (b : list byte) lo : lo <= length b -> slice b lo (length b) = Ok (skipn lo b).
Proof.
  intros H. unfold slice.
  replace (lo <=? length b) with true by lia. replace (length b <=? length b) with true by lia.
  cbn [andb]. rewrite firstn_all2; [reflexivity|]. rewrite skipn_length. lia.
Qed.

Lemma slice_ok (b : list byte) lo hi :
  lo <= hi -> hi <= length b -> slice b lo hi = Ok (firstn (hi - lo) (skipn lo b)).
Proof.
  intros H1 H2. unfold slice. replace (lo <=? hi) with true by lia.
  replace (hi <=? length b) with true by lia. reflexivity.
Qed.

Lemma slice_panics (b : list byte) lo hi p :
  slice b lo hi = Panic p -> hi < lo \/ length b < hi.
Proof.
  unfold slice. destruct (lo <=? hi) eqn:E1; destruct (hi <=? length b) eqn:E2; cbn; intros H;
    try discriminate; lia.
Qed.

Lemma slice_not_err (b : list byte) lo hi e : slice b lo hi <> Err e.
Proof. unfold slice. destruct (_ && _); discriminate. Qed.

Lemma splice_length b lo s : lo + length s <= length b -> length (splice b lo s) = length b.
Proof.
  intros H. unfold splice. rewrite !app_length, firstn_length, skipn_length. lia.
Qed.

Lemma splice_app pre mid post s :
  length mid = length s -> splice (pre ++ mid ++ post) (length pre) s = pre ++ s ++ post.
Proof.
  intros H. unfold splice.
  rewrite firstn_app, Nat.sub_diag, firstn_all. cbn [firstn]. rewrite app_nil_r.
  f_equal. f_equal.
  rewrite skipn_app. replace (skipn (length pre + length s) pre) with (@nil byte).
  2:{ symmetry. apply skipn_all2. lia. }
  cbn [app]. replace (length pre + length s - length pre) with (length s) by lia.
  rewrite <- H, skipn_app, skipn_all, Nat.sub_diag. reflexivity.
Qed.

Lemma nat_of_u16 n : (n < 65536)%N -> u16 n = n.
Proof. intros H. unfold u16. now apply N.mod_small. Qed.

Lemma u32_small n : (n < 4294967296)%N -> u32 n = n.
Proof. intros H. unfold u32. now apply N.mod_small. Qed.

Lemma firstn_zeros n m : firstn n (zeros m) = zeros (min n m).
Proof.
  unfold zeros. revert m; induction n; intros m; destruct m; cbn; try easy. now rewrite IHn.
Qed.

Lemma skipn_zeros n m : skipn n (zeros m) = zeros (m - n).
Proof.
  unfold zeros. revert m; induction n; intros m; destruct m; cbn; try easy; apply IHn.
Qed.

Lemma zeros_length n : length (zeros n) = n.
Proof. apply repeat_length. Qed.
