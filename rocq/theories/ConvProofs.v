(** The program pc-conv. *)
From Verif Require Import GoBase PcModel PcSpec PcProofs ConvModel.
From Coq Require Import Arith Lia Strings.String.
Open Scope nat_scope.

Lemma u32z_mod raw v : (0 < raw)%Z -> (u32z raw mod 2 ^ bits v = Z.to_N raw mod 2 ^ bits v)%N.
Proof.
  intros H. unfold u32z. rewrite Z2N.inj_mod by lia. change (Z.to_N 4294967296) with (2 ^ 32)%N.
  replace (2 ^ 32)%N with (2 ^ bits v * 2 ^ (32 - bits v))%N by (rewrite <- N.pow_add_r; f_equal; pose proof (bits_le v); lia).
  rewrite N.mod_mul_r by (apply N.pow_nonzero; discriminate). rewrite N.mul_comm, N.mod_add by (apply N.pow_nonzero; discriminate).
  apply N.mod_mod. apply N.pow_nonzero. discriminate.
Qed.
Lemma conv_number v raw : (0 < raw)%Z ->
  exists t, printed v (Z.to_N raw mod 2 ^ bits v) t /\ pc_conv raw [] (vname v) = ([Conv (Z.to_N raw mod 2 ^ bits v) t (vname v)], CReturned).
Proof.
  intros H. destruct (pc_number_text_number v (u32z raw)) as (p & q & N & U & V & P & _). rewrite u32z_mod in U, P by exact H.
  exists (String_ p). split; [exact P|]. unfold pc_conv.
  replace (raw <? 0)%Z with false by (symmetry; apply Z.ltb_ge; lia). replace (0 <? raw)%Z with true by (symmetry; apply Z.ltb_lt; lia).
  cbn [andb]. rewrite N. cbn [show]. rewrite U, V. reflexivity.
Qed.
Lemma dashed ds f : text ds f -> Forall no_dash ds -> 2 <= List.length ds -> f <> [] /\ (List.length (split_dash f) <? 2) = false.
Proof.
  intros T F L. rewrite (text_split _ _ T F). split; [|apply Nat.ltb_ge; exact L]. intros ->. inversion T as [w E1 E2|w ws s T' E1 E2]; subst; [cbn in L; lia|]. destruct w; discriminate.
Qed.
Lemma not_empty f : f <> [] -> str_eqb f [] = false.
Proof. intros H. destruct (str_eqb f []) eqn:E; [|reflexivity]. apply str_eqb_iff in E. contradiction. Qed.
Lemma conv_from f v raw p : (raw <= 0)%Z -> f <> [] -> (List.length (split_dash f) <? 2) = false -> NewPointCodeFrom f v = Some p ->
  pc_conv raw f v = ([Conv (Uint32_ p) (String_ p) (Variant p)], CReturned).
Proof.
  intros R F L P. unfold pc_conv. rewrite (not_empty _ F), Bool.andb_false_r. replace (0 <? raw)%Z with false by (symmetry; apply Z.ltb_ge; lia).
  rewrite L, P. reflexivity.
Qed.
Lemma widths_two v : 2 <= List.length (widths v).
Proof. destruct v; cbn; lia. Qed.
Lemma in_range_len ws cs : in_range ws cs -> List.length ws = List.length cs.
Proof. intros H. exact (Forall2_len _ _ _ H). Qed.
Lemma conv_text v f ds cs raw : (raw <= 0)%Z -> text ds f -> Forall2 decimal ds cs -> in_range (widths v) cs ->
  pc_conv raw f (vname v) = ([Conv (compose (widths v) cs) f (vname v)], CReturned).
Proof.
  intros R T D I. destruct (pc_text_number _ _ _ _ T D I) as (p & N & U & _ & S & V).
  assert (L : 2 <= List.length ds) by (rewrite (Forall2_len _ _ _ D), <- (in_range_len _ _ I); apply widths_two).
  destruct (dashed _ _ T (dec_list_no_dash _ _ D) L) as [F Sp]. rewrite (conv_from _ _ _ _ R F Sp N), U, S, V. reflexivity.
Qed.
Lemma conv_back v raw t : (0 < raw)%Z -> printed v (Z.to_N raw mod 2 ^ bits v) t ->
  pc_conv (-1) t (vname v) = pc_conv raw [] (vname v).
Proof.
  intros H P. destruct (conv_number v raw H) as (t' & P' & ->). rewrite (printed_unique _ _ _ _ P' P). destruct P as (ds & cs & T & D & I & C).
  rewrite (conv_text v t ds cs (-1)%Z); auto; [now rewrite C|lia|]. clear -D. induction D as [|d c ds cs [H _] D IH]; constructor; auto.
Qed.
(** how the program ends *)
Definition ends (raw : Z) (f v : str) : convend := snd (pc_conv raw f v).
Lemma new_none raw v : NewPointCode raw v = None <-> v = [].
Proof.
  unfold NewPointCode, ConvertTo, convRawToStr. destruct (str_eqb v VariantNone) eqn:E.
  - apply str_eqb_iff in E. now split.
  - split; [discriminate|]. intros ->. discriminate.
Qed.
Lemma split_two f : (List.length (split_dash f) <? 2) = false <-> In x2d f.
Proof.
  rewrite Nat.ltb_ge. destruct (split_text f) as [T F]. revert T F. generalize (split_dash f) as l. intros l T F. destruct T as [w|w ws s T].
  - split; [cbn; lia|]. intros I. exfalso. inversion F as [|? ? H _]; subst. unfold no_dash in H. rewrite Forall_forall in H. exact (H _ I eq_refl).
  - split; [intros _; apply in_or_app; right; now left|]. intros _. destruct T; cbn; lia.
Qed.
Lemma conv_ends raw f v :
  (ends raw f v = CFatalFlags <-> (raw < 0)%Z /\ f = []) /\
  (ends raw f v = CFatalText <-> f <> [] /\ ~ In x2d f /\ ((0 < raw)%Z -> v <> [])) /\
  (ends raw f v = CNil <-> ((0 < raw)%Z /\ v = []) \/ (In x2d f /\ NewPointCodeFrom f v = None)).
Proof.
  unfold ends, pc_conv. pose proof (new_none (u32z raw) v) as Nn. pose proof (split_two f) as St.
  assert (Fe : str_eqb f [] = true <-> f = []) by apply str_eqb_iff.
  assert (Fn : f = [] -> ~ In x2d f) by (intros ->; intros []).
  destruct (str_eqb f []) eqn:E.
  - rewrite Bool.andb_true_r. assert (f = []) by now apply Fe. specialize (Fn H).
    destruct (raw <? 0)%Z eqn:R; cbn [snd].
    + apply Z.ltb_lt in R. repeat split; intros; try discriminate; try tauto. destruct H0 as [[? _]|[? _]]; [lia|contradiction].
    + apply Z.ltb_ge in R. destruct (0 <? raw)%Z eqn:P; [apply Z.ltb_lt in P|apply Z.ltb_ge in P].
      * destruct (NewPointCode (u32z raw) v) as [p|] eqn:N; cbn [show snd].
        -- assert (v <> []) by (intros X; apply Nn in X; discriminate). repeat split; intros; try discriminate; try tauto; try lia. all: tauto.
        -- assert (v = []) by now apply Nn. repeat split; intros; try discriminate; try tauto; try lia. all: tauto.
      * cbn [snd]. repeat split; intros; try discriminate; try tauto; try lia. destruct H0 as [[? _]|[? _]]; [lia|contradiction].
  - rewrite Bool.andb_false_r. assert (f <> []) by (intros X; apply Fe in X; discriminate).
    assert (G : forall out, (0 < raw)%Z /\ v <> [] \/ (raw <= 0)%Z ->
      let r := snd (if List.length (split_dash f) <? 2 then (out, CFatalText) else match show (NewPointCodeFrom f v) with None => (out, CNil) | Some l => (out ++ [l], CReturned) end) in
      (r = CFatalFlags <-> (raw < 0)%Z /\ f = []) /\ (r = CFatalText <-> f <> [] /\ ~ In x2d f /\ ((0 < raw)%Z -> v <> [])) /\
      (r = CNil <-> ((0 < raw)%Z /\ v = []) \/ (In x2d f /\ NewPointCodeFrom f v = None))).
    { intros out C. destruct (List.length (split_dash f) <? 2) eqn:L.
      - assert (D : ~ In x2d f) by (intros X; apply St in X; discriminate). cbn. repeat split; intros; try discriminate; try tauto.
        + destruct C as [[_ C]|C]; [exact C|lia].
        + destruct H0 as [[A B]|[A _]]; [destruct C as [[_ C]|C]; [contradiction|lia]|contradiction].
      - assert (D : In x2d f) by now apply St. destruct (NewPointCodeFrom f v) as [p|]; cbn; repeat split; intros; try discriminate; try tauto.
        destruct H0 as [[A B]|[_ A]]; [destruct C as [[_ C]|C]; [contradiction|lia]|discriminate]. }
    destruct (0 <? raw)%Z eqn:P; [apply Z.ltb_lt in P|apply Z.ltb_ge in P; apply G; auto].
    destruct (NewPointCode (u32z raw) v) as [p|] eqn:N.
    + cbn [show]. apply G. left. split; [exact P|]. intros X. apply Nn in X. discriminate.
    + assert (v = []) by now apply Nn. cbn. repeat split; intros; try discriminate; try tauto.
Qed.
(** variants without a defined width *)
Lemma bitlength_zero v : (forall w, v <> vname w) -> BitLength v = 0%N.
Proof.
  intros H. unfold BitLength.
  assert (E : forall w, str_eqb v (vname w) = false) by (intros w; destruct (str_eqb v (vname w)) eqn:Q; [apply str_eqb_iff in Q; destruct (H w Q)|reflexivity]).
  cbn [existsb]. pose proof (E V383) as E1. pose proof (E V437) as E2. pose proof (E V4343) as E3. pose proof (E V545) as E4. pose proof (E V662) as E5. pose proof (E V68) as E6.
  pose proof (E V77) as E7. pose proof (E V745) as E8. pose proof (E V888) as E9. cbn [vname] in *.
  change (lit "3-8-3") with Variant383 in E1. change (lit "4-3-7") with Variant437 in E2. change (lit "4-3-4-3") with Variant4343 in E3. change (lit "5-4-5") with Variant545 in E4.
  change (lit "6-6-2") with Variant662 in E5. change (lit "6-8") with Variant68 in E6. change (lit "7-7") with Variant77 in E7. change (lit "7-4-5") with Variant745 in E8. change (lit "8-8-8") with Variant888 in E9.
  rewrite E1, E2, E3, E4, E5, E6, E7, E8, E9. reflexivity.
Qed.
Lemma fmt_zero s : forall r, fmt_loop s 0 r = repeat [x30] (List.length s).
Proof.
  induction s as [|v s IH]; intros r; [reflexivity|]. cbn [fmt_loop length repeat]. rewrite IH, N.land_0_l. unfold shr32. rewrite N.shiftr_0_l. destruct (32 <=? _)%N; reflexivity.
Qed.
Lemma conv_unknown v raw : v <> [] -> (forall w, v <> vname w) -> (0 < raw)%Z ->
  exists k, pc_conv raw [] v = ([Conv 0 (join_dash (repeat [x30] k)) v], CReturned).
Proof.
  intros V H R. exists (List.length (variant_slice v)). unfold pc_conv.
  replace (raw <? 0)%Z with false by (symmetry; apply Z.ltb_ge; lia). replace (0 <? raw)%Z with true by (symmetry; apply Z.ltb_lt; lia). cbn [andb].
  unfold NewPointCode, ConvertTo, convRawToStr. rewrite (bitlength_zero _ H). change (sub32 (shl32 1 0) 1) with 0%N. rewrite N.land_0_r. cbn [pc_raw pc_form].
  assert (E : str_eqb v VariantNone = false) by (now apply not_empty). rewrite E. rewrite ?N.land_0_l, ?N.land_0_r, fmt_zero. cbn [show Uint32_ Variant pc_raw pc_form].
  unfold String_. cbn [pc_form pc_formatted]. rewrite E. reflexivity.
Qed.
