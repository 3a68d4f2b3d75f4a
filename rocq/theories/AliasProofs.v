(** Proofs for C124. *)
From Verif Require Import GoBase ParamsModel WireSpec ParamsSpec BaseProofs ParamsProofs AccessorProofs MemModel MemProofs AliasModel AliasSpec.
From Coq Require Import Arith Lia.
Open Scope nat_scope.

(** every slice and parameter lies in an allocated block *)
Definition valid (y : prog) : Prop :=
  (forall i s, nth_error (g_slices y) i = Some s -> s_blk s < length (g_heap y)) /\
  (forall j q, nth_error (g_params y) j = Some q -> s_blk (q_data q) < length (g_heap y)).

(** ** One step *)
Definition fresh (y y' : prog) (b : nat) : Prop := length (g_heap y) <= b < length (g_heap y').
Record stepped (y : prog) (a : act) (y' : prog) : Prop := mkStepped {
  st_grow : length (g_heap y) <= length (g_heap y');
  st_len : forall b, b < length (g_heap y) -> length (nth b (g_heap y') []) = length (nth b (g_heap y) []);
  st_same : forall b, b < length (g_heap y) ->
    (forall i s, uses_slice a i -> nth_error (g_slices y) i = Some s -> s_blk s <> b) -> nth b (g_heap y') [] = nth b (g_heap y) [];
  st_slices : exists ns, g_slices y' = g_slices y ++ ns /\ forall s, In s ns -> fresh y y' (s_blk s) \/
    (exists i s0, uses_slice a i /\ nth_error (g_slices y) i = Some s0 /\ s_blk s = s_blk s0) \/
    (exists j q, opens a j /\ nth_error (g_params y) j = Some q /\ s_blk s = s_blk (q_data q));
  st_params : exists np, g_params y' = g_params y ++ np /\ forall q, In q np -> fresh y y' (s_blk (q_data q)) \/
    (exists i s0, uses_slice a i /\ nth_error (g_slices y) i = Some s0 /\ s_blk (q_data q) = s_blk s0) }.

Lemma make_heap h k s : exists e, fst (make_param h k s) = h ++ e /\
  (keeps k = true -> e = [] /\ q_data (snd (make_param h k s)) = s) /\
  (keeps k = false -> length e = 1 /\ s_blk (q_data (snd (make_param h k s))) = length h).
Proof.
  destruct k; cbn [make_param fst snd keeps over aside q_data s_blk]; eexists; (split; [try (symmetry; apply app_nil_r); reflexivity|]);
    (split; intros E; [try discriminate E; split; reflexivity|try discriminate E; split; reflexivity]).
Qed.

Lemma grown h e b : b < length h -> nth b (h ++ e) [] = nth b h ([] : list byte).
Proof. intros L. now rewrite app_nth1. Qed.

Lemma step_stepped y a y' : valid y -> act_step y a = Some y' -> stepped y a y'.
Proof.
  intros [Vs Vp] E. destruct a as [bs|i lo hi|i o bs|k i|j|j|j]; cbn [act_step] in E.
  - injection E as <-. split; cbn [g_heap g_slices g_params].
    + rewrite app_length. lia.
    + intros b L. now rewrite grown.
    + intros b L _. now apply grown.
    + eexists. split; [reflexivity|]. intros s [<-|[]]. left. unfold fresh. cbn [g_heap s_blk]. rewrite app_length. cbn. lia.
    + exists []. rewrite app_nil_r. split; [reflexivity|intros q []].
  - destruct (nth_error (g_slices y) i) as [s|] eqn:S0; [|discriminate]. destruct (_ && _); [|discriminate]. injection E as <-.
    split; cbn [g_heap g_slices g_params]; auto.
    + eexists. split; [reflexivity|]. intros s' [<-|[]]. right. left. exists i, s. cbn [uses_slice s_blk]. auto.
    + exists []. rewrite app_nil_r. split; [reflexivity|intros q []].
  - destruct (nth_error (g_slices y) i) as [s|] eqn:S0; [|discriminate]. destruct (_ <=? _) eqn:B2; [|discriminate]. injection E as <-.
    apply Nat.leb_le in B2. pose proof (Vs _ _ S0) as L0.
    split; cbn [g_heap g_slices g_params].
    + rewrite set_blk_len; lia.
    + intros b L. rewrite set_blk_nth by lia. destruct (Nat.eqb_spec b (s_blk s)) as [->|]; [|reflexivity].
      rewrite !app_length, firstn_length, skipn_length. lia.
    + intros b L H. rewrite set_blk_nth by lia. destruct (Nat.eqb_spec b (s_blk s)) as [->|]; [|reflexivity].
      exfalso. eapply H; [reflexivity|exact S0|reflexivity].
    + exists []. rewrite app_nil_r. split; [reflexivity|intros q []].
    + exists []. rewrite app_nil_r. split; [reflexivity|intros q []].
  - destruct (nth_error (g_slices y) i) as [s|] eqn:S0; [|discriminate].
    destruct (make_heap (g_heap y) k s) as (e & He & Hk & Hc). destruct (make_param (g_heap y) k s) as [h q]. cbn [fst snd] in He, Hk, Hc.
    injection E as <-. subst h. split; cbn [g_heap g_slices g_params].
    + rewrite app_length. lia.
    + intros b L. now rewrite grown.
    + intros b L _. now apply grown.
    + exists []. rewrite app_nil_r. split; [reflexivity|intros s' []].
    + eexists. split; [reflexivity|]. intros q' [<-|[]]. destruct (keeps k) eqn:K.
      * right. destruct (Hk eq_refl) as [_ ->]. exists i, s. cbn [uses_slice]. auto.
      * left. destruct (Hc eq_refl) as [L1 ->]. unfold fresh. cbn [g_heap]. rewrite app_length. lia.
  - destruct (nth_error (g_params y) j) as [q|] eqn:Q0; [|discriminate]. injection E as <-.
    split; cbn [g_heap g_slices g_params]; auto.
    + eexists. split; [reflexivity|]. intros s' [<-|[]]. right. right. exists j, q. cbn [opens]. auto.
    + exists []. rewrite app_nil_r. split; [reflexivity|intros s' []].
  - destruct (nth_error (g_params y) j) as [q|] eqn:Q0; [|discriminate]. destruct (ProtocolData _); try discriminate. injection E as <-.
    split; cbn [g_heap g_slices g_params]; auto.
    + eexists. split; [reflexivity|]. intros s' [<-|[]]. right. right. exists j, q. cbn [opens s_blk]. auto.
    + exists []. rewrite app_nil_r. split; [reflexivity|intros s' []].
  - destruct (nth_error (g_params y) j) as [q|] eqn:Q0; [|discriminate]. destruct (MarshalBinary _) as [bs|e|p]; try discriminate. injection E as <-.
    split; cbn [g_heap g_slices g_params].
    + rewrite app_length. lia.
    + intros b L. now rewrite grown.
    + intros b L _. now apply grown.
    + eexists. split; [reflexivity|]. intros s [<-|[]]. left. unfold fresh. cbn [g_heap s_blk]. rewrite app_length. cbn. lia.
    + exists []. rewrite app_nil_r. split; [reflexivity|intros q' []].
Qed.

Lemma nth_error_or {A} (l n : list A) i x : nth_error (l ++ n) i = Some x -> nth_error l i = Some x \/ (length l <= i /\ In x n).
Proof.
  intros H. destruct (Nat.lt_ge_cases i (length l)).
  - left. now rewrite nth_error_app1 in H by lia.
  - right. rewrite nth_error_app2 in H by lia. split; [lia|]. eapply nth_error_In; eauto.
Qed.
Lemma nth_error_Some_lt {A} (l : list A) i x : nth_error l i = Some x -> i < length l.
Proof. intros H. apply nth_error_Some. congruence. Qed.
Lemma nth_error_keep {A} (l n : list A) i x : nth_error l i = Some x -> nth_error (l ++ n) i = Some x.
Proof. intros H. rewrite nth_error_app1; [exact H|]. apply nth_error_Some. congruence. Qed.

Lemma valid_step y a y' : valid y -> act_step y a = Some y' -> valid y'.
Proof.
  intros V E. pose proof (step_stepped _ _ _ V E) as [G _ _ (ns & Es & Hs) (np & Ep & Hp)]. destruct V as [Vs Vp]. unfold fresh in *. split.
  - intros i s H. rewrite Es in H. apply nth_error_or in H as [H|[_ H]]; [apply Vs in H; lia|].
    destruct (Hs _ H) as [F|[(i0 & s0 & _ & N & ->)|(j & q & _ & N & ->)]]; [lia|apply Vs in N; lia|apply Vp in N; lia].
  - intros j q H. rewrite Ep in H. apply nth_error_or in H as [H|[_ H]]; [apply Vp in H; lia|].
    destruct (Hp _ H) as [F|(i0 & s0 & _ & N & ->)]; [lia|apply Vs in N; lia].
Qed.
Lemma valid_run l : forall y y', valid y -> act_run y l = Some y' -> valid y'.
Proof.
  induction l as [|a l IH]; intros y y' V E; cbn [act_run] in E; [now injection E as <-|].
  destruct (act_step y a) as [y1|] eqn:S1; [|discriminate]. eauto using valid_step.
Qed.
Lemma valid0 : valid prog0.
Proof. split; intros [|i] x H; discriminate H. Qed.

(** ** What stays *)
Lemma kept_run l : forall y y', valid y -> act_run y l = Some y' ->
  length (g_heap y) <= length (g_heap y') /\
  (forall b, b < length (g_heap y) -> length (nth b (g_heap y') []) = length (nth b (g_heap y) [])) /\
  (forall i s, nth_error (g_slices y) i = Some s -> nth_error (g_slices y') i = Some s) /\
  (forall j q, nth_error (g_params y) j = Some q -> nth_error (g_params y') j = Some q).
Proof.
  induction l as [|a l IH]; intros y y' V E; cbn [act_run] in E; [injection E as <-; auto|].
  destruct (act_step y a) as [y1|] eqn:S1; [|discriminate].
  pose proof (step_stepped _ _ _ V S1) as [G L _ (ns & Es & _) (np & Ep & _)].
  destruct (IH _ _ (valid_step _ _ _ V S1) E) as (G' & L' & S' & P').
  split; [lia|]. split; [intros b Hb; rewrite L' by lia; auto|]. split.
  - intros i s H. apply S'. rewrite Es. now apply nth_error_keep.
  - intros j q H. apply P'. rewrite Ep. now apply nth_error_keep.
Qed.

Lemma load_len h h' s : length (nth (s_blk s) h' []) = length (nth (s_blk s) h []) -> length (load h' s) = length (load h s).
Proof. intros E. unfold load. rewrite !firstn_length, !skipn_length. lia. Qed.

(** block [B] is reached only through slice [K] and parameter [J]; if the program leaves these alone, the block does not change *)
Definition only (B : nat) (K J : option nat) (y : prog) : Prop :=
  (forall i s, nth_error (g_slices y) i = Some s -> s_blk s = B -> K = Some i) /\
  (forall j q, nth_error (g_params y) j = Some q -> s_blk (q_data q) = B -> J = Some j).
Lemma only_run B K J l : forall y y', valid y -> B < length (g_heap y) -> only B K J y ->
  (forall a, In a l -> (forall i, K = Some i -> ~ uses_slice a i) /\ (forall j, J = Some j -> ~ opens a j)) ->
  act_run y l = Some y' -> nth B (g_heap y') [] = nth B (g_heap y) [].
Proof.
  induction l as [|a l IH]; intros y y' V HB [Os Op] HA E; cbn [act_run] in E; [now injection E as <-|].
  destruct (act_step y a) as [y1|] eqn:S1; [|discriminate].
  pose proof (step_stepped _ _ _ V S1) as [G _ Sm (ns & Es & Hs) (np & Ep & Hp)]. unfold fresh in *.
  destruct (HA a (or_introl eq_refl)) as [AK AJ].
  assert (U : forall i s, uses_slice a i -> nth_error (g_slices y) i = Some s -> s_blk s <> B) by (intros i s U N E0; exact (AK _ (Os _ _ N E0) U)).
  rewrite <- (Sm B HB U).
  apply IH; [eapply valid_step; eauto|lia| |intros a0 I; apply HA; now right|exact E]. split.
  - intros i s H E0. rewrite Es in H. apply nth_error_or in H as [H|[_ H]]; [eauto|]. exfalso.
    destruct (Hs _ H) as [F|[(i0 & s0 & U0 & N & E1)|(j & q & O & N & E1)]]; [lia| |].
    + apply (U _ _ U0 N). congruence.
    + apply (AJ j); [|exact O]. eapply Op; [exact N|congruence].
  - intros j q H E0. rewrite Ep in H. apply nth_error_or in H as [H|[_ H]]; [eauto|]. exfalso.
    destruct (Hp _ H) as [F|(i0 & s0 & U0 & N & E1)]; [lia|]. apply (U _ _ U0 N). congruence.
Qed.

(** ** Encoding *)
Lemma encodes_iff y j b : encodes_to y j b <-> exists q, nth_error (g_params y) j = Some q /\ MarshalBinary (pval (g_heap y) q) = Ok b.
Proof.
  unfold encodes_to, sees. cbn [act_step]. split.
  - intros (y' & E & s & N & L). destruct (nth_error (g_params y) j) as [q|]; [|discriminate]. exists q. split; [reflexivity|].
    destruct (MarshalBinary _) as [bs|e|p]; try discriminate. injection E as <-. cbn [g_slices g_heap] in N, L.
    rewrite nth_error_app2, Nat.sub_diag in N by lia. injection N as <-. unfold load in L. cbn [s_blk s_off s_len skipn] in L.
    rewrite app_nth2, Nat.sub_diag in L by lia. cbn [nth] in L. rewrite firstn_all in L. now subst.
  - intros (q & -> & ->). eexists. split; [reflexivity|]. eexists. cbn [g_slices g_heap]. rewrite nth_error_app2, Nat.sub_diag by lia. split; [reflexivity|].
    unfold load. cbn [s_blk s_off s_len skipn]. rewrite app_nth2, Nat.sub_diag by lia. cbn [nth]. apply firstn_all.
Qed.

Lemma tlv_of p : p_length p = u16 (N.of_nat (4 + length (p_data p))) -> MarshalBinary p = Ok (tlv (p_tag p) (p_data p)).
Proof.
  intros E. destruct (param_wire p) as (bs & -> & -> & _). rewrite E. unfold tlv, u16. do 3 f_equal.
  rewrite <- (be_mod 2 (N.of_nat _)). reflexivity.
Qed.

(** a parameter that was just made *)
Lemma made h k s : let q := snd (make_param h k s) in
  q_tag q = fst (tag_value k (load h s)) /\ load (fst (make_param h k s)) (q_data q) = snd (tag_value k (load h s)) /\
  q_len q = u16 (N.of_nat (4 + length (snd (tag_value k (load h s))))).
Proof.
  assert (W : forall h (p : param), load (h ++ [p_data p]) (mkSlc (length h) 0 (length (p_data p))) = p_data p).
  { intros h0 p. unfold load. cbn [s_blk s_off s_len skipn]. rewrite app_nth2, Nat.sub_diag by lia. cbn [nth]. apply firstn_all. }
  destruct k; cbn [make_param fst snd tag_value over aside q_tag q_len q_data].
  - repeat split.
  - repeat split.
  - repeat split.
  - rewrite W. rewrite NewProtocolData_eq. repeat split.
  - rewrite W. pose proof (ServiceIndicators_new (load h s)) as E. unfold ServiceIndicators in E.
    change (p_tag (NewServiceIndicators (load h s))) with tServiceIndicators in E. rewrite N.eqb_refl in E.
    split; [reflexivity|]. split; [exact E|]. rewrite <- E. reflexivity.
Qed.

Lemma new_step y k i y1 : act_step y (ANew k i) = Some y1 -> exists s, nth_error (g_slices y) i = Some s /\
  g_heap y1 = fst (make_param (g_heap y) k s) /\ g_slices y1 = g_slices y /\ g_params y1 = g_params y ++ [snd (make_param (g_heap y) k s)].
Proof.
  cbn [act_step]. destruct (nth_error (g_slices y) i) as [s|]; [|discriminate]. intros E. exists s. split; [reflexivity|].
  destruct (make_param (g_heap y) k s) as [h q]. injection E as <-. auto.
Qed.

(** a constructor that keeps the slice: always what the slice holds now *)
Lemma kept_slice y k i y1 l y2 b : valid y -> keeps k = true -> act_step y (ANew k i) = Some y1 -> act_run y1 l = Some y2 -> sees y2 i b ->
  encodes_to y2 (length (g_params y)) (octets_of k b).
Proof.
  intros V K S1 R (s & N2 & L2). pose proof (valid_step _ _ _ V S1) as V1. destruct (new_step _ _ _ _ S1) as (s0 & N & Eh & Es & Ep).
  destruct (kept_run _ _ _ V1 R) as (_ & Ln & Ks & Kp).
  rewrite <- Es in N. pose proof (Ks _ _ N) as N2'. assert (s0 = s) by congruence. subst s0.
  destruct (make_heap (g_heap y) k s) as (e & He & Hk & _). destruct (Hk K) as [-> Eq]. rewrite app_nil_r in He.
  apply encodes_iff. exists (snd (make_param (g_heap y) k s)). split.
  { apply Kp. rewrite Ep, nth_error_app2, Nat.sub_diag by lia. reflexivity. }
  destruct (made (g_heap y) k s) as (T & _ & Q). unfold pval. rewrite Eq, L2.
  assert (LL : length b = length (load (g_heap y) s)).
  { rewrite <- L2. rewrite (load_len (g_heap y1)); [now rewrite Eh, He|]. apply Ln. destruct V1 as [V1 _]. exact (V1 _ _ N). }
  rewrite tlv_of; cbn [p_tag p_data p_length].
  - rewrite T. unfold octets_of. destruct k; try discriminate K; reflexivity.
  - rewrite Q. destruct k; try discriminate K; cbn [tag_value snd]; now rewrite LL.
Qed.

(** a constructor that copies: what the slice held then *)
Lemma copied_value y k i y1 l y2 b : valid y -> keeps k = false -> sees y i b -> act_step y (ANew k i) = Some y1 -> act_run y1 l = Some y2 ->
  (forall a, In a l -> ~ opens a (length (g_params y))) -> 
  exists q, nth_error (g_params y2) (length (g_params y)) = Some q /\ q_tag q = fst (tag_value k b) /\ load (g_heap y2) (q_data q) = snd (tag_value k b) /\
    q_len q = u16 (N.of_nat (4 + length (snd (tag_value k b)))).
Proof.
  intros V K (s & N & L) S1 R A. pose proof (valid_step _ _ _ V S1) as V1. destruct (new_step _ _ _ _ S1) as (s0 & N0 & Eh & Es & Ep).
  assert (s0 = s) by congruence. subst s0. destruct (kept_run _ _ _ V1 R) as (_ & _ & _ & Kp).
  destruct (make_heap (g_heap y) k s) as (e & He & _ & Hc). destruct (Hc K) as [Le Eq].
  exists (snd (make_param (g_heap y) k s)). split.
  { apply Kp. rewrite Ep, nth_error_app2, Nat.sub_diag by lia. reflexivity. }
  assert (B : nth (length (g_heap y)) (g_heap y2) [] = nth (length (g_heap y)) (g_heap y1) []).
  { apply (only_run _ None (Some (length (g_params y))) l y1); [exact V1|rewrite Eh, He, app_length; lia| | |exact R].
    - split.
      + intros i0 s0 H E0. rewrite Es in H. apply V in H. lia.
      + intros j q H E0. rewrite Ep in H. pose proof H as H'. apply nth_error_or in H as [H|[H _]].
        * apply V in H. lia.
        * apply nth_error_Some_lt in H'. rewrite app_length in H'. cbn [length] in H'. f_equal. lia.
    - intros a I. split; [discriminate|]. intros j [= <-]. now apply A. }
  destruct (made (g_heap y) k s) as (T & D & Q).
  rewrite (load_ext (g_heap y2) (g_heap y1)) by (now rewrite Eq). rewrite Eh, D, L in *. auto.
Qed.
Lemma copied_slice y k i y1 l y2 b : valid y -> keeps k = false -> sees y i b -> act_step y (ANew k i) = Some y1 -> act_run y1 l = Some y2 ->
  (forall a, In a l -> ~ opens a (length (g_params y))) -> encodes_to y2 (length (g_params y)) (octets_of k b).
Proof.
  intros V K Se S1 R A. destruct (copied_value _ _ _ _ _ _ _ V K Se S1 R A) as (q & N & T & D & Q). apply encodes_iff. exists q. split; [exact N|].
  unfold pval. rewrite D, tlv_of; cbn [p_tag p_data p_length]; [now rewrite T|exact Q].
Qed.

(** ** The octets returned by MarshalBinary *)
Lemma encode_step y j y1 : act_step y (AEncode j) = Some y1 -> exists bs, g_heap y1 = g_heap y ++ [bs] /\
  g_slices y1 = g_slices y ++ [mkSlc (length (g_heap y)) 0 (length bs)] /\ g_params y1 = g_params y.
Proof.
  cbn [act_step]. destruct (nth_error (g_params y) j) as [q|]; [|discriminate]. destruct (MarshalBinary _) as [bs|e|p]; try discriminate.
  intros [= <-]. exists bs. auto.
Qed.
Lemma result_own y j y1 l y2 b : valid y -> act_step y (AEncode j) = Some y1 -> sees y1 (length (g_slices y)) b -> act_run y1 l = Some y2 ->
  (forall a, In a l -> ~ uses_slice a (length (g_slices y))) -> sees y2 (length (g_slices y)) b.
Proof.
  intros V S1 (s & N & L) R A. pose proof (valid_step _ _ _ V S1) as V1. destruct (encode_step _ _ _ S1) as (bs & Eh & Es & Ep).
  destruct (kept_run _ _ _ V1 R) as (_ & _ & Ks & _). exists s. split; [now apply Ks|]. rewrite <- L. apply load_ext.
  pose proof N as N'. rewrite Es, nth_error_app2, Nat.sub_diag in N' by lia. injection N' as <-. cbn [s_blk].
  apply (only_run _ (Some (length (g_slices y))) None l y1); [exact V1|rewrite Eh, app_length; cbn; lia| | |exact R].
  - split.
    + intros i s0 H E0. rewrite Es in H. apply nth_error_snoc in H as [[_ H]|[-> _]]; [apply V in H; lia|reflexivity].
    + intros i q H E0. rewrite Ep in H. apply V in H. lia.
  - intros a I. split; [|discriminate]. intros i [= <-]. now apply A.
Qed.

(** a program that works only with what it got after [y] leaves everything older as it was *)
Definition newer (y : prog) (a : act) : Prop :=
  (forall i, uses_slice a i -> length (g_slices y) <= i) /\ (forall j, opens a j -> length (g_params y) <= j).
Definition apart (y z : prog) : Prop :=
  length (g_heap y) <= length (g_heap z) /\ length (g_slices y) <= length (g_slices z) /\ length (g_params y) <= length (g_params z) /\
  (forall b, b < length (g_heap y) -> nth b (g_heap z) [] = nth b (g_heap y) []) /\
  (forall i s, nth_error (g_slices z) i = Some s -> length (g_slices y) <= i -> length (g_heap y) <= s_blk s) /\
  (forall j q, nth_error (g_params z) j = Some q -> length (g_params y) <= j -> length (g_heap y) <= s_blk (q_data q)).
Lemma apart_step y z a z' : valid z -> apart y z -> newer y a -> act_step z a = Some z' -> apart y z'.
Proof.
  intros V (A1 & A2 & A3 & A4 & A5 & A6) [Ns Np] E. pose proof (step_stepped _ _ _ V E) as [G _ Sm (ns & Es & Hs) (np & Ep & Hp)]. unfold fresh in *.
  split; [lia|]. split; [rewrite Es, app_length; lia|]. split; [rewrite Ep, app_length; lia|]. split; [|split].
  - intros b L. rewrite Sm; [auto|lia|]. intros i s U N. pose proof (A5 _ _ N (Ns _ U)). lia.
  - intros i s H Li. rewrite Es in H. apply nth_error_or in H as [H|[_ H]]; [eauto|].
    destruct (Hs _ H) as [F|[(i0 & s0 & U & N & ->)|(j & q & O & N & ->)]]; [lia|exact (A5 _ _ N (Ns _ U))|exact (A6 _ _ N (Np _ O))].
  - intros j q H Lj. rewrite Ep in H. apply nth_error_or in H as [H|[_ H]]; [eauto|].
    destruct (Hp _ H) as [F|(i0 & s0 & U & N & ->)]; [lia|exact (A5 _ _ N (Ns _ U))].
Qed.
Lemma apart_run y l : forall z z', valid z -> apart y z -> (forall a, In a l -> newer y a) -> act_run z l = Some z' -> apart y z'.
Proof.
  induction l as [|a l IH]; intros z z' V A N E; cbn [act_run] in E; [now injection E as <-|].
  destruct (act_step z a) as [z1|] eqn:S1; [|discriminate].
  eapply IH; [eapply valid_step; eauto| |intros a0 I; apply N; now right|exact E]. eapply apart_step; eauto. apply N. now left.
Qed.
Lemma apart_refl y : apart y y.
Proof.
  split; [lia|]. split; [lia|]. split; [lia|]. split; [auto|]. split.
  - intros i s H L. exfalso. assert (i < length (g_slices y)) by (apply nth_error_Some; congruence). lia.
  - intros j q H L. exfalso. assert (j < length (g_params y)) by (apply nth_error_Some; congruence). lia.
Qed.
Lemma older_same y l y' : valid y -> (forall a, In a l -> newer y a) -> act_run y l = Some y' ->
  (forall i b, sees y i b -> sees y' i b) /\ (forall j b, encodes_to y j b -> encodes_to y' j b).
Proof.
  intros V N R. pose proof (apart_run _ _ _ _ V (apart_refl y) N R) as (_ & _ & _ & B & _). destruct (kept_run _ _ _ V R) as (_ & _ & Ks & Kp). split.
  - intros i b (s & Ns & L). exists s. split; [auto|]. rewrite <- L. apply load_ext, B. exact (proj1 V _ _ Ns).
  - intros j b H. apply encodes_iff in H as (q & Nq & M). apply encodes_iff. exists q. split; [auto|]. rewrite <- M. unfold pval. do 2 f_equal.
    apply load_ext, B. exact (proj2 V _ _ Nq).
Qed.

Lemma skipn_twice {A} a : forall b (l : list A), skipn a (skipn b l) = skipn (b + a) l.
Proof. intros b. induction b as [|b IH]; intros l; [reflexivity|]. destruct l as [|x l]; [now rewrite !skipn_nil|]. cbn [skipn Nat.add]. apply IH. Qed.
Lemma skipn_exact {A} n (a b : list A) : length a = n -> skipn n (a ++ b) = b.
Proof. intros <-. induction a as [|x a IH]; [reflexivity|exact IH]. Qed.

(** ** Slices lie inside their blocks *)
Definition inside (h : heap) (s : slc) : Prop := s_blk s < length h /\ s_off s + s_len s <= length (nth (s_blk s) h []).
Definition sound_prog (y : prog) : Prop :=
  (forall i s, nth_error (g_slices y) i = Some s -> inside (g_heap y) s) /\
  (forall j q, nth_error (g_params y) j = Some q -> inside (g_heap y) (q_data q) /\ q_len q = u16 (N.of_nat (4 + s_len (q_data q)))).
Lemma load_inside h s : inside h s -> length (load h s) = s_len s.
Proof. intros [_ L]. unfold load. rewrite firstn_length, skipn_length. lia. Qed.
Lemma sound_valid y : sound_prog y -> valid y.
Proof. intros [A B]. split; intros i x H; [apply (A _ _ H)|apply (B _ _ H)]. Qed.
Lemma inside_grown h h' s : length h <= length h' -> (forall b, b < length h -> length (nth b h' []) = length (nth b h [])) -> inside h s -> inside h' s.
Proof. intros G L [A B]. split; [lia|]. rewrite L by exact A. exact B. Qed.
Lemma inside_new h bs : inside (h ++ [bs]) (mkSlc (length h) 0 (length bs)).
Proof. split; cbn [s_blk s_off s_len]; [rewrite app_length; cbn; lia|]. rewrite app_nth2, Nat.sub_diag by lia. cbn [nth]. lia. Qed.
Lemma sound_step y a y' : sound_prog y -> act_step y a = Some y' -> sound_prog y'.
Proof.
  intros So E. pose proof (step_stepped _ _ _ (sound_valid _ So) E) as [G L _ _ _]. destruct So as [Ss Sp].
  assert (Os : forall i s, nth_error (g_slices y) i = Some s -> inside (g_heap y') s) by (intros i s H; eapply inside_grown; eauto).
  assert (Op : forall j q, nth_error (g_params y) j = Some q -> inside (g_heap y') (q_data q) /\ q_len q = u16 (N.of_nat (4 + s_len (q_data q)))).
  { intros j q H. destruct (Sp _ _ H) as [A B]. split; [eapply inside_grown; eauto|exact B]. }
  destruct a as [bs|i lo hi|i o bs|k i|j|j|j]; cbn [act_step] in E.
  - injection E as <-. split; cbn [g_slices g_params g_heap] in *; [|exact Op]. intros i s H. apply nth_error_snoc in H as [[_ H]|[_ ->]]; [eauto|apply inside_new].
  - destruct (nth_error (g_slices y) i) as [s|] eqn:S0; [|discriminate]. destruct (_ && _) eqn:B; [|discriminate]. injection E as <-.
    apply andb_prop in B as [B1 B2]. apply Nat.leb_le in B1, B2.
    split; cbn [g_slices g_params g_heap] in *; [|exact Op]. intros i0 s0 H. apply nth_error_snoc in H as [[_ H]|[_ ->]]; [eauto|].
    destruct (Ss _ _ S0) as [A B]. split; cbn [s_blk s_off s_len]; [exact A|lia].
  - destruct (nth_error (g_slices y) i) as [s|] eqn:S0; [|discriminate]. destruct (_ <=? _); [|discriminate]. injection E as <-.
    split; cbn [g_slices g_params g_heap] in *; [exact Os|exact Op].
  - destruct (nth_error (g_slices y) i) as [s|] eqn:S0; [|discriminate].
    pose proof (made (g_heap y) k s) as (_ & Ld & Q). pose proof (load_inside _ _ (Ss _ _ S0)) as Ls.
    assert (I : inside (fst (make_param (g_heap y) k s)) (q_data (snd (make_param (g_heap y) k s)))).
    { destruct k; cbn [make_param fst snd over aside q_data]; try exact (Ss _ _ S0); apply inside_new. }
    rewrite <- Ld, (load_inside _ _ I) in Q. destruct (make_param (g_heap y) k s) as [h q]. cbn [fst snd] in I, Q. injection E as <-.
    split; cbn [g_slices g_params g_heap] in *; [exact Os|]. intros j0 q0 H. apply nth_error_snoc in H as [[_ H]|[_ ->]]; eauto.
  - destruct (nth_error (g_params y) j) as [q|] eqn:Q0; [|discriminate]. injection E as <-.
    split; cbn [g_slices g_params g_heap] in *; [|exact Op]. intros i0 s0 H. apply nth_error_snoc in H as [[_ H]|[_ ->]]; [eauto|apply (Op _ _ Q0)].
  - destruct (nth_error (g_params y) j) as [q|] eqn:Q0; [|discriminate].
    destruct (Op _ _ Q0) as [I _]. destruct (Sp _ _ Q0) as [I0 _]. pose proof (load_inside _ _ I0) as Ls.
    destruct (ProtocolData _) as [pd|e|p] eqn:P; try discriminate. injection E as <-.
    split; cbn [g_slices g_params g_heap] in *; [|exact Op]. intros i0 s0 H. apply nth_error_snoc in H as [[_ H]|[_ ->]]; [eauto|].
    unfold ProtocolData in P. destruct (_ =? _)%N; [|discriminate]. unfold ParseProtocolDataPayload in P.
    destruct (Nat.ltb_spec (length (p_data (pval (g_heap y) q))) 12) as [|L12]; [discriminate|]. cbn [pval p_data] in L12.
    destruct I as [A B]. split; cbn [s_blk s_off s_len]; [exact A|lia].
  - destruct (nth_error (g_params y) j) as [q|] eqn:Q0; [|discriminate]. destruct (MarshalBinary _) as [bs|e|p]; try discriminate. injection E as <-.
    split; cbn [g_slices g_params g_heap] in *; [|exact Op]. intros i s H. apply nth_error_snoc in H as [[_ H]|[_ ->]]; [eauto|apply inside_new].
Qed.
Lemma sound_run l : forall y y', sound_prog y -> act_run y l = Some y' -> sound_prog y'.
Proof.
  induction l as [|a l IH]; intros y y' V E; cbn [act_run] in E; [now injection E as <-|].
  destruct (act_step y a) as [y1|] eqn:S1; [|discriminate]. eauto using sound_step.
Qed.
Lemma sound0 : sound_prog prog0.
Proof. split; intros [|i] x H; discriminate H. Qed.

(** ** What slicing, writing and taking out give *)
Lemma sub_gives y i b lo hi : sound_prog y -> sees y i b ->
  (lo <= hi <= length b -> exists y', act_step y (ASub i lo hi) = Some y' /\ sees y' (length (g_slices y)) (firstn (hi - lo) (skipn lo b))) /\
  (~ (lo <= hi <= length b) -> act_step y (ASub i lo hi) = None).
Proof.
  intros [Ss _] (s & N & L). pose proof (load_inside _ _ (Ss _ _ N)) as Ls. rewrite L in Ls. cbn [act_step]. rewrite N. split.
  - intros H. replace ((lo <=? hi) && (hi <=? s_len s)) with true by (symmetry; apply andb_true_intro; split; apply Nat.leb_le; lia).
    eexists. split; [reflexivity|]. eexists. cbn [g_slices g_heap]. rewrite nth_error_app2, Nat.sub_diag by lia. split; [reflexivity|].
    rewrite <- L. change (mkSlc (s_blk s) (s_off s + lo) (hi - lo)) with (mkSlc (s_blk s) (s_off s + lo) (hi - lo)).
    unfold load. cbn [s_blk s_off s_len]. rewrite skipn_firstn_comm, skipn_twice, firstn_firstn. f_equal. lia.
  - intros H. destruct (_ && _) eqn:B; [|reflexivity]. apply andb_prop in B as [B1 B2]. apply Nat.leb_le in B1, B2. lia.
Qed.

Lemma store_gives y i b o bs : sound_prog y -> sees y i b -> o + length bs <= length b ->
  exists y', act_step y (AStore i o bs) = Some y' /\ sees y' i (firstn o b ++ bs ++ skipn (o + length bs) b).
Proof.
  intros [Ss _] (s & N & L) H. pose proof (Ss _ _ N) as [A B]. pose proof (load_inside _ _ (Ss _ _ N)) as Ls. rewrite L in Ls.
  cbn [act_step]. rewrite N. cbv zeta. replace (_ <=? _) with true by (symmetry; apply Nat.leb_le; lia).
  eexists. split; [reflexivity|]. exists s. cbn [g_slices g_heap]. split; [exact N|].
  unfold load. rewrite set_blk_nth, Nat.eqb_refl by exact A. set (c := nth (s_blk s) (g_heap y) []) in *.
  assert (Hb : b = firstn (s_len s) (skipn (s_off s) c)) by (now rewrite <- L).
  rewrite skipn_app, firstn_length, Nat.min_l by lia. replace (s_off s - (s_off s + o)) with 0 by lia. cbn [skipn].
  rewrite skipn_firstn_comm. replace (s_off s + o - s_off s) with o by lia.
  rewrite firstn_app, firstn_firstn. rewrite firstn_length, skipn_length. replace (Nat.min (s_len s) o) with o by lia. replace (s_len s - Nat.min o (length c - s_off s)) with (s_len s - o) by lia.
  rewrite Hb at 1. rewrite firstn_firstn. replace (Nat.min o (s_len s)) with o by lia. f_equal.
  rewrite firstn_app. rewrite (firstn_all2 bs) by lia. f_equal.
  rewrite Hb, skipn_firstn_comm, skipn_twice. f_equal; [lia|]. f_equal. lia.
Qed.

Lemma wire_of h q : inside h (q_data q) -> q_len q = u16 (N.of_nat (4 + s_len (q_data q))) -> MarshalBinary (pval h q) = Ok (tlv (q_tag q) (load h (q_data q))).
Proof. intros I E. rewrite tlv_of; [reflexivity|]. cbn [pval p_length p_data]. now rewrite (load_inside _ _ I). Qed.

Lemma data_gives y j y1 l y2 v : sound_prog y -> act_step y (AData j) = Some y1 -> act_run y1 l = Some y2 -> sees y2 (length (g_slices y)) v ->
  exists tag, (forall b, encodes_to y2 j b <-> b = tlv tag v) /\ forall v0, sees y1 (length (g_slices y)) v0 -> encodes_to y j (tlv tag v0).
Proof.
  intros So S1 R (s & N & L). pose proof (sound_step _ _ _ So S1) as So1. pose proof (sound_run _ _ _ So1 R) as So2.
  destruct (kept_run _ _ _ (sound_valid _ So1) R) as (_ & _ & Ks & Kp). cbn [act_step] in S1.
  destruct (nth_error (g_params y) j) as [q|] eqn:Q0; [|discriminate]. injection S1 as <-. cbn [g_slices g_params] in *.
  assert (N1 : nth_error (g_slices y ++ [q_data q]) (length (g_slices y)) = Some (q_data q)) by (now rewrite nth_error_app2, Nat.sub_diag by lia).
  pose proof (Ks _ _ N1) as N2. assert (s = q_data q) by congruence. subst s. pose proof (Kp _ _ Q0) as Q2. exists (q_tag q). split.
  - intros b. rewrite encodes_iff. destruct (proj2 So2 _ _ Q2) as [I E]. pose proof (wire_of _ _ I E) as W. rewrite L in W. split.
    + intros (q' & Nq & M). congruence.
    + intros ->. exists q. auto.
  - intros v0 (s & N0 & L0). cbn [g_slices g_heap] in N0, L0. assert (s = q_data q) by congruence. subst s. apply encodes_iff. exists q. split; [exact Q0|].
    destruct (proj2 So _ _ Q0) as [I E]. rewrite (wire_of _ _ I E). now rewrite L0.
Qed.

Lemma payload_step y j y1 : act_step y (APayload j) = Some y1 -> exists q, nth_error (g_params y) j = Some q /\ q_tag q = 0x210%N /\
  12 <= length (load (g_heap y) (q_data q)) /\ g_heap y1 = g_heap y /\ g_params y1 = g_params y /\
  g_slices y1 = g_slices y ++ [mkSlc (s_blk (q_data q)) (s_off (q_data q) + 12) (s_len (q_data q) - 12)].
Proof.
  cbn [act_step]. destruct (nth_error (g_params y) j) as [q|]; [|discriminate]. destruct (ProtocolData _) as [pd|e|p] eqn:P; try discriminate. intros [= <-].
  exists q. unfold ProtocolData in P. cbn [pval p_tag p_data] in P. destruct (N.eqb_spec (q_tag q) tProtocolData) as [T|]; [|discriminate].
  unfold ParseProtocolDataPayload in P. destruct (Nat.ltb_spec (length (load (g_heap y) (q_data q))) 12); [discriminate|]. repeat split; auto.
Qed.
Lemma load_cut h s n : n <= s_len s -> load h (mkSlc (s_blk s) (s_off s + n) (s_len s - n)) = skipn n (load h s).
Proof. intros L. unfold load. cbn [s_blk s_off s_len]. rewrite skipn_firstn_comm, skipn_twice. reflexivity. Qed.
Lemma payload_gives y j y1 l y2 w : sound_prog y -> act_step y (APayload j) = Some y1 -> act_run y1 l = Some y2 -> sees y2 (length (g_slices y)) w ->
  exists hd, length hd = 12 /\ forall b, encodes_to y2 j b <-> b = tlv 0x210 (hd ++ w).
Proof.
  intros So S1 R (s & N & L). pose proof (sound_step _ _ _ So S1) as So1. pose proof (sound_run _ _ _ So1 R) as So2.
  destruct (kept_run _ _ _ (sound_valid _ So1) R) as (_ & _ & Ks & Kp). destruct (payload_step _ _ _ S1) as (q & Q0 & T & L12 & Eh & Ep & Es).
  rewrite (load_inside _ _ (proj1 (proj2 So _ _ Q0))) in L12.
  assert (N1 : nth_error (g_slices y1) (length (g_slices y)) = Some (mkSlc (s_blk (q_data q)) (s_off (q_data q) + 12) (s_len (q_data q) - 12)))
    by (now rewrite Es, nth_error_app2, Nat.sub_diag by lia).
  apply Ks in N1. rewrite N in N1. injection N1 as ->. rewrite load_cut in L by exact L12.
  rewrite <- Ep in Q0. apply Kp in Q0. destruct (proj2 So2 _ _ Q0) as [I E]. pose proof (load_inside _ _ I) as Lv.
  exists (firstn 12 (load (g_heap y2) (q_data q))). split; [rewrite firstn_length; lia|]. intros b. rewrite encodes_iff, <- L, firstn_skipn, <- T.
  pose proof (wire_of _ _ I E) as W. split.
  - intros (q' & Nq & M). congruence.
  - intros ->. exists q. auto.
Qed.
(** the payload of a Protocol Data parameter can always be taken out; fresh from the constructor it is what the slice held *)
Lemma payload_there y opc dpc si ni mp sls i y1 l y2 : sound_prog y -> act_step y (ANew (FromProtocol opc dpc si ni mp sls) i) = Some y1 -> act_run y1 l = Some y2 ->
  exists y3, act_step y2 (APayload (length (g_params y))) = Some y3 /\
    forall b, sees y i b -> (forall a, In a l -> ~ opens a (length (g_params y))) -> sees y3 (length (g_slices y2)) b.
Proof.
  intros So S1 R. pose proof (sound_step _ _ _ So S1) as So1. pose proof (sound_run _ _ _ So1 R) as So2. set (k := FromProtocol opc dpc si ni mp sls) in *.
  destruct (kept_run _ _ _ (sound_valid _ So1) R) as (_ & _ & _ & Kp). destruct (new_step _ _ _ _ S1) as (s & N & Eh & Es & Ep).
  assert (Q1 : nth_error (g_params y1) (length (g_params y)) = Some (snd (make_param (g_heap y) k s))) by (now rewrite Ep, nth_error_app2, Nat.sub_diag by lia).
  destruct (made (g_heap y) k s) as (T & D & _). set (q := snd (make_param (g_heap y) k s)) in *. rewrite <- Eh in D.
  pose proof (proj2 So1 _ _ Q1) as [I1 _]. pose proof (Kp _ _ Q1) as Q2. pose proof (proj2 So2 _ _ Q2) as [I2 _].
  assert (L12 : 12 <= s_len (q_data q)).
  { rewrite <- (load_inside _ _ I1), D. cbn [k tag_value snd]. rewrite !app_length, !be_length. cbn [length]. lia. }
  assert (P : exists pd, ProtocolData (pval (g_heap y2) q) = Ok pd).
  { pose proof (load_inside _ _ I2) as Lv. unfold ProtocolData. cbn [pval p_tag p_data]. rewrite T. cbn [k tag_value fst]. change (0x210 =? tProtocolData)%N with true. cbn iota.
    destruct (load (g_heap y2) (q_data q)) as [|x0 [|x1 [|x2 [|x3 [|x4 [|x5 [|x6 [|x7 [|x8 [|x9 [|xa [|xb r]]]]]]]]]]]]; cbn [length] in Lv; try lia.
    unfold ParseProtocolDataPayload. cbn [length Nat.ltb Nat.leb]. unfold slice. cbn [length]. rewrite Nat.leb_refl. eexists. reflexivity. }
  destruct P as [pd P].
  eexists. split. { cbn [act_step]. rewrite Q2, P. reflexivity. }
  intros b (s' & N' & Lb) A. assert (s' = s) by congruence. subst s'.
  eexists. cbn [g_slices g_heap]. rewrite nth_error_app2, Nat.sub_diag by lia. split; [reflexivity|]. rewrite load_cut by exact L12.
  destruct (copied_value y k i y1 l y2 b (sound_valid _ So) eq_refl (ex_intro _ s (conj N Lb)) S1 R A) as (q' & Nq & _ & D' & _).
  rewrite Q2 in Nq. injection Nq as <-. rewrite D'. cbn [k tag_value snd]. rewrite !app_assoc.
  apply skipn_exact. rewrite !app_length, !be_length. reflexivity.
Qed.
