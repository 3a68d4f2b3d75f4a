(** Proofs about RejectSpec.v. *)
From Verif Require Import GoBase BaseProofs WireSpec ParamsModel ParamsSpec ParamsProofs AccessorProofs MessagesModel MsgSpec MessagesProofs MessagesProofs2 RejectSpec FuzzModel.
From Coq Require Import Arith Lia ZifyBool ZifyNat ZifyN.
Open Scope nat_scope.

Lemma Multi_err fuel : forall b acc e, length b < fuel -> ParseMulti_loop fuel b acc = Err e ->
  (e = EParamTooShortParse /\ cut_off b) \/ (e = EParamInvalidLength /\ wrong_length b).
Proof.
  induction fuel as [|fuel IH]; intros b acc e Hf H; [lia|]. cbn [ParseMulti_loop] in H.
  destruct (length b =? 0) eqn:E0; [discriminate|].
  destruct (ParseParam b) as [p|e'|] eqn:Ep; cbn [bind] in H; [|injection H as <-|discriminate].
  - destruct (ParseParam_inv b p Ep) as (Wp & rest & Hb). destruct Wp as (Wt & Wd & Wl).
    assert (Hlen : length b = 4 + length (p_data p) + length rest) by (rewrite Hb, !app_length, !be_length; lia).
    assert (Hadv : N.to_nat (p_length p) + Padding p = 4 + length (p_data p) + pad_len (length (p_data p))) by (rewrite Wl, Padding_pad; lia).
    rewrite Hadv in H. destruct (length b <? _) eqn:E1; [discriminate|]. rewrite slice_full in H by lia. cbn [bind] in H.
    assert (Sk : skipn (4 + length (p_data p) + pad_len (length (p_data p))) b = skipn (pad_len (length (p_data p))) rest).
    { rewrite Hb at 1. rewrite !be2_cons. cbn [app Nat.add skipn]. rewrite skipn_app. rewrite skipn_all2 by lia. cbn [app]. f_equal. lia. }
    rewrite Sk in H. apply IH in H; [|rewrite skipn_length; lia].
    assert (X : forall good t, skipn (pad_len (length (p_data p))) rest = good ++ t -> Whole good ->
      exists good', b = good' ++ t /\ Whole good').
    { intros good t E W. exists (be 2 (p_tag p) ++ be 2 (N.of_nat (4 + length (p_data p))) ++ p_data p ++ firstn (pad_len (length (p_data p))) rest ++ good). split.
      - rewrite Hb at 1. rewrite <- !app_assoc. do 3 f_equal. rewrite <- E. symmetry. apply firstn_skipn.
      - apply Whole_cons; auto. rewrite firstn_length. lia. }
    destruct H as [[-> (good & t & E & W & L)]|[-> (good & t & E & W & L)]]; destruct (X good t E W) as (g' & Eg & Wg);
      [left|right]; (split; [reflexivity|]); exists g', t; auto.
  - rewrite ParseParam_exact in Ep. destruct (length b <? 4) eqn:L4.
    + injection Ep as <-. left. split; [reflexivity|]. exists [], b. split; [reflexivity|]. split; [constructor|lia].
    + cbv zeta in Ep. set (n := val (firstn 2 (skipn 2 b))) in *. destruct ((4 <=? n) && (n <=? N.of_nat (length b)))%N eqn:Ln; [discriminate|].
      injection Ep as <-. right. split; [reflexivity|]. exists [], b. split; [reflexivity|]. split; [constructor|]. split; [lia|]. fold n.
      apply andb_false_iff in Ln as [Ln|Ln]; lia.
Qed.
Lemma Multi_good good : Whole good -> forall t fuel acc, length (good ++ t) < fuel ->
  exists fuel' acc', length t < fuel' /\ ParseMulti_loop fuel (good ++ t) acc = ParseMulti_loop fuel' t acc'.
Proof.
  induction 1 as [|tag v pad rest Ht Hv Hp W IH]; intros t fuel acc Hf; [exists fuel, acc; split; [exact Hf|reflexivity]|].
  destruct fuel as [|fuel]; [lia|].
  replace ((be 2 tag ++ be 2 (N.of_nat (4 + length v)) ++ v ++ pad ++ rest) ++ t) with (be 2 tag ++ be 2 (N.of_nat (4 + length v)) ++ v ++ pad ++ (rest ++ t)) in *
    by (now rewrite <- !app_assoc).
  cbn [ParseMulti_loop]. rewrite ParseParam_wire by assumption.
  set (b := be 2 tag ++ be 2 (N.of_nat (4 + length v)) ++ v ++ pad ++ (rest ++ t)) in *.
  assert (Hlen : length b = 4 + length v + length pad + length (rest ++ t)) by (unfold b; rewrite !app_length, !be_length; lia).
  replace (length b =? 0) with false by lia. cbn [bind p_length]. rewrite Padding_pad. cbn [p_data].
  replace (length b <? N.to_nat (N.of_nat (4 + length v)) + pad_len (length v)) with false by lia.
  rewrite slice_full by lia. cbn [bind].
  replace (skipn (N.to_nat (N.of_nat (4 + length v)) + pad_len (length v)) b) with (rest ++ t).
  2:{ unfold b. rewrite !app_assoc. rewrite <- (app_assoc _ rest t). rewrite skipn_app.
      rewrite skipn_all2 by (rewrite !app_length, !be_length; lia).
      rewrite !app_length, !be_length.
      replace (N.to_nat (N.of_nat (4 + length v)) + pad_len (length v) - (2 + 2 + length v + length pad)) with 0 by lia. reflexivity. }
  apply IH. lia.
Qed.
Lemma cut_err body : cut_off body -> ParseMultiParams body = Err EParamTooShortParse.
Proof.
  intros (good & t & -> & W & L). unfold ParseMultiParams.
  destruct (Multi_good good W t (S (length (good ++ t))) [] ltac:(lia)) as (f & acc & Lf & ->). destruct f as [|f]; [lia|]. cbn [ParseMulti_loop].
  replace (length t =? 0) with false by lia. rewrite ParseParam_exact. replace (length t <? 4) with true by lia. reflexivity.
Qed.
Lemma length_err body : wrong_length body -> ParseMultiParams body = Err EParamInvalidLength.
Proof.
  intros (good & t & -> & W & L & V). unfold ParseMultiParams.
  destruct (Multi_good good W t (S (length (good ++ t))) [] ltac:(lia)) as (f & acc & Lf & ->). destruct f as [|f]; [lia|]. cbn [ParseMulti_loop].
  replace (length t =? 0) with false by lia. rewrite ParseParam_exact. replace (length t <? 4) with false by lia. cbv zeta.
  set (n := val (firstn 2 (skipn 2 t))) in *. replace ((4 <=? n) && (n <=? N.of_nat (length t)))%N with false by lia. reflexivity.
Qed.
Lemma multi_cut body : ParseMultiParams body = Err EParamTooShortParse <-> cut_off body.
Proof. split; [|apply cut_err]. intros H. apply Multi_err in H as [[_ H]|[H _]]; [exact H|discriminate|lia]. Qed.
Lemma multi_length body : ParseMultiParams body = Err EParamInvalidLength <-> wrong_length body.
Proof. split; [|apply length_err]. intros H. apply Multi_err in H as [[H _]|[_ H]]; [discriminate|exact H|lia]. Qed.

(** packets *)
Lemma Parse_body v r c ty len body : (len < 4294967296)%N ->
  (forall ps, ParseMultiParams body = Ok ps -> (exists m, Parse (packet v r c ty len body) = Ok m) \/ Parse (packet v r c ty len body) = Err EMsgInvalidParameter) /\
  (forall e, ParseMultiParams body = Err e -> Parse (packet v r c ty len body) = Err e).
Proof.
  intros Hl. rewrite Parse_packet by exact Hl. cbv zeta. split.
  - intros ps E. rewrite E. cbn [bind]. destruct (dispatch c ty) as [k|]; [|left; eauto].
    destruct (allowed_dec k ps) as [A|A]; [destruct (assign_all_ok k ps no_fields A) as (s & -> & _); left; cbn [bind]; eauto|].
    rewrite (assign_all_err k ps no_fields A). right. reflexivity.
  - intros e E. rewrite E. reflexivity.
Qed.
Lemma err_of b e : Parse b = Err e -> length b < 8 /\ e = EMsgTooShortParse \/ exists v r c ty len body, (len < 4294967296)%N /\ b = packet v r c ty len body /\
  ((e = EMsgInvalidParameter /\ exists ps, ParseMultiParams body = Ok ps) \/ ParseMultiParams body = Err e).
Proof.
  intros H. destruct (Nat.lt_ge_cases (length b) 8) as [L|L]; [left; rewrite Parse_short in H by exact L; split; congruence|right].
  destruct (packet_of_8 b L) as (v & r & c & ty & len & body & Hl & ->). exists v, r, c, ty, len, body. split; [exact Hl|]. split; [reflexivity|].
  destruct (Parse_body v r c ty len body Hl) as [P1 P2]. destruct (ParseMultiParams body) as [ps|e'|p'] eqn:E.
  - left. destruct (P1 ps eq_refl) as [[m Hm]|He]; [congruence|]. split; [congruence|eauto].
  - right. rewrite (P2 e' eq_refl) in H. injection H as <-. reflexivity.
  - destruct (ParseMultiParams_outcome body) as [[ps X]|[X|X]]; congruence.
Qed.
Lemma packet_long v r c ty len body : 8 <= length (packet v r c ty len body).
Proof. unfold packet. rewrite !app_length, be_length. cbn. lia. Qed.
Lemma Parse_too_short b : Parse b = Err EMsgTooShortParse <-> length b < 8.
Proof.
  split; [|apply Parse_short]. intros H. apply err_of in H as [[L _]|(v & r & c & ty & len & body & Hl & -> & [[H _]|H])]; [exact L|discriminate|].
  destruct (ParseMultiParams_outcome body) as [[ps X]|[X|X]]; congruence.
Qed.
Lemma Parse_cut b : Parse b = Err EParamTooShortParse <-> exists v r c ty len body, (len < 4294967296)%N /\ b = packet v r c ty len body /\ cut_off body.
Proof.
  split.
  - intros H. apply err_of in H as [[_ H]|(v & r & c & ty & len & body & Hl & -> & [[H _]|H])]; [discriminate|discriminate|].
    exists v, r, c, ty, len, body. split; [exact Hl|]. split; [reflexivity|]. now apply multi_cut.
  - intros (v & r & c & ty & len & body & Hl & -> & H). apply (proj2 (Parse_body v r c ty len body Hl)). now apply multi_cut.
Qed.
Lemma Parse_length b : Parse b = Err EParamInvalidLength <-> exists v r c ty len body, (len < 4294967296)%N /\ b = packet v r c ty len body /\ wrong_length body.
Proof.
  split.
  - intros H. apply err_of in H as [[_ H]|(v & r & c & ty & len & body & Hl & -> & [[H _]|H])]; [discriminate|discriminate|].
    exists v, r, c, ty, len, body. split; [exact Hl|]. split; [reflexivity|]. now apply multi_length.
  - intros (v & r & c & ty & len & body & Hl & -> & H). apply (proj2 (Parse_body v r c ty len body Hl)). now apply multi_length.
Qed.
Lemma Parse_parameter b : Parse b = Err EMsgInvalidParameter <-> exists v r c ty len body l mt x, (len < 4294967296)%N /\ b = packet v r c ty len body /\ TLVs body l /\
  N.lor ((16 * b2n c) mod 256) (b2n ty) = (16 * b2n (rfc_class mt) + b2n (rfc_type mt))%N /\ In x l /\ ~ In (fst x) (rfc_params mt).
Proof.
  split.
  - intros H. pose proof H as H0. apply err_of in H as [[_ H]|(v & r & c & ty & len & body & Hl & -> & [[_ [ps E]]|H])]; [discriminate| |].
    + pose proof (proj1 (ParseMultiParams_iff _ _) E) as [_ T]. rewrite Parse_packet in H0 by exact Hl. cbv zeta in H0. rewrite E in H0. cbn [bind] in H0.
      destruct (dispatch c ty) as [k|] eqn:D; [|discriminate]. destruct (go_type_surj k) as [mt <-].
      destruct (allowed_dec (go_type mt) ps) as [A|A]; [destruct (assign_all_ok _ _ no_fields A) as (s & Es & _); rewrite Es in H0; discriminate|].
      rewrite rfc_order in A. assert (N : exists p, In p ps /\ ~ In (p_tag p) (rfc_params mt)).
      { clear -A. induction ps as [|p ps IH]; [destruct A; constructor|]. destruct (in_dec N.eq_dec (p_tag p) (rfc_params mt)) as [I|I]; [|exists p; split; [now left|exact I]].
        destruct IH as (q & Iq & Nq); [intros F; apply A; now constructor|]. exists q. split; [now right|exact Nq]. }
      destruct N as (p & Ip & Np). exists v, r, c, ty, len, body, (map tv ps), mt, (tv p). split; [exact Hl|]. split; [reflexivity|]. split; [exact T|].
      split; [now apply dispatch_spec|]. split; [now apply in_map|exact Np].
    + destruct (ParseMultiParams_outcome body) as [[ps X]|[X|X]]; congruence.
  - intros (v & r & c & ty & len & body & l & mt & x & Hl & -> & T & D & I & N). rewrite Parse_packet by exact Hl. cbv zeta. rewrite (TLVs_ok _ _ T). cbn [bind].
    apply dispatch_spec in D. rewrite D. rewrite assign_all_err; [reflexivity|]. rewrite rfc_order. intros F. rewrite Forall_forall in F.
    apply N. exact (F (mk x) (in_map mk _ _ I)).
Qed.

(** the fuzz entry points *)
Lemma fuzz_message b : (FuzzMessage b = Ok 1 \/ FuzzMessage b = Ok 0) /\ (FuzzMessage b = Ok 1 <-> exists v r c ty len body l,
  (len < 4294967296)%N /\ b = packet v r c ty len body /\ TLVs body l /\
  forall mt, N.lor ((16 * b2n c) mod 256) (b2n ty) = (16 * b2n (rfc_class mt) + b2n (rfc_type mt))%N -> Forall (fun x => In (fst x) (rfc_params mt)) l).
Proof.
  rewrite <- Parse_accepts_exactly. unfold FuzzMessage. destruct (Parse_outcome b) as [[m ->]|(e & -> & _)].
  - split; [now left|]. split; [eauto|reflexivity].
  - split; [now right|]. split; [discriminate|]. intros [m H]. discriminate.
Qed.
Lemma fuzz_params b : (FuzzParams b = Ok 1 \/ FuzzParams b = Ok 0) /\ (FuzzParams b = Ok 1 <-> exists l, TLVs b l /\ l <> []).
Proof.
  unfold FuzzParams. split.
  - destruct (ParseParam_outcome b) as [[p ->]|[-> | ->]]; auto. destruct (ParseMultiParams_outcome b) as [[q ->]|[-> | ->]]; auto.
  - split.
    + destruct (ParseParam b) as [p|e|p] eqn:P; try discriminate. destruct (ParseMultiParams b) as [ps|e|q] eqn:M; try discriminate. intros _.
      apply ParseMultiParams_iff in M as [_ T]. exists (map tv ps). split; [exact T|]. intros N. rewrite N in T. inversion T; subst. discriminate P.
    + intros (l & T & N). rewrite (TLVs_ok _ _ T). destruct T as [|tag v pad Ht Hv Hp|tag v pad rest l Ht Hv Hp T]; [congruence| |]; rewrite ParseParam_wire by assumption; reflexivity.
Qed.
