(** Proofs: two messages in one packet. *)
From Verif Require Import GoBase BaseProofs WireSpec ParamsModel ParamsSpec ParamsProofs MessagesModel MsgSpec MessagesProofs MessagesProofs2 TruncProofs RejectSpec FuzzModel RejectProofs NormProofs.
From Coq Require Import Arith Lia.
Open Scope nat_scope.

Lemma TLVs_whole b l : TLVs b l -> length b mod 4 = 0 -> Whole b.
Proof.
  induction 1 as [|t v pad Ht Hv Hp|t v pad rest l Ht Hv Hp HT IH]; intros M; [constructor| |].
  - exfalso. rewrite !app_length, !be_length in M. pose proof (pad_four (length v)) as [P4 Pl].
    apply Nat.mod_divides in P4 as [k K]; [|lia]. apply Nat.mod_divides in M as [j J]; [|lia]. lia.
  - apply Whole_cons; auto. apply IH. rewrite !app_length, !be_length in M. pose proof (pad_four (length v)) as [P4 _].
    apply Nat.mod_divides in P4 as [k K]; [|lia]. apply Nat.mod_divides in M as [j J]; [|lia].
    apply Nat.mod_divides; [lia|]. exists (j - k). lia.
Qed.
Lemma Whole_app a b : Whole a -> Whole b -> Whole (a ++ b).
Proof. induction 1 as [|t v pad r H1 H2 H3 H4 IH]; intros B; [exact B|]. rewrite <- !app_assoc. apply Whole_cons; auto. Qed.
Lemma Whole_TLVs a b l : Whole a -> TLVs b l -> exists l1, TLVs (a ++ b) (l1 ++ l).
Proof.
  induction 1 as [|t v pad r H1 H2 H3 H4 IH]; intros B; [exists []; exact B|]. destruct (IH B) as [l1 T].
  exists ((t, v) :: l1). rewrite <- !app_assoc. cbn [app]. apply TLVs_cons; auto.
Qed.
Lemma Whole_cut a b : Whole a -> cut_off b -> cut_off (a ++ b).
Proof. intros A (g & t & -> & G & L). exists (a ++ g), t. rewrite app_assoc. auto using Whole_app. Qed.
Lemma Whole_wrong a b : Whole a -> wrong_length b -> wrong_length (a ++ b).
Proof. intros A (g & t & -> & G & L). exists (a ++ g), t. rewrite app_assoc. auto using Whole_app. Qed.

Lemma Typed_packet b m : Parse b = Ok (Typed m) -> exists v r c ty len body l mt, (len < 4294967296)%N /\ b = packet v r c ty len body /\ TLVs body l /\
  N.lor ((16 * b2n c) mod 256) (b2n ty) = (16 * b2n (rfc_class mt) + b2n (rfc_type mt))%N.
Proof.
  intros P. pose proof P as P0.
  assert (A : exists m0, Parse b = Ok m0) by eauto. apply Parse_accepts_exactly in A as (v & r & c & ty & len & body & l & Hl & -> & T & _).
  rewrite Parse_packet in P by exact Hl. cbv zeta in P. rewrite (TLVs_ok _ _ T) in P. cbn [bind] in P.
  destruct (dispatch c ty) as [k|] eqn:D; [|discriminate]. destruct (go_type_surj k) as [mt <-].
  exists v, r, c, ty, len, body, l, mt. repeat split; auto. now apply dispatch_spec.
Qed.
Lemma packet_app v r c ty len body rest : packet v r c ty len body ++ rest = packet v r c ty len (body ++ rest).
Proof. unfold packet. now rewrite <- !app_assoc. Qed.
Lemma packet_mod v r c ty len body : length (packet v r c ty len body) mod 4 = 0 -> length body mod 4 = 0.
Proof.
  unfold packet. rewrite !app_length, be_length. cbn [length]. intros M. apply Nat.mod_divides in M as [j J]; [|lia].
  apply Nat.mod_divides; [lia|]. exists (j - 2). lia.
Qed.
Lemma foreign_256 mt : ~ In 256%N (rfc_params mt).
Proof. destruct mt; cbn; intuition discriminate. Qed.
Lemma head_256 rest l : TLVs (x01 :: x00 :: rest) l -> exists v l', l = (256%N, v) :: l'.
Proof.
  intros T. apply TLVs_inv in T as [[E _]|(t & v & k & E & Ht & _ & D)]; [discriminate|].
  assert (t = 256%N) as ->.
  { apply (be2_inj t 256 Ht ltac:(lia)). change (be 2 256) with [x01; x00]. change (x01 :: x00 :: rest) with ([x01; x00] ++ rest) in E.
    apply app_eq_len in E as [E _]; [symmetry; exact E|now rewrite be_length]. }
  destruct D as [[_ ->]|(pad & r & l2 & _ & _ & _ & ->)]; eauto.
Qed.

Lemma joined b m rest : Parse b = Ok (Typed m) -> length b mod 4 = 0 ->
  (Parse (b ++ x01 :: x00 :: rest) = Err EParamTooShortParse /\ cut_off (x01 :: x00 :: rest)) \/
  (Parse (b ++ x01 :: x00 :: rest) = Err EParamInvalidLength /\ wrong_length (x01 :: x00 :: rest)) \/
  (Parse (b ++ x01 :: x00 :: rest) = Err EMsgInvalidParameter /\ exists l, TLVs (x01 :: x00 :: rest) l).
Proof.
  intros P M. apply Typed_packet in P as (v & r & c & ty & len & body & l & mt & Hl & -> & T & D).
  apply packet_mod in M. pose proof (TLVs_whole _ _ T M) as W. rewrite packet_app.
  destruct (ParseMultiParams_outcome (x01 :: x00 :: rest)) as [[ps E]|[E|E]].
  - right. right. apply ParseMultiParams_iff in E as [_ E]. split; [|eauto]. apply Parse_parameter.
    destruct (Whole_TLVs _ _ _ W E) as [l1 T1]. destruct (head_256 _ _ E) as (v0 & l' & Eh).
    exists v, r, c, ty, len, (body ++ x01 :: x00 :: rest), (l1 ++ map tv ps), mt, (256%N, v0).
    repeat split; auto; [|apply foreign_256]. apply in_or_app. right. rewrite Eh. now left.
  - left. apply multi_cut in E. split; [|exact E]. apply Parse_cut. exists v, r, c, ty, len, (body ++ x01 :: x00 :: rest). auto using Whole_cut.
  - right. left. apply multi_length in E. split; [|exact E]. apply Parse_length. exists v, r, c, ty, len, (body ++ x01 :: x00 :: rest). auto using Whole_wrong.
Qed.

(** the second one is a packet: its class and type are read as a length *)
Lemma joined_length b m c ty len body : Parse b = Ok (Typed m) -> length b mod 4 = 0 ->
  (256 * b2n c + b2n ty < 4 \/ N.of_nat (8 + length body) < 256 * b2n c + b2n ty)%N ->
  Parse (b ++ packet x01 x00 c ty len body) = Err EParamInvalidLength.
Proof.
  intros P M B.
  assert (W : wrong_length (packet x01 x00 c ty len body)).
  { exists [], (packet x01 x00 c ty len body). split; [reflexivity|]. split; [constructor|]. rewrite packet_length. split; [lia|].
    replace (val (firstn 2 (skipn 2 (packet x01 x00 c ty len body)))) with (256 * b2n c + b2n ty)%N; [exact B|].
    change (firstn 2 (skipn 2 (packet x01 x00 c ty len body))) with [c; ty]. unfold val. cbn [fold_left]. lia. }
  apply multi_length in W.
  destruct (joined b m ([c; ty] ++ be 4 len ++ body) P M) as [[_ X]|[[X _]|[_ [l X]]]].
  - apply multi_cut in X. change (x01 :: x00 :: [c; ty] ++ be 4 len ++ body) with (packet x01 x00 c ty len body) in X. congruence.
  - exact X.
  - apply TLVs_ok in X. change (x01 :: x00 :: [c; ty] ++ be 4 len ++ body) with (packet x01 x00 c ty len body) in X. congruence.
Qed.

Lemma encoded_packet m m' b : m3_MarshalBinary m = Ok (m', b) ->
  exists len body, b = packet (h_version (hdr_of m)) (h_reserved (hdr_of m)) (h_class (hdr_of m)) (h_type (hdr_of m)) len body.
Proof.
  destruct m as [m|g]; intros E; [rewrite msg_MarshalBinary_ok in E|rewrite gen_MarshalBinary_ok in E]; injection E as <- <-; unfold hdr_bytes, set_payload; cbn; eauto.
Qed.
Lemma encoded_len m m' b : m3_MarshalBinary m = Ok (m', b) -> length b mod 4 = 0.
Proof.
  intros E. destruct (MarshalLen_exact m) as (m2 & b2 & E2 & L). rewrite E in E2. injection E2 as <- <-. rewrite L. apply m3_MarshalLen_mod4.
Qed.
Lemma joined_messages m1 m1' b1 m m2 m2' b2 : m3_MarshalBinary m1 = Ok (m1', b1) -> Parse b1 = Ok (Typed m) ->
  m3_MarshalBinary m2 = Ok (m2', b2) -> h_version (hdr_of m2) = x01 -> h_reserved (hdr_of m2) = x00 ->
  exists e, Parse (b1 ++ b2) = Err e /\ In e [EParamTooShortParse; EParamInvalidLength; EMsgInvalidParameter] /\
  (let t := (256 * b2n (h_class (hdr_of m2)) + b2n (h_type (hdr_of m2)))%N in (t < 4 \/ N.of_nat (length b2) < t)%N -> e = EParamInvalidLength).
Proof.
  intros E1 P1 E2 V R. apply encoded_len in E1. apply encoded_packet in E2 as (len & body & ->). rewrite V, R.
  destruct (joined b1 m ([h_class (hdr_of m2); h_type (hdr_of m2)] ++ be 4 len ++ body) P1 E1) as [[X _]|[[X _]|[X _]]];
    change (b1 ++ x01 :: x00 :: [h_class (hdr_of m2); h_type (hdr_of m2)] ++ be 4 len ++ body)
      with (b1 ++ packet x01 x00 (h_class (hdr_of m2)) (h_type (hdr_of m2)) len body) in X; eexists; (split; [exact X|]); (split; [cbn; auto|]);
    intros t B; rewrite packet_length in B; rewrite (joined_length b1 m _ _ len body P1 E1 B) in X; congruence.
Qed.
