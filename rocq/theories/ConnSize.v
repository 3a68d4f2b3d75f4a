(** Proofs about SizeSpec.v. *)
From Verif Require Import GoBase BaseProofs ParamsModel MessagesModel WireSpec ParamsSpec MsgSpec ParamsProofs AccessorProofs
  MessagesProofs MessagesProofs2 ConfigModel ConnModel ConnSpec ConnBase ConnInv ConnTrace CfgSpec ConnUser ConnCodec NormSpec NormProofs WorkSpec ConnWork SizeSpec.
From Coq Require Import Arith Lia List ZifyNat.
Open Scope nat_scope.
Opaque max_value_len.

Lemma room_len o : opt_len o = room o.
Proof. destruct o as [p|]; [|reflexivity]. cbn [opt_len room]. unfold MarshalLen. now rewrite Padding_pad. Qed.
Lemma size_code n : room (Some (NewErrorCode n)) = 8.
Proof. unfold room, NewErrorCode, newUint32ValParam. cbn [p_data]. now rewrite put_u32_be, be_length. Qed.
Lemma size_apc n : room (Some (NewAffectedPointCode [n])) = 8.
Proof. unfold room, NewAffectedPointCode. rewrite multi32_data. cbn [SetLength p_data map concat]. now rewrite app_nil_r, be_length. Qed.
Lemma pad_small n : pad_len n <= 3.
Proof. unfold pad_len. pose proof (Nat.mod_upper_bound (4 - n mod 4) 4). lia. Qed.
Lemma size_diag d : length d <= 40 -> room (Some (NewDiagnosticInformation d)) <= 44.
Proof.
  intros L. unfold room. change (p_data (NewDiagnosticInformation d)) with d. unfold pad_len.
  pose proof (Nat.div_mod (length d) 4 ltac:(lia)). pose proof (Nat.mod_upper_bound (length d) 4 ltac:(lia)).
  set (q := length d / 4) in *. set (r := length d mod 4) in *. destruct r as [|[|[|[|r]]]]; cbn; lia.
Qed.
Lemma set_size o : opt_len (option_map SetLength o) = opt_len o.
Proof. now destruct o as [p|]. Qed.
Lemma len_error a b c d e : m3_MarshalLen (Typed (NewError a b c d e)) = 8 + room a + room b + room c + room d + room e.
Proof. rewrite <- !room_len. unfold m3_MarshalLen, msg_MarshalLen; cbn -[opt_len Nat.add]; rewrite ?set_size; lia. Qed.
Lemma len_up a b : m3_MarshalLen (Typed (NewAspUp a b)) = 8 + room a + room b.
Proof. rewrite <- !room_len. unfold m3_MarshalLen, msg_MarshalLen; cbn -[opt_len Nat.add]; rewrite ?set_size; lia. Qed.
Lemma len_up_ack a b : m3_MarshalLen (Typed (NewAspUpAck a b)) = 8 + room a + room b.
Proof. rewrite <- !room_len. unfold m3_MarshalLen, msg_MarshalLen; cbn -[opt_len Nat.add]; rewrite ?set_size; lia. Qed.
Lemma len_down_ack a : m3_MarshalLen (Typed (NewAspDownAck a)) = 8 + room a.
Proof. rewrite <- !room_len. unfold m3_MarshalLen, msg_MarshalLen; cbn -[opt_len Nat.add]; rewrite ?set_size; lia. Qed.
Lemma len_active a b c : m3_MarshalLen (Typed (NewAspActive a b c)) = 8 + room a + room b + room c.
Proof. rewrite <- !room_len. unfold m3_MarshalLen, msg_MarshalLen; cbn -[opt_len Nat.add]; rewrite ?set_size; lia. Qed.
Lemma len_active_ack a b c : m3_MarshalLen (Typed (NewAspActiveAck a b c)) = 8 + room a + room b + room c.
Proof. rewrite <- !room_len. unfold m3_MarshalLen, msg_MarshalLen; cbn -[opt_len Nat.add]; rewrite ?set_size; lia. Qed.
Lemma len_inactive_ack a b : m3_MarshalLen (Typed (NewAspInactiveAck a b)) = 8 + room a + room b.
Proof. rewrite <- !room_len. unfold m3_MarshalLen, msg_MarshalLen; cbn -[opt_len Nat.add]; rewrite ?set_size; lia. Qed.
Lemma len_beat d : m3_MarshalLen (beat d) = 8 + room (Some (NewHeartbeatData d)).
Proof. rewrite <- room_len. unfold m3_MarshalLen, msg_MarshalLen; cbn -[opt_len Nat.add]; rewrite ?set_size; lia. Qed.
Lemma len_ack t : m3_MarshalLen (beat_ack_of t) = m3_MarshalLen (Typed t).
Proof. reflexivity. Qed.
Ltac sizes := rewrite ?len_error, ?len_up, ?len_up_ack, ?len_down_ack, ?len_active, ?len_active_ack, ?len_inactive_ack, ?size_code, ?size_apc;
  change (room None) with 0; unfold own_size; lia.
Lemma initial_size mo g x r : initial mo g x = Some r -> m3_MarshalLen r <= own_size g.
Proof. unfold initial, asp_up, asp_active. intros H. destruct mo, x; inversion H; subst; sizes. Qed.
Lemma answer_size g e r : ConnSpec.answers g e r -> m3_MarshalLen r <= own_size g.
Proof.
  intros A. inversion A; subst; try sizes.
  pose proof (size_diag (firstn 40 b) ltac:(rewrite firstn_length; lia)). sizes.
Qed.
Lemma reply_size g t l r : reply_table g t = Some (l, r) -> m3_MarshalLen r <= own_size g \/ (m_kind t = KHeartbeat /\ r = beat_ack_of t).
Proof.
  unfold reply_table. intros H. destruct (m_kind t) eqn:K; try discriminate; inversion H; subst; try (left; sizes). right. split; reflexivity.
Qed.
Lemma parsed_size raw m : Parse raw = Ok m -> m3_MarshalLen m <= round4 (length raw).
Proof.
  intros P. destruct (reencode_any raw m P) as (m' & b' & E & _ & _ & _ & L). rewrite <- (encodes_len m b'); [exact L|]. exists m'. exact E.
Qed.
Lemma reacts_size g s m r raw : valid raw m -> reacts g s m (Reply r) ->
  m3_MarshalLen r <= own_size g \/ exists t, m = Typed t /\ m_kind t = KHeartbeat /\ m3_MarshalLen r <= round4 (length raw).
Proof.
  intros [P _] X. inversion X as [|t l r' T I| | |]; subst. destruct (reply_size _ _ _ _ T) as [H|[K ->]]; [now left|right].
  exists t. split; [reflexivity|]. split; [exact K|]. rewrite len_ack. now apply parsed_size.
Qed.

(** one message *)
Lemma each_size c l1 o s m b l2 : reachable c -> log c = l1 ++ ESend o s m b :: l2 -> by_user o = false ->
  (o = OHb /\ length b = 140) \/ length b <= own_size (cfg c) \/
  (exists i raw t, o = OHand i /\ nth_error (reads l1) i = Some raw /\ valid raw (Typed t) /\ m_kind t = KHeartbeat /\ length b <= round4 (length raw)).
Proof.
  intros R E U. destruct o as [|i|i| |i].
  - right. left. destruct (mon_sends _ _ _ _ _ _ R E) as (_ & En & [(l0 & x & l3 & _ & I & _)|(l0 & o & e & l3 & _ & A & _)]);
      rewrite (encodes_len _ _ En); [eapply initial_size; eauto|eapply answer_size; eauto].
  - right. destruct (reply_justified _ _ _ _ _ _ _ R E) as (_ & En & _ & raw & t & sts & N & V & T & _). rewrite (encodes_len _ _ En).
    destruct (reply_size _ _ _ _ T) as [H|[K ->]]; [now left|right]. exists i, raw, t. repeat (split; [auto|]). rewrite len_ack. apply parsed_size. apply V.
  - destruct (trace_reachable c R) as [h H]. destruct (history_split _ _ _ _ _ _ _ H E) as (ha & he & Ha & S & _). inversion S.
  - left. destruct (trace_reachable c R) as [h H]. destruct (history_split _ _ _ _ _ _ _ H E) as (ha & he & Ha & S & _).
    inversion S as [| | | | | | | |h1 x b1 B L En| |]; subst. split; [reflexivity|]. rewrite (encodes_len _ _ En), len_beat.
    unfold room. change (p_data (NewHeartbeatData x)) with x. rewrite L. reflexivity.
  - discriminate.
Qed.

(** all messages *)
Definition pending (h : hstate) : nat := match h_due h, h_out h with Some (Some raw), false => round4 (length raw) | _, _ => 0 end.
Lemma answered_app a b : answered (a ++ b) = answered a + answered b.
Proof. unfold answered. now rewrite map_app, list_sum_app. Qed.
Lemma taken_app a b : taken (a ++ b) = taken a + taken b.
Proof. unfold taken. now rewrite map_app, list_sum_app. Qed.
Lemma count_app a b : answers (a ++ b) = answers a + answers b.
Proof. unfold answers. now rewrite filter_app, app_length. Qed.
Lemma history_size mo g l h : history mo g l h ->
  (forall r, h_may h = Some r -> m3_MarshalLen r <= own_size g) /\ answered l + pending h <= own_size g * answers l + taken l.
Proof.
  intros H. induction H as [|l h e h' H [IM IH] S]; [split; [discriminate|cbn; lia]|].
  rewrite answered_app, taken_app, count_app. unfold pending in *.
  destruct S; repeat match goal with x := _ |- _ => subst x end; cbn [h_may h_due h_out] in *.
  all: split; [try discriminate; try exact IM|].
  all: try (intros r0 M; eapply initial_size; eauto; fail).
  all: try (intros r0 M; eapply answer_size; eauto; fail).
  all: unfold answered at 2, taken at 2, answers at 2; cbn [map list_sum fold_right filter is_answer length].
  all: try lia.
  all: try (destruct d as [[d|]|], out; lia).
  - rewrite (encodes_len _ _ H3). destruct (reacts_size _ _ _ _ _ H0 H2) as [L|(t & _ & _ & L)]; lia.
  - specialize (IM _ eq_refl). rewrite <- (encodes_len _ _ H0) in IM. lia.
Qed.
Lemma total_size m g o ls c : run (start m g o) ls = Some c -> answered (log c) <= own_size g * (first m + per m * packets (log c)) + taken (log c).
Proof.
  intros R. assert (Rc : reachable c) by (exists m, g, o, ls; exact R).
  destruct (static_run _ _ _ R) as (_ & G & _). destruct (trace_reachable c Rc) as [h H]. destruct (history_size _ _ _ _ H) as [_ S].
  pose proof (answers_run _ _ _ _ _ R) as A. rewrite G in S. cbn [start cfg] in S.
  pose proof (Nat.mul_le_mono_l _ _ (own_size g) A). lia.
Qed.
