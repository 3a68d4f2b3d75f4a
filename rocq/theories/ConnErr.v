(** The octets of the Error messages that the monitor sends. *)
From Verif Require Import GoBase BaseProofs ParamsModel MessagesModel WireSpec ParamsSpec MsgSpec ParamsProofs AccessorProofs
  MessagesProofs MessagesProofs2 ConfigModel ConnModel ConnSpec ConnBase ConnInv ConnTrace CfgSpec ConnUser ConnCodec ConfigWire.
From Coq Require Import Arith Lia.
Open Scope nat_scope.
Opaque max_value_len.

(** ** Specification *)
(** an Error message (RFC 4666 3.8.1): error code, routing contexts, network appearance, affected point codes, diagnostic information *)
Definition err_packet (code : N) (rc na apc diag : option (list byte)) : list byte :=
  message ERR [Some (be 4 code); rc; na; apc; diag].
Definition value (o : option param) : option (list byte) := option_map p_data o.

(** ** Proofs *)
Lemma last_loud a x q a' y q' : a ++ x :: q = a' ++ y :: q' -> quiet x = false -> quiet y = false ->
  forallb quiet q = true -> forallb quiet q' = true -> a = a' /\ x = y /\ q = q'.
Proof.
  revert a'. induction a as [|z a IH]; intros a' E Qx Qy Q Q'; destruct a' as [|z' a']; cbn [app] in E; inversion E; subst; auto.
  - exfalso. rewrite forallb_app in Q. cbn [forallb] in Q. rewrite Qy in Q. now rewrite andb_false_r in Q.
  - exfalso. rewrite forallb_app in Q'. cbn [forallb] in Q'. rewrite Qx in Q'. now rewrite andb_false_r in Q'.
  - destruct (IH a' H1) as (-> & -> & ->); auto.
Qed.
Lemma code_data n : p_data (NewErrorCode n) = be 4 n.
Proof. unfold NewErrorCode, newUint32ValParam. cbn [p_data]. apply put_u32_be. Qed.
Lemma apc_data n : p_data (NewAffectedPointCode [n]) = be 4 n.
Proof. unfold NewAffectedPointCode. rewrite multi32_data. cbn [SetLength p_data map concat]. apply app_nil_r. Qed.
Lemma code_ok n : slot_ok 12 (Some (NewErrorCode n)).
Proof. cbn [slot_ok]. split; [reflexivity|]. rewrite code_data, be_length. apply max_value_len_spec. lia. Qed.
Lemma apc_ok n : slot_ok 18 (Some (NewAffectedPointCode [n])).
Proof. cbn [slot_ok]. split; [reflexivity|]. rewrite apc_data, be_length. apply max_value_len_spec. lia. Qed.
Lemma diag_ok d : length d <= 40 -> slot_ok 7 (Some (NewDiagnosticInformation d)).
Proof. intros L. cbn [slot_ok]. split; [reflexivity|]. change (p_data (NewDiagnosticInformation d)) with d. apply max_value_len_spec. lia. Qed.
Lemma err_octets n rc na apc diag b : slot_ok 6 rc -> slot_ok 0x200 na -> slot_ok 18 apc -> slot_ok 7 diag ->
  encodes (Typed (NewError (Some (NewErrorCode n)) rc na apc diag)) b -> b = err_packet n (value rc) (value na) (value apc) (value diag).
Proof.
  intros Hr Hn Ha Hd E.
  assert (F : Forall2 slot_ok (rfc_params ERR) [Some (NewErrorCode n); rc; na; apc; diag]).
  { repeat (apply Forall2_cons || apply Forall2_nil); auto. apply code_ok. }
  apply (rt_message ERR _ _ F (NewError_rt _ _ _ _ _ F)) in E. rewrite E. unfold err_packet. cbn [map option_map]. now rewrite code_data.
Qed.

(** the packet an unsupported-message error is about *)
Lemma unsupported_packet c l1 o m l2 : reachable c -> log c = l1 ++ ERefused o (EUnsupportedMessage m) :: l2 ->
  exists i raw, o = OHand i /\ length (reads l1) = S i /\ nth_error (reads l1) i = Some raw /\ valid raw m /\ supported m = false.
Proof.
  intros R E. destruct (trace_reachable c R) as [h H].
  destruct (history_split _ _ _ _ _ _ _ H E) as (ha & he & Ha & S & _). destruct (history_n _ _ _ _ Ha) as (N1 & N2 & _).
  inversion S as [| | | | |raw e n cur cl may may' J A| o' e d n cur cl out may may' O| | | |]; subst.
  - cbn [h_n h_due] in *. destruct (N2 raw eq_refl) as [q Q].
    assert (Li : length q = n) by (rewrite Q, app_length in N1; cbn in N1; lia).
    exists n, raw. split; [reflexivity|]. split; [now rewrite <- N1|]. split; [rewrite Q, nth_error_app2, Li, Nat.sub_diag by lia; reflexivity|].
    inversion J as [|m' s e V Sn Rc|]; subst. inversion Rc; subst. auto.
  - inversion O; subst. match goal with K : In _ _ |- _ => cbn in K; intuition discriminate end.
Qed.

Definition error_octets (g : config) (l1 : list event) (o : origin) (e : cerr) (b : list byte) : Prop :=
  match e with
  | EInvalidVersion _ => b = err_packet 1 None None None None
  | EUnsupportedMessage m => exists i raw d, o = OHand i /\ nth_error (reads l1) i = Some raw /\ valid raw m /\ supported m = false /\ encodes m d /\
      b = err_packet 4 None None None (Some (firstn 40 d))
  | EUnexpected _ => b = err_packet 6 (value (cf_rc g)) (value (cf_na g)) (Some (be 4 (cf_opc g))) None
  | _ => False
  end.
Lemma error_sent c l1 o e q s r b l2 : reachable c -> slot_ok 6 (cf_rc (cfg c)) -> slot_ok 0x200 (cf_na (cfg c)) ->
  log c = l1 ++ ERefused o e :: q ++ ESend OMon s r b :: l2 -> forallb quiet q = true ->
  s = 0%N /\ error_octets (cfg c) l1 o e b.
Proof.
  intros R Hr Hn E Q.
  assert (E' : log c = (l1 ++ ERefused o e :: q) ++ ESend OMon s r b :: l2) by (rewrite <- app_assoc; exact E).
  destruct (mon_sends _ _ _ _ _ _ R E') as (-> & En & [(l0 & x & l3 & X & _ & Q')|(l0 & o' & e' & l3 & X & A & Q')]).
  - apply last_loud in X as (_ & X & _); auto. discriminate.
  - apply last_loud in X as (<- & X & <-); auto. inversion X; subst o' e'. split; [reflexivity|]. unfold error_octets.
    assert (None_ok : forall t, slot_ok t None) by (intros; exact Logic.I).
    inversion A; subst.
    + apply err_octets in En; auto.
    + match goal with K : encodes m ?d |- _ => rename K into Em; rename d into d0 end.
      destruct (unsupported_packet _ _ _ _ _ R E) as (i & raw & -> & _ & N & V & Su). exists i, raw, d0. repeat (split; [auto|]).
      apply err_octets in En; auto. apply diag_ok. rewrite firstn_length. lia.
    + apply err_octets in En; auto; [|apply apc_ok]. rewrite En. cbn [value option_map]. now rewrite apc_data.
Qed.

(** the re-encoding of a packet whose parameters are in order and padded with zeros is the packet *)
Definition canonical (raw : list byte) : Prop :=
  (exists t v r c ty len slots, (len < 4294967296)%N /\
     N.lor ((16 * b2n c) mod 256) (b2n ty) = (16 * b2n (rfc_class t) + b2n (rfc_type t))%N /\
     Forall (fun o => match o with Some v => length v <= max_value_len | None => True end) slots /\
     raw = packet v r c ty len (body_of (zip_slots (rfc_params t) slots))) \/
  (exists v r c ty len l, (len < 4294967296)%N /\
     (forall t, N.lor ((16 * b2n c) mod 256) (b2n ty) <> (16 * b2n (rfc_class t) + b2n (rfc_type t))%N) /\
     Forall (fun x => (fst x < 65536)%N /\ length (snd x) <= max_value_len) l /\
     raw = packet v r c ty len (body_of l)).
Lemma canonical_reencodes raw m d : canonical raw -> Parse raw = Ok m -> encodes m d -> d = raw.
Proof.
  intros [(t & v & r & c & ty & len & slots & Hl & Hd & F & ->)|(v & r & c & ty & len & l & Hl & Hd & F & ->)] P En.
  - destruct (reencode_typed' t v r c ty len slots Hl Hd F) as (m' & P' & E'). rewrite P in P'. injection P' as <-.
    eapply encodes_fun; [exact En|exists m; exact E'].
  - destruct (reencode_generic' v r c ty len l Hl Hd F) as (m' & P' & E'). rewrite P in P'. injection P' as <-.
    eapply encodes_fun; [exact En|exists m; exact E'].
Qed.
Lemma diag_of_packet c l1 i m q s r b l2 raw : reachable c -> slot_ok 6 (cf_rc (cfg c)) -> slot_ok 0x200 (cf_na (cfg c)) ->
  log c = l1 ++ ERefused (OHand i) (EUnsupportedMessage m) :: q ++ ESend OMon s r b :: l2 -> forallb quiet q = true ->
  nth_error (reads l1) i = Some raw -> canonical raw -> b = err_packet 4 None None None (Some (firstn 40 raw)).
Proof.
  intros R Hr Hn E Q N Ca. destruct (error_sent _ _ _ _ _ _ _ _ _ R Hr Hn E Q) as (_ & i' & raw' & d & Ei & N' & (P & _) & _ & En & ->).
  injection Ei as <-. rewrite N in N'. injection N' as <-. now rewrite (canonical_reencodes raw m d Ca P En).
Qed.

Lemma error_codes g e m : error_reply g e = Ok (Some m) ->
  exists t p, m = Typed t /\ m_kind t = KError /\ fget FErrorCode (m_f t) = Some p /\
  ErrorCode p = match e with
                   | EInvalidVersion _ => 1 | EUnsupportedClass _ => 3 | EUnsupportedMessage _ => 4 | EUnexpected _ => 6
                   | EInvalidStream _ => 9 | EAspIDRequired => 14 | _ => 0
                   end%N.
Proof.
  destruct e; cbn [error_reply]; try discriminate; try (destruct (first40 m0) as [d|x|q]; cbn [bind]; try discriminate);
    intros E; injection E as <-; eexists _, _; split; try reflexivity; split; try reflexivity; split; reflexivity.
Qed.
