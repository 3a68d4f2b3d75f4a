(** C123: finding out which error was returned. *)
From Verif Require Import GoBase BaseProofs WireSpec ParamsModel ParamsSpec ParamsProofs MessagesModel MsgSpec MessagesProofs MessagesProofs2 RejectSpec RejectProofs
  PcModel ConfigModel ConnModel ConnInv TextModel TextSpec EstModel ErrIsModel.
From Coq Require Import Arith Lia.
Open Scope nat_scope.
Open Scope list_scope.

(** errors.Is(x, v) for error variables without an Is method *)
Inductive finds : errval -> evar -> Prop :=
| F_is v : finds (Named v) v
| F_in t x v : finds x v -> finds (Wraps t x) v.
(** x == v *)
Definition same (x : errval) (v : evar) : Prop := x = Named v.

Lemma finds_named v w : finds (Named v) w <-> w = v.
Proof. split; [now inversion 1|intros ->; constructor]. Qed.
Lemma finds_wraps t x v : finds (Wraps t x) v <-> finds x v.
Proof. split; [now inversion 1|now constructor]. Qed.
Lemma foreign_finds k v : finds (foreign_error k) v <-> v = VCodec EMsgInvalidParameter.
Proof. destruct k; cbn [foreign_error]; rewrite ?finds_wraps; apply finds_named. Qed.
Lemma index_lt (b : list byte) i : i < length b -> exists x, index b i = Ok x.
Proof. intros L. unfold index. destruct (nth_error b i) as [x|] eqn:E; [eauto|apply nth_error_None in E; lia]. Qed.
(** the error of Parse and the outcome of the model's Parse *)
Lemma parse_error_spec b :
  match Parse b with
  | Err e => exists x, parse_error b = Some x /\ (forall v, finds x v <-> v = VCodec e) /\
      ((forall v, x <> Named v) <-> exists c t k, index b 2 = Ok c /\ index b 3 = Ok t /\ dispatch c t = Some k /\ e = EMsgInvalidParameter /\ In k [KDUNA; KDAVA; KDAUD; KDRST; KDUPU])
  | _ => parse_error b = None
  end.
Proof.
  assert (Bare : forall e (Q : Prop), (Q -> False) -> exists x, Some (Named (VCodec e)) = Some x /\ (forall v, finds x v <-> v = VCodec e) /\ ((forall v, x <> Named v) <-> Q)).
  { intros e Q NQ. eexists. split; [reflexivity|]. split; [intros v; apply finds_named|]. split; [intros H; exfalso; eapply H; reflexivity|intros q; destruct (NQ q)]. }
  unfold Parse, parse_error. destruct (Nat.ltb_spec (length b) 4) as [L|L].
  - apply Bare. intros (c & t & k & _ & _ & _ & E & _). discriminate.
  - destruct (index_lt b 2) as [c Hc]; [lia|]. destruct (index_lt b 3) as [t Ht]; [lia|]. rewrite Hc, Ht. cbn [bind].
    destruct (dispatch c t) as [k|] eqn:D.
    + unfold unmarshal_error. destruct (msg_Unmarshal k b) as [m|e|p]; cbn [bind]; try reflexivity.
      destruct e; try (apply Bare; intros (c' & t' & k' & _ & _ & _ & E & _); discriminate).
      eexists. split; [reflexivity|]. split; [intros v; apply foreign_finds|]. split.
      * intros H. exists c, t, k. split; [reflexivity|]. split; [reflexivity|]. split; [exact D|]. split; [reflexivity|].
        destruct k; cbn [foreign_error] in H; try (exfalso; eapply H; reflexivity); cbn; tauto.
      * intros (c' & t' & k' & [= <-] & [= <-] & D' & _ & I) v. rewrite D in D'. injection D' as <-. cbn in I.
        destruct I as [<-|[<-|[<-|[<-|[<-|[]]]]]]; discriminate.
    + destruct (gen_Unmarshal b) as [g|e|p]; cbn [bind]; try reflexivity. apply Bare. intros (c' & t' & k' & [= <-] & [= <-] & D' & _). rewrite D in D'. discriminate.
Qed.

(** Parse returns an error in the cases of C109, and errors.Is finds the error variable named there, and no other. *)
Theorem C123_parse : forall b, (forall e, Parse b = Err e -> exists x, parse_error b = Some x /\ forall v, finds x v <-> v = VCodec e) /\
  ((exists x, parse_error b = Some x) -> exists e, Parse b = Err e).
Proof.
  intros b. pose proof (parse_error_spec b) as H. split.
  - intros e E. rewrite E in H. destruct H as (x & A & B & _). eauto.
  - intros [x E]. destruct (Parse b) as [m|e|p]; [congruence|eauto|congruence].
Qed.
(** Comparing with == finds it, except exactly for a foreign parameter in DUNA, DAVA, DAUD, DRST or DUPU (or what is taken for one of these, C18), where
    it finds nothing. *)
Definition foreign_in (ts : list mtype) (b : list byte) : Prop :=
  exists v r c ty len body l mt y, (len < 4294967296)%N /\ b = packet v r c ty len body /\ TLVs body l /\ In mt ts /\
    N.lor ((16 * b2n c) mod 256) (b2n ty) = (16 * b2n (rfc_class mt) + b2n (rfc_type mt))%N /\ In y l /\ ~ In (fst y) (rfc_params mt).
Theorem C123_compare : forall b x e, parse_error b = Some x -> Parse b = Err e ->
  (same x (VCodec e) <-> ~ foreign_in [DUNA; DAVA; DAUD; DRST; DUPU] b) /\ (foreign_in [DUNA; DAVA; DAUD; DRST; DUPU] b -> e = EMsgInvalidParameter /\ forall v, ~ same x v).
Proof.
  intros b x e E P. pose proof (parse_error_spec b) as H. rewrite P in H. destruct H as (x' & Ex & Fx & W). rewrite E in Ex. injection Ex as <-.
  assert (K : (forall v, ~ same x v) <-> foreign_in [DUNA; DAVA; DAUD; DRST; DUPU] b).
  { unfold same. rewrite W. split.
    - intros (c & ty & k & Hc & Ht & D & -> & Ik). apply Parse_parameter in P as (v & r & c' & ty' & len & body & l & mt & y & Hl & -> & T & Eq & Iy & Ny).
      exists v, r, c', ty', len, body, l, mt, y. split; [exact Hl|]. split; [reflexivity|]. split; [exact T|]. split; [|auto].
      apply dispatch_spec in Eq. injection Hc as <-. injection Ht as <-. rewrite Eq in D. injection D as <-. destruct mt; cbn in Ik |- *; intuition discriminate.
    - intros (v & r & c & ty & len & body & l & mt & y & Hl & Eb & T & I & Eq & Iy & Ny). exists c, ty, (go_type mt).
      split; [subst b; reflexivity|]. split; [subst b; reflexivity|]. split; [now apply dispatch_spec|]. split.
      + assert (P' : Parse b = Err EMsgInvalidParameter) by (apply Parse_parameter; exists v, r, c, ty, len, body, l, mt, y; auto 8). congruence.
      + cbn in I. destruct I as [<-|[<-|[<-|[<-|[<-|[]]]]]]; cbn; tauto. }
  assert (F : foreign_in [DUNA; DAVA; DAUD; DRST; DUPU] b -> e = EMsgInvalidParameter).
  { intros (v & r & c & ty & len & body & l & mt & y & Hl & Eb & T & I & Eq & Iy & Ny).
    assert (P' : Parse b = Err EMsgInvalidParameter) by (apply Parse_parameter; exists v, r, c, ty, len, body, l, mt, y; auto 8). congruence. }
  split; [|intros Fi; split; [exact (F Fi)|exact (proj2 K Fi)]]. split.
  - intros Sm Fi. exact (proj2 K Fi _ Sm).
  - intros Nf. destruct x as [v|t x|t].
    + pose proof (proj1 (Fx v) (F_is v)) as ->. reflexivity.
    + exfalso. apply Nf, K. discriminate.
    + exfalso. pose proof (proj2 (Fx _) eq_refl) as A. inversion A.
Qed.
(** When SCTPWrite fails, Write, WritePD and the two others return its error itself; WriteSignal, whatever the message, one in which errors.Is finds it (and
    nothing else) but which is not the same. *)
Theorem C123_write : forall n, same (write_error n) (VSystem n) /\ forall m, (forall v, finds (signal_error m n) v <-> v = VSystem n) /\ forall v, ~ same (signal_error m n) v.
Proof.
  intros n. split; [reflexivity|]. intros m. unfold signal_error. destruct (wire_total m) as [b ->]. split; [|discriminate].
  intros v. rewrite finds_wraps. apply finds_named.
Qed.
(** Dial and Accept: the error of the association itself, that of its status and that of ListenSCTP wrapped, the outcomes of the wait as themselves; errors.Is
    finds in them exactly what failed, and nothing for an unknown network. *)
Theorem C123_establish : forall n v,
  (finds (dial_error XSctp n) v <-> v = VSystem n) /\ same (dial_error XSctp n) (VSystem n) /\
  (finds (dial_error XStatus n) v <-> v = VSystem n) /\ ~ same (dial_error XStatus n) v /\
  (finds (dial_error XFailed n) v <-> v = VFailedToEstablish) /\ same (dial_error XFailed n) VFailedToEstablish /\
  (finds (dial_error XTimeout n) v <-> v = VTimeout) /\ same (dial_error XTimeout n) VTimeout /\
  ~ finds (dial_error XNet n) v /\ ~ finds (listen_error XNet n) v /\
  (finds (listen_error XSctp n) v <-> v = VSystem n) /\ ~ same (listen_error XSctp n) v.
Proof.
  intros n v. cbn [dial_error listen_error]. rewrite !finds_wraps, !finds_named.
  repeat match goal with |- _ /\ _ => split end; try reflexivity; try discriminate; inversion 1.
Qed.
Print Assumptions C123_parse.
Print Assumptions C123_compare.
Print Assumptions C123_write.
Print Assumptions C123_establish.

(** a DUNA and a DATA message with a Status parameter: errors.Is finds ErrInvalidParameter in both, == in the second only *)
Definition odd_packet (cls ty : byte) : list byte := [x01; x00; cls; ty; x00; x00; x00; x10; x00; x0d; x00; x08; x00; x01; x00; x02].
Theorem C123_compare_refuted : exists x y, parse_error (odd_packet x02 x01) = Some x /\ parse_error (odd_packet x01 x01) = Some y /\
  Parse (odd_packet x02 x01) = Err EMsgInvalidParameter /\ Parse (odd_packet x01 x01) = Err EMsgInvalidParameter /\
  finds x (VCodec EMsgInvalidParameter) /\ (forall v, ~ same x v) /\ finds y (VCodec EMsgInvalidParameter) /\ same y (VCodec EMsgInvalidParameter).
Proof.
  eexists _, _. split; [vm_compute; reflexivity|]. split; [vm_compute; reflexivity|]. split; [vm_compute; reflexivity|]. split; [vm_compute; reflexivity|].
  split; [repeat constructor|]. split; [discriminate|]. split; [constructor|reflexivity].
Qed.
Print Assumptions C123_compare_refuted.
(** the other errors *)
Example C123_ex : parse_error [x01; x00; x02] = Some (Named (VCodec EMsgTooShortParse)) /\ parse_error (odd_packet x02 x01 ++ [x00]) = Some (Named (VCodec EParamTooShortParse)) /\
  parse_error (odd_packet x02 x01 ++ [x00; x0d; x00; x09]) = Some (Named (VCodec EParamInvalidLength)) /\ parse_error (odd_packet x09 x09) = None /\ (exists g, Parse (odd_packet x09 x09) = Ok (Gen g)).
Proof. split; [vm_compute; reflexivity|]. split; [vm_compute; reflexivity|]. split; [vm_compute; reflexivity|]. split; [vm_compute; reflexivity|]. eexists. vm_compute. reflexivity. Qed.
