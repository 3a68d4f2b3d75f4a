(** The transition system of ConnModel.v as an inductive relation with one
    constructor per kind of effect, and general lemmas about runs. *)
From Verif Require Import GoBase BaseProofs ParamsModel MessagesModel ConfigModel ConnModel.
From Coq Require Import Arith Lia.
Open Scope nat_scope.

Lemma st_eqb_iff a b : st_eqb a b = true <-> a = b.
Proof. destruct a, b; cbn; split; congruence. Qed.
Lemma st_eqb_neq a b : st_eqb a b = false <-> a <> b.
Proof. destruct a, b; cbn; split; congruence. Qed.
Lemma st_dec (a b : st) : {a = b} + {a <> b}.
Proof. decide equality. Qed.

(** ** upd *)
Lemma upd_len {A} (l : list A) i x : length (upd l i x) = length l.
Proof. revert i; induction l as [|y r IH]; intros [|i]; cbn; auto. Qed.
Lemma upd_nth_same {A} (l : list A) i x y : nth_error l i = Some y -> nth_error (upd l i x) i = Some x.
Proof. revert i; induction l as [|z r IH]; intros [|i] H; cbn in *; try discriminate; auto. Qed.
Lemma upd_nth_other {A} (l : list A) i j x : i <> j -> nth_error (upd l i x) j = nth_error l j.
Proof. revert i j; induction l as [|z r IH]; intros [|i] [|j] H; cbn; auto; try congruence. Qed.
Lemma upd_split {A} (l : list A) i y : nth_error l i = Some y ->
  exists l1 l2, l = l1 ++ y :: l2 /\ length l1 = i /\ forall x, upd l i x = l1 ++ x :: l2.
Proof.
  revert i; induction l as [|z r IH]; intros [|i] H; cbn in *; try discriminate.
  - inversion H; subst. exists [], r. auto.
  - destruct (IH i H) as (l1 & l2 & -> & L & U). exists (z :: l1), l2. cbn. repeat split; auto.
    intros x. now rewrite U.
Qed.
Lemma upd_In {A} (l : list A) i x z : In z (upd l i x) -> z = x \/ In z l.
Proof. revert i; induction l as [|y r IH]; intros [|i] H; cbn in *; intuition. match goal with H : In _ (upd _ _ _) |- _ => destruct (IH _ H); auto end. Qed.
Lemma Forall_upd {A} (P : A -> Prop) l i x : Forall P l -> P x -> Forall P (upd l i x).
Proof. intros H. revert i; induction H; intros [|i] Hx; cbn; constructor; auto. Qed.
Lemma Forall_nth {A} (P : A -> Prop) l i x : Forall P l -> nth_error l i = Some x -> P x.
Proof. intros H E. apply nth_error_In in E. rewrite Forall_forall in H. auto. Qed.

(** a packet goroutine and a data goroutine continue with ... *)
Definition hgo (i : nat) (l : list instr) (c : conn) := set_hs (upd (hs c) i l) c.
Definition dgo (i : nat) (d : dpc) (c : conn) := set_ds (upd (ds c) i d) c.
Definition ugo (i : nat) (u : upc) (c : conn) := set_us (upd (us c) i u) c.

(** the effect of a Close that does not panic *)
Definition closing (c : conn) : conn :=
  if st_eqb (state c) Down then set_sopen false (emit EClosed c)
  else set_sopen false (set_state Down (set_closed true (emit EClosed c))).

(** where a panic can come from *)
Inductive panics (c : conn) : panic -> Prop :=
| PA_reply o e p : mon c = MErr o e -> error_reply (cfg c) e = Panic p -> panics c p
| PA_reply_wire o e m p : mon c = MErr o e -> error_reply (cfg c) e = Ok (Some m) -> wire m = Panic p -> panics c p
| PA_init m p : mon c = MInit m -> wire m = Panic p -> panics c p
| PA_est : mon c = MEst -> closed c = true -> panics c PSendClosed
| PA_close : mon c = MClose -> state c <> Down -> closed c = true -> panics c PCloseClosed
| PA_parse i raw k p : nth_error (hs c) i = Some (IParse raw :: k) -> Parse raw = Panic p -> panics c p
| PA_handle i m k p : nth_error (hs c) i = Some (IHandle m :: k) -> unlocked c = true ->
    handle (cfg c) (hbd c) (state c) m = HPanic p -> panics c p
| PA_hwire i m k p : nth_error (hs c) i = Some (IWrite m :: k) -> wire m = Panic p -> panics c p
| PA_beatack i k : nth_error (hs c) i = Some (IBeatAck :: k) -> closed c = true -> panics c PSendClosed
| PA_nopd i m : nth_error (ds c) i = Some (DPd m) -> fget FProtocolData (m_f m) = None -> panics c PNil
| PA_pd i m q p : nth_error (ds c) i = Some (DPd m) -> fget FProtocolData (m_f m) = Some q ->
    ProtocolData q = Panic p -> panics c p
| PA_dsend i pd : nth_error (ds c) i = Some (DSend pd) -> closed c = true -> panics c PSendClosed
| PA_beat d p : hb c = BWrite d -> wire (beat d) = Panic p -> panics c p
| PA_stream i op p rnd : nth_error (us c) i = Some (UGo op) ->
    ((exists b, op = OpWrite b rnd) \/ (exists pd, op = OpWritePD pd rnd)) ->
    choose_stream (maxs c) rnd = Panic p -> panics c p
| PA_usignal i m p : nth_error (us c) i = Some (UGo (OpWriteSignal m)) -> wire m = Panic p -> panics c p
| PA_usend i s m p : nth_error (us c) i = Some (USend s m) -> m3_MarshalBinary m = Panic p -> panics c p
| PA_uclose i : nth_error (us c) i = Some (UGo OpClose) -> unlocked c = true -> state c <> Down ->
    closed c = true -> panics c PCloseClosed.

(** user calls that start with a state check *)
Definition checked_op (c : conn) (op : uop) : option upc :=
  match op with
  | OpRead b => Some (URecv (Some b))
  | OpReadPD => Some (URecv None)
  | OpWriteTo b s => Some (USend s (data_msg (cfg c) b))
  | OpWritePDTo pd s => Some (USend s (pd_msg (cfg c) pd))
  | _ => None
  end.

Inductive stepR (c : conn) : label -> conn -> Prop :=
| S_arrive p : stepR c (LArrive p) (set_inq (inq c ++ [p]) c)
| S_cancel : stepR c LCancel (set_ctxd true c)
| S_other d : stepR c (LOtherBeat d) (set_hba false (set_hbd d c))
| S_init : ini c = true -> mon c = MSelect -> stepR c LInit (set_mon (MUpd Down) (set_ini false c))
(* the monitor *)
| S_err_send ok o e m b : mon c = MErr o e -> error_reply (cfg c) e = Ok (Some m) -> wire m = Ok b ->
    ok = true -> sopen c = true ->
    stepR c (LMon ok) (set_mon MSelect (emit (ESend OMon 0 m b) (emit (ERefused o e) c)))
| S_err_close ok o e : mon c = MErr o e ->
    (forall m b, error_reply (cfg c) e = Ok (Some m) -> wire m = Ok b -> ok && sopen c = false) ->
    stepR c (LMon ok) (set_mon MClose (emit (ERefused o e) c))
| S_upd ok s : mon c = MUpd s -> stepR c (LMon ok) (state_update s c)
| S_init_send ok m b : mon c = MInit m -> wire m = Ok b -> ok = true -> sopen c = true ->
    stepR c (LMon ok) (set_mon MRead (emit (ESend OMon 0 m b) c))
| S_init_fail ok m : mon c = MInit m -> (forall b, wire m = Ok b -> ok && sopen c = false) ->
    stepR c (LMon ok) (set_mon MRead c)
| S_est ok : mon c = MEst -> closed c = false -> dial c = DWait ->
    stepR c (LMon ok) (set_mon MRead (broadcast (set_dial DOk c)))
| S_read p q : mon c = MRead -> sopen c = true -> inq c = p :: q ->
    stepR c (LMon true)
      (set_mon MSelect (set_hs (hs c ++ [[IParse (firstn bufsize p)]])
        (emit (ERead (firstn bufsize p))
          (set_inq (match skipn bufsize p with [] => q | _ => skipn bufsize p :: q end) c))))
| S_read_fail ok : mon c = MRead -> ok && sopen c = false -> stepR c (LMon ok) (set_mon MClose c)
| S_mclose ok : mon c = MClose -> (state c <> Down -> closed c = false) ->
    stepR c (LMon ok) (set_mon MExit (broadcast (closing c)))
| S_monctx : mon c = MSelect -> ctxd c = true -> stepR c LMonCtx (set_mon MClose c)
(* packet goroutines *)
| S_parse i ok raw k m : nth_error (hs c) i = Some (IParse raw :: k) -> Parse raw = Ok m ->
    stepR c (LHand i ok) (hgo i [ISig m] c)
| S_parse_err i ok raw k e : nth_error (hs c) i = Some (IParse raw :: k) -> Parse raw = Err e ->
    stepR c (LHand i ok) (hgo i [] c)
| S_sig_ctx i ok m k : nth_error (hs c) i = Some (ISig m :: k) -> ctxd c = true ->
    stepR c (LHand i ok) (hgo i [] c)
| S_sig_ver i ok m k : nth_error (hs c) i = Some (ISig m :: k) -> ctxd c = false -> b2n (Version m) <> 1%N ->
    stepR c (LHand i ok) (hgo i [IErr (EInvalidVersion (Version m))] c)
| S_sig i ok m k l : nth_error (hs c) i = Some (ISig m :: k) -> ctxd c = false -> b2n (Version m) = 1%N ->
    plan m = (None, l) -> stepR c (LHand i ok) (hgo i l c)
| S_sig_data i ok m k t l : nth_error (hs c) i = Some (ISig m :: k) -> ctxd c = false -> b2n (Version m) = 1%N ->
    plan m = (Some t, l) -> stepR c (LHand i ok) (set_ds (ds c ++ [DCheck t]) (hgo i l c))
| S_handle_nil i ok m k : nth_error (hs c) i = Some (IHandle m :: k) -> unlocked c = true ->
    handle (cfg c) (hbd c) (state c) m = HNil -> stepR c (LHand i ok) (hgo i k c)
| S_handle_err i ok m k e : nth_error (hs c) i = Some (IHandle m :: k) -> unlocked c = true ->
    handle (cfg c) (hbd c) (state c) m = HErr e -> stepR c (LHand i ok) (hgo i (IErr e :: k) c)
| S_handle_reply i ok m k r : nth_error (hs c) i = Some (IHandle m :: k) -> unlocked c = true ->
    handle (cfg c) (hbd c) (state c) m = HReply r -> stepR c (LHand i ok) (hgo i (IWrite r :: k) c)
| S_hwrite i ok m k b : nth_error (hs c) i = Some (IWrite m :: k) -> wire m = Ok b -> ok = true -> sopen c = true ->
    stepR c (LHand i ok) (hgo i k (emit (ESend (OHand i) 0 m b) c))
| S_hwrite_fail i ok m k : nth_error (hs c) i = Some (IWrite m :: k) ->
    (forall b, wire m = Ok b -> ok && sopen c = false) ->
    stepR c (LHand i ok) (hgo i (IErr EWriteSignal :: k) c)
| S_herr i ok e k : nth_error (hs c) i = Some (IErr e :: k) -> mon c = MSelect ->
    stepR c (LHand i ok) (set_mon (MErr (OHand i) e) (hgo i k c))
| S_beatack i ok k : nth_error (hs c) i = Some (IBeatAck :: k) -> closed c = false -> hb c = BAck ->
    stepR c (LHand i ok) (set_hb BSleep (hgo i k c))
| S_cur i ok k : nth_error (hs c) i = Some (ICur :: k) -> unlocked c = true ->
    stepR c (LHand i ok) (hgo i (ISt (state c) :: k) c)
| S_st i ok s k : nth_error (hs c) i = Some (ISt s :: k) -> mon c = MSelect ->
    stepR c (LHand i ok) (set_mon (MUpd s) (hgo i k c))
(* data goroutines *)
| S_dcheck i m : nth_error (ds c) i = Some (DCheck m) -> unlocked c = true -> state c = Active ->
    stepR c (LData i) (dgo i (DPd m) c)
| S_dcheck_err i m : nth_error (ds c) i = Some (DCheck m) -> unlocked c = true -> state c <> Active ->
    stepR c (LData i) (dgo i (DErr (EUnexpected (Typed m))) c)
| S_derr i e : nth_error (ds c) i = Some (DErr e) -> mon c = MSelect ->
    stepR c (LData i) (set_mon (MErr (OData i) e) (dgo i DDone c))
| S_dpd i m q pd : nth_error (ds c) i = Some (DPd m) -> fget FProtocolData (m_f m) = Some q -> ProtocolData q = Ok pd ->
    stepR c (LData i) (dgo i (DSend pd) c)
| S_dpd_err i m q e : nth_error (ds c) i = Some (DPd m) -> fget FProtocolData (m_f m) = Some q -> ProtocolData q = Err e ->
    stepR c (LData i) (dgo i (DErr EFailedToPeelOff) c)
| S_dsend i pd : nth_error (ds c) i = Some (DSend pd) -> closed c = false -> (N.of_nat (length (dq c)) < data_cap)%N ->
    stepR c (LData i) (dgo i DDone (set_dq (dq c ++ [pd]) c))
| S_dctx i pd : nth_error (ds c) i = Some (DSend pd) -> ctxd c = true -> stepR c (LDataCtx i) (dgo i DDone c)
(* the heartbeat *)
| S_hb_wait ok : hb c = BStart -> stepR c (LHb ok) (set_hb BWait c)
| S_hb_run ok : hb c = BRun -> stepR c (LHb ok) (set_hb (if hb_on (cfg c) then BRand else BDone) c)
| S_hb_randfail : hb c = BRand -> stepR c (LHb false) (set_hb (BErr ERand) c)
| S_hb_rand d : hb c = BRand -> length d = 128 ->
    stepR c (LHbRand d) (set_hb (BWrite d) (if hba c then set_hbd d c else c))
| S_hb_write ok d b : hb c = BWrite d -> wire (beat d) = Ok b -> ok = true -> sopen c = true ->
    stepR c (LHb ok) (set_hb (BStore d) (emit (ESend OHb 0 (beat d) b) c))
| S_hb_write_fail ok d : hb c = BWrite d -> (forall b, wire (beat d) = Ok b -> ok && sopen c = false) ->
    stepR c (LHb ok) (set_hb (BErr EFailedToWriteSignal) c)
| S_hb_store ok d : hb c = BStore d -> stepR c (LHb ok) (set_hb BAck (set_hba true (set_hbd d c)))
| S_hb_closed ok : hb c = BAck -> closed c = true -> stepR c (LHb ok) (set_hb BDone c)
| S_hb_err ok e : hb c = BErr e -> mon c = MSelect -> stepR c (LHb ok) (set_mon (MErr OHb e) (set_hb BDone c))
| S_hb_expire : hb c = BAck -> stepR c LHbTimer (set_hb (BErr EHeartbeatExpired) c)
| S_hb_again : hb c = BSleep -> stepR c LHbTimer (set_hb BRand c)
| S_hb_ctx : hb c = BAck \/ hb c = BSleep -> ctxd c = true -> stepR c LHbCtx (set_hb BDone c)
(* Dial/Accept *)
| S_dial_closed : dial c = DWait -> closed c = true -> stepR c LDialClosed (set_sopen false (set_dial DFailed c))
| S_dial_timeout : dial c = DWait -> stepR c LDialTimeout (set_sopen false (set_dial DTimeout c))
(* the user *)
| S_call op : dial c = DOk -> stepR c (LCall op) (set_us (us c ++ [UGo op]) c)
| S_check i ok op u : nth_error (us c) i = Some (UGo op) -> checked_op c op = Some u -> unlocked c = true ->
    state c = Active -> stepR c (LUser i ok) (ugo i u c)
| S_check_no i ok op u : nth_error (us c) i = Some (UGo op) -> checked_op c op = Some u -> unlocked c = true ->
    state c <> Active -> stepR c (LUser i ok) (ugo i (UDone RNotEstablished) c)
| S_write i ok b rnd s : nth_error (us c) i = Some (UGo (OpWrite b rnd)) -> choose_stream (maxs c) rnd = Ok (Some s) ->
    stepR c (LUser i ok) (ugo i (UGo (OpWriteTo b s)) c)
| S_writepd i ok pd rnd s : nth_error (us c) i = Some (UGo (OpWritePD pd rnd)) -> choose_stream (maxs c) rnd = Ok (Some s) ->
    stepR c (LUser i ok) (ugo i (UGo (OpWritePDTo pd s)) c)
| S_signal i ok m b : nth_error (us c) i = Some (UGo (OpWriteSignal m)) -> wire m = Ok b -> ok = true -> sopen c = true ->
    stepR c (LUser i ok) (ugo i (UDone (RWrote (m3_MarshalLen m + length b))) (emit (ESend (OUser i) 0 m b) c))
| S_signal_fail i ok m : nth_error (us c) i = Some (UGo (OpWriteSignal m)) ->
    (forall b, wire m = Ok b -> ok && sopen c = false) ->
    stepR c (LUser i ok) (ugo i (UDone RWriteError) c)
| S_uclose i ok : nth_error (us c) i = Some (UGo OpClose) -> unlocked c = true -> (state c <> Down -> closed c = false) ->
    stepR c (LUser i ok) (ugo i (UDone (RClosed (sopen c))) (closing c))
| S_ustate i ok : nth_error (us c) i = Some (UGo OpState) -> unlocked c = true ->
    stepR c (LUser i ok) (ugo i (UDone (RState (state c))) c)
| S_recv i ok buf pd r : nth_error (us c) i = Some (URecv buf) -> dq c = pd :: r ->
    stepR c (LUser i ok) (ugo i (UDone (read_result buf pd)) (emit (EDeliver pd) (set_dq r c)))
| S_recv_closed i ok buf : nth_error (us c) i = Some (URecv buf) -> dq c = [] -> closed c = true ->
    stepR c (LUser i ok) (ugo i (UDone RNotEstablished) c)
| S_usend i ok s m m' b : nth_error (us c) i = Some (USend s m) -> m3_MarshalBinary m = Ok (m', b) ->
    ok = true -> sopen c = true ->
    stepR c (LUser i ok) (ugo i (UDone (RWrote (length b + length b))) (emit (ESend (OUser i) s m b) c))
| S_usend_fail i ok s m : nth_error (us c) i = Some (USend s m) ->
    (forall m' b, m3_MarshalBinary m = Ok (m', b) -> ok && sopen c = false) ->
    stepR c (LUser i ok) (ugo i (UDone RWriteError) c)
(* a panic: the process dies *)
| S_panic l p es : panics c p -> (es = [] \/ es = [EClosed] \/ exists o e, mon c = MErr o e /\ es = [ERefused o e]) ->
    stepR c l (set_crash (Some p) (set_log (log c ++ es) c)).
Lemma S_panic0 c l p : panics c p -> stepR c l (set_crash (Some p) c).
Proof.
  intros H. replace (set_crash (Some p) c) with (set_crash (Some p) (set_log (log c ++ []) c)).
  - apply S_panic; auto.
  - rewrite app_nil_r. now destruct c.
Qed.

Lemma WriteSignal_inv o c m ok :
  match WriteSignal o c m ok with
  | WOk c1 n => exists b, wire m = Ok b /\ ok = true /\ sopen c = true /\
                  c1 = emit (ESend o 0 m b) c /\ n = m3_MarshalLen m + length b
  | WErr => forall b, wire m = Ok b -> ok && sopen c = false
  | WPanic p => wire m = Panic p
  end.
Proof.
  unfold WriteSignal. destruct (wire m) as [b|e|p] eqn:E; [|congruence|auto].
  unfold can_write. destruct (ok && sopen c) eqn:K.
  - apply andb_true_iff in K. destruct K as [-> ->].
    exists b. repeat split; auto. now destruct (b2n (MessageClass m) =? 1)%N.
  - auto.
Qed.

Lemma Close_inv c : crash c = None ->
  (crash (Close c) = None /\ Close c = closing c /\ (state c <> Down -> closed c = false)) \/
  (Close c = set_crash (Some PCloseClosed) (emit EClosed c) /\ state c <> Down /\ closed c = true).
Proof.
  intros H. unfold Close, closing. cbn [state emit set_log].
  destruct (st_eqb (state c) Down) eqn:E.
  - left. apply st_eqb_iff in E. repeat split; auto. congruence.
  - apply st_eqb_neq in E. cbn [closed emit set_log]. destruct (closed c) eqn:K.
    + right. repeat split; auto.
    + left. repeat split; auto.
Qed.

Ltac inv H := inversion H; subst; clear H.

Lemma step_stepR c l c' : step c l = Some c' -> crash c = None /\ stepR c l c'.
Proof.
  unfold step. destruct (crash c) eqn:C; [discriminate|]. intros H. split; [reflexivity|].
  destruct l.
  - inv H. constructor.
  - inv H. constructor.
  - inv H. constructor.
  - destruct (ini c) eqn:E; [|discriminate]. destruct (mon c) eqn:E2; try discriminate. inv H. now constructor.
  - unfold step_mon in H. destruct (mon c) eqn:E; try discriminate.
    + cbn [cfg emit set_log] in H. destruct (error_reply (cfg c) e) as [[m|]|x|p] eqn:E2.
      * pose proof (WriteSignal_inv OMon (emit (ERefused o e) c) m ok) as W.
        destruct (WriteSignal OMon (emit (ERefused o e) c) m ok).
        -- destruct W as (b & W1 & W2 & W3 & -> & _). inv H. eapply S_err_send; eauto.
        -- inv H. eapply S_err_close; eauto. intros m' b HH. rewrite E2 in HH. inv HH. apply W.
        -- inv H. apply S_panic; [eapply PA_reply_wire; eauto|eauto 6].
      * inv H. eapply S_err_close; eauto. intros m' b HH. congruence.
      * inv H. eapply S_err_close; eauto. intros m' b HH. congruence.
      * inv H. apply S_panic; [eapply PA_reply; eauto|eauto 6].
    + inv H. now apply S_upd.
    + pose proof (WriteSignal_inv OMon c m ok) as W. destruct (WriteSignal OMon c m ok).
      * destruct W as (b & W1 & W2 & W3 & -> & _). inv H. eapply S_init_send; eauto.
      * inv H. eapply S_init_fail; eauto.
      * inv H. apply S_panic0. eapply PA_init; eauto.
    + destruct (closed c) eqn:K.
      * inv H. apply S_panic0. now apply PA_est.
      * destruct (dial c) eqn:D; try discriminate. inv H. now apply S_est.
    + destruct (ok && sopen c) eqn:K.
      * apply andb_true_iff in K. destruct K as [-> K]. destruct (inq c) as [|p q] eqn:Q; [discriminate|].
        inv H. apply S_read; auto.
      * inv H. now apply S_read_fail.
    + destruct (Close_inv c C) as [(K1 & K2 & K3)|(K1 & K2 & K3)].
      * rewrite K1 in H. rewrite K2 in H. inv H. now apply S_mclose.
      * rewrite K1 in H. cbn [crash set_crash] in H. inv H. apply S_panic; [now apply PA_close|auto].
  - destruct (mon c) eqn:E; try discriminate. destruct (ctxd c) eqn:E2; [|discriminate]. inv H. now constructor.
  - unfold step_hand in H. destruct (nth_error (hs c) i) as [[|x k]|] eqn:E; try discriminate.
    cbn zeta in H. fold (hgo i) in H. destruct x.
    + destruct (Parse raw) eqn:P; inv H.
      * eapply S_parse; eauto. * eapply S_parse_err; eauto. * apply S_panic0. eapply PA_parse; eauto.
    + destruct (ctxd c) eqn:D; [inv H; eapply S_sig_ctx; eauto|].
      destruct (b2n (Version m) =? 1)%N eqn:V; cbn [negb] in H.
      * apply N.eqb_eq in V. destruct (plan m) as [[t|] l] eqn:P; inv H.
        -- eapply S_sig_data; eauto. -- eapply S_sig; eauto.
      * apply N.eqb_neq in V. inv H. eapply S_sig_ver; eauto.
    + destruct (unlocked c) eqn:U; [|discriminate].
      destruct (handle (cfg c) (hbd c) (state c) m) eqn:Hd; inv H.
      * eapply S_handle_nil; eauto. * eapply S_handle_err; eauto. * eapply S_handle_reply; eauto.
      * apply S_panic0. eapply PA_handle; eauto.
    + pose proof (WriteSignal_inv (OHand i) c m ok) as W. destruct (WriteSignal (OHand i) c m ok).
      * destruct W as (b & W1 & W2 & W3 & -> & _). inv H. eapply S_hwrite; eauto.
      * inv H. eapply S_hwrite_fail; eauto.
      * inv H. apply S_panic0. eapply PA_hwire; eauto.
    + unfold recv_err in H. cbn [mon hgo set_hs] in H. destruct (mon c) eqn:M; try discriminate. inv H.
      eapply S_herr; eauto.
    + destruct (closed c) eqn:K.
      * inv H. apply S_panic0. eapply PA_beatack; eauto.
      * destruct (hb c) eqn:B; try discriminate. inv H. eapply S_beatack; eauto.
    + destruct (unlocked c) eqn:U; [|discriminate]. inv H. eapply S_cur; eauto.
    + destruct (mon c) eqn:M; try discriminate. inv H. eapply S_st; eauto.
  - unfold step_data in H. destruct (nth_error (ds c) i) as [x|] eqn:E; [|discriminate].
    destruct x; try discriminate.
    + destruct (unlocked c) eqn:U; [|discriminate]. destruct (st_eqb (state c) Active) eqn:S; inv H.
      * apply st_eqb_iff in S. eapply S_dcheck; eauto. * apply st_eqb_neq in S. eapply S_dcheck_err; eauto.
    + unfold recv_err in H. cbn [mon set_ds] in H. destruct (mon c) eqn:M; try discriminate. inv H. eapply S_derr; eauto.
    + destruct (fget FProtocolData (m_f m)) as [q|] eqn:Q.
      * destruct (ProtocolData q) eqn:PD; inv H.
        -- eapply S_dpd; eauto. -- eapply S_dpd_err; eauto. -- apply S_panic0. eapply PA_pd; eauto.
      * inv H. apply S_panic0. eapply PA_nopd; eauto.
    + destruct (closed c) eqn:K.
      * inv H. apply S_panic0. eapply PA_dsend; eauto.
      * destruct (N.of_nat (length (dq c)) <? data_cap)%N eqn:L; [|discriminate]. inv H.
        apply N.ltb_lt in L. eapply S_dsend; eauto.
  - destruct (nth_error (ds c) i) as [[]|] eqn:E; try discriminate. destruct (ctxd c) eqn:D; [|discriminate].
    inv H. eapply S_dctx; eauto.
  - unfold step_hb in H. destruct (hb c) eqn:B; try discriminate.
    + inv H. now constructor.
    + inv H. now constructor.
    + destruct ok; [discriminate|]. inv H. now constructor.
    + pose proof (WriteSignal_inv OHb c (beat d) ok) as W. destruct (WriteSignal OHb c (beat d) ok).
      * destruct W as (b & W1 & W2 & W3 & -> & _). inv H. eapply S_hb_write; eauto.
      * inv H. eapply S_hb_write_fail; eauto.
      * inv H. apply S_panic0. eapply PA_beat; eauto.
    + inv H. now constructor.
    + destruct (closed c) eqn:K; [|discriminate]. inv H. now constructor.
    + unfold recv_err in H. cbn [mon set_hb] in H. destruct (mon c) eqn:M; try discriminate. inv H. eapply S_hb_err; eauto.
  - destruct (hb c) eqn:B; try discriminate. destruct (length d =? 128) eqn:L; [|discriminate].
    apply Nat.eqb_eq in L. inv H. now constructor.
  - destruct (hb c) eqn:B; try discriminate; inv H; now constructor.
  - destruct (hb c) eqn:B; try discriminate; destruct (ctxd c) eqn:D; try discriminate; inv H; constructor; auto.
  - destruct (dial c) eqn:D; try discriminate. destruct (closed c) eqn:K; [|discriminate]. inv H. now constructor.
  - destruct (dial c) eqn:D; try discriminate. inv H. now constructor.
  - destruct (dial c) eqn:D; try discriminate. inv H. now constructor.
  - unfold step_user in H. destruct (nth_error (us c) i) as [x|] eqn:E; [|discriminate].
    destruct x; try discriminate.
    + destruct op.
      * destruct (unlocked c) eqn:U; [|discriminate]. destruct (st_eqb (state c) Active) eqn:S; inv H.
        -- apply st_eqb_iff in S. eapply S_check; eauto; reflexivity.
        -- apply st_eqb_neq in S. eapply S_check_no; eauto; reflexivity.
      * destruct (unlocked c) eqn:U; [|discriminate]. destruct (st_eqb (state c) Active) eqn:S; inv H.
        -- apply st_eqb_iff in S. eapply S_check; eauto; reflexivity.
        -- apply st_eqb_neq in S. eapply S_check_no; eauto; reflexivity.
      * destruct (choose_stream (maxs c) rnd) as [[s|]|x|p] eqn:Ch; try discriminate; inv H.
        -- eapply S_write; eauto. -- apply S_panic0. eapply PA_stream; eauto.
      * destruct (unlocked c) eqn:U; [|discriminate]. destruct (st_eqb (state c) Active) eqn:S; inv H.
        -- apply st_eqb_iff in S. eapply S_check; eauto; reflexivity.
        -- apply st_eqb_neq in S. eapply S_check_no; eauto; reflexivity.
      * destruct (choose_stream (maxs c) rnd) as [[s|]|x|p] eqn:Ch; try discriminate; inv H.
        -- eapply S_writepd; eauto. -- apply S_panic0. eapply PA_stream; eauto.
      * destruct (unlocked c) eqn:U; [|discriminate]. destruct (st_eqb (state c) Active) eqn:S; inv H.
        -- apply st_eqb_iff in S. eapply S_check; eauto; reflexivity.
        -- apply st_eqb_neq in S. eapply S_check_no; eauto; reflexivity.
      * pose proof (WriteSignal_inv (OUser i) c m ok) as W. destruct (WriteSignal (OUser i) c m ok).
        -- destruct W as (b & W1 & W2 & W3 & -> & ->). inv H. eapply S_signal; eauto.
        -- inv H. eapply S_signal_fail; eauto.
        -- inv H. apply S_panic0. eapply PA_usignal; eauto.
      * destruct (unlocked c) eqn:U; [|discriminate].
        destruct (Close_inv c C) as [(K1 & K2 & K3)|(K1 & K2 & K3)].
        -- rewrite K1, K2 in H. inv H. eapply S_uclose; eauto.
        -- rewrite K1 in H. cbn [crash set_crash] in H. inv H. apply S_panic; [eapply PA_uclose; eauto|auto].
      * destruct (unlocked c) eqn:U; [|discriminate]. inv H. eapply S_ustate; eauto.
    + destruct (dq c) as [|pd r] eqn:Q.
      * destruct (closed c) eqn:K; [|discriminate]. inv H. eapply S_recv_closed; eauto.
      * inv H. eapply S_recv; eauto.
    + destruct (m3_MarshalBinary m) as [[m' b]|x|p] eqn:Mb.
      * unfold can_write in H. destruct (ok && sopen c) eqn:K; inv H.
        -- apply andb_true_iff in K. destruct K. eapply S_usend; eauto.
        -- eapply S_usend_fail; eauto.
      * inv H. eapply S_usend_fail; eauto. congruence.
      * inv H. apply S_panic0. eapply PA_usend; eauto.
Qed.

(** ** Runs *)
Lemma run_app c l1 l2 : run c (l1 ++ l2) = match run c l1 with Some c' => run c' l2 | None => None end.
Proof. revert c; induction l1 as [|l r IH]; intros c; cbn [run app]; [reflexivity|]. destruct (step c l); auto. Qed.
Lemma run_cons c l ls c' : step c l = Some c' -> run c (l :: ls) = run c' ls.
Proof. intros H. cbn [run]. now rewrite H. Qed.

(** invariants: every property preserved by the allowed steps holds after every run *)
Lemma run_inv (ok : label -> Prop) (I : conn -> Prop) :
  (forall c l c', I c -> ok l -> crash c = None -> stepR c l c' -> I c') ->
  forall ls c c', I c -> Forall ok ls -> run c ls = Some c' -> I c'.
Proof.
  intros P. induction ls as [|l r IH]; intros c c' Hc F H; cbn [run] in H.
  - inv H. exact Hc.
  - inversion F as [|? ? F1 F2]; subst. destruct (step c l) as [c1|] eqn:E; [|discriminate].
    destruct (step_stepR _ _ _ E) as [C S]. exact (IH c1 c' (P c l c1 Hc F1 C S) F2 H).
Qed.
Lemma run_inv_all (I : conn -> Prop) :
  (forall c l c', I c -> crash c = None -> stepR c l c' -> I c') ->
  forall ls c c', I c -> run c ls = Some c' -> I c'.
Proof.
  intros P ls c c' Hc H. refine (run_inv (fun _ => True) I _ ls c c' Hc _ H).
  - intros. eapply P; eauto.
  - apply Forall_forall. auto.
Qed.

(** projections through the updates *)
Ltac cb := cbn [mode cfg maxs state closed sopen ctxd inq dq mon hb ini hs ds us dial hbd hba crash log
  set_state set_closed set_sopen set_ctxd set_inq set_dq set_mon set_hb set_ini set_hs set_ds set_us set_dial
  set_hbd set_hba set_crash set_log emit hgo dgo ugo panicking] in *.

(** configuration never changes *)
Definition same_static (a b : conn) : Prop := mode a = mode b /\ cfg a = cfg b /\ maxs a = maxs b.
Lemma closing_fields c :
  mode (closing c) = mode c /\ cfg (closing c) = cfg c /\ maxs (closing c) = maxs c /\
  state (closing c) = Down /\ closed (closing c) = (negb (st_eqb (state c) Down) || closed c) /\
  sopen (closing c) = false /\ ctxd (closing c) = ctxd c /\ inq (closing c) = inq c /\ dq (closing c) = dq c /\
  mon (closing c) = mon c /\ hb (closing c) = hb c /\ ini (closing c) = ini c /\ hs (closing c) = hs c /\
  ds (closing c) = ds c /\ us (closing c) = us c /\ dial (closing c) = dial c /\ hbd (closing c) = hbd c /\
  hba (closing c) = hba c /\ crash (closing c) = crash c /\ log (closing c) = log c ++ [EClosed].
Proof. unfold closing. destruct (st_eqb (state c) Down) eqn:E; cb; repeat split; auto. now apply st_eqb_iff. Qed.
Lemma broadcast_fields c :
  mode (broadcast c) = mode c /\ cfg (broadcast c) = cfg c /\ maxs (broadcast c) = maxs c /\
  state (broadcast c) = state c /\ closed (broadcast c) = closed c /\
  sopen (broadcast c) = sopen c /\ ctxd (broadcast c) = ctxd c /\ inq (broadcast c) = inq c /\ dq (broadcast c) = dq c /\
  mon (broadcast c) = mon c /\ (hb (broadcast c) = match hb c with BWait => BRun | x => x end) /\
  ini (broadcast c) = ini c /\ hs (broadcast c) = hs c /\
  ds (broadcast c) = ds c /\ us (broadcast c) = us c /\ dial (broadcast c) = dial c /\ hbd (broadcast c) = hbd c /\
  hba (broadcast c) = hba c /\ crash (broadcast c) = crash c /\ log (broadcast c) = log c.
Proof. unfold broadcast. destruct (hb c) eqn:E; cb; repeat split; auto; now rewrite E. Qed.
Definition upd_mon (s : st) (c : conn) : mpc :=
  match s with
  | Down => match mode c with Client => MInit (asp_up (cfg c)) | Server => MRead end
  | Inactive => match mode c with Client => MInit (asp_active (cfg c)) | Server => MRead end
  | Active => if st_eqb (state c) Active then MRead else MEst
  | CDI | RI => MClose
  end.
Lemma state_update_eq s c : state_update s c = set_mon (upd_mon s c) (emit (EUpd s) (set_state s c)).
Proof. unfold state_update, upd_mon. destruct s; cb; auto; destruct (mode c); auto; destruct (st_eqb _ _); auto. Qed.
