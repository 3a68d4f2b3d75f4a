(** An endpoint without faults, cancellation and user calls follows DialogSpec, in every interleaving. *)
From Verif Require Import GoBase BaseProofs ParamsModel MessagesModel WireSpec ParamsSpec MsgSpec ParamsProofs MessagesProofs MessagesProofs2 ConfigModel
  ConnModel CfgSpec ConnSpec ConnBase ConnInv ConnCodec ConnPair ConnErr DialogSpec.
From Coq Require Import Arith Lia.
Open Scope nat_scope.
Opaque max_value_len.

(** ** What a configuration can say *)
Record speaks (g : config) : Prop := {
  sp_up : says (asp_up g) SUp; sp_act : says (asp_active g) SActive;
  sp_upk : says (up_ack g) SUpAck; sp_ack : says (active_ack g) SActiveAck;
  sp_dnk : says (Typed (NewAspDownAck None)) SDownAck; sp_ink : says (Typed (NewAspInactiveAck (cf_rc g) None)) SInactiveAck;
  sp_unexp : forall m, exists r, error_reply g (EUnexpected m) = Ok (Some r) /\ says r SErr;
  sp_unsup : forall m, exists r, error_reply g (EUnsupportedMessage m) = Ok (Some r) /\ says r SErr }.

(** the signals of a configuration fit the receive buffer *)
Definition signals_fit (g : config) : Prop :=
  handshake_fits g /\ 8 + slot_size (cf_rc g) <= 1500 /\ 24 + slot_size (cf_rc g) + slot_size (cf_na g) <= 1500.

Lemma packet_says t slots m k x : roundtrips t slots m -> m_kind m = k -> b2n (h_version (m_hdr m)) = 1%N ->
  map slot_size (slots_of m) = map slot_size slots -> 8 + sum_len slots <= 1500 -> (forall m', m_kind m' = k -> sym (Typed m') = Some x) ->
  says (Typed m) x.
Proof.
  intros R K V Sl L X. destruct (plays_packet t slots m k R K V Sl L) as (b & m' & W & Va & K' & Lb).
  exists b. split; [exact W|]. exists (Typed m'). split; [exact Va|]. split; [now apply X|exact Lb].
Qed.
Lemma sym_kind k x m : m_kind m = k -> (forall m', m_kind m' = k -> sym (Typed m') = Some x) -> sym (Typed m) = Some x.
Proof. auto. Qed.
Lemma unexp_says g : cfg_ok g -> 24 + slot_size (cf_rc g) + slot_size (cf_na g) <= 1500 ->
  says (Typed (NewError (Some (NewErrorCode 6)) (cf_rc g) (cf_na g) (Some (NewAffectedPointCode [cf_opc g])) None)) SErr.
Proof.
  intros (_ & _ & Ona & Orc & _) L. eapply (packet_says ERR [Some (NewErrorCode 6); cf_rc g; cf_na g; Some (NewAffectedPointCode [cf_opc g]); None] _ KError).
  - apply NewError_rt. repeat (apply Forall2_cons || apply Forall2_nil); auto; [apply code_ok|apply apc_ok|exact Logic.I].
  - reflexivity.
  - reflexivity.
  - destruct (cf_rc g), (cf_na g); reflexivity.
  - cbn [sum_len fold_right]. rewrite !slot_size_len. cbn [slot_size]. rewrite code_data, apc_data, !be_length.
    change (pad_len 4) with 0. lia.
  - intros m' K. cbn [sym]. now rewrite K.
Qed.
Lemma unsup_says d : length d <= 40 -> says (Typed (NewError (Some (NewErrorCode 4)) None None None (Some (NewDiagnosticInformation d)))) SErr.
Proof.
  intros L. eapply (packet_says ERR [Some (NewErrorCode 4); None; None; None; Some (NewDiagnosticInformation d)] _ KError).
  - apply NewError_rt. repeat (apply Forall2_cons || apply Forall2_nil); try exact Logic.I; [apply code_ok|now apply diag_ok].
  - reflexivity.
  - reflexivity.
  - reflexivity.
  - cbn [sum_len fold_right]. rewrite !slot_size_len. cbn [slot_size]. rewrite code_data, be_length.
    change (p_data (NewDiagnosticInformation d)) with d. change (pad_len 4) with 0. pose proof (pad_len_lt (length d)). lia.
  - intros m' K. cbn [sym]. now rewrite K.
Qed.
Lemma cfg_speaks g : cfg_ok g -> signals_fit g -> speaks g.
Proof.
  intros Ok [[F1 F2] [F3 F4]]. pose proof Ok as (A1 & A2 & A3 & A4 & _).
  constructor.
  - eapply (packet_says ASPUP [cf_aspid g; None] _ KAspUp);
      [apply NewAspUp_rt; repeat (apply Forall2_cons; [first [assumption | exact Logic.I]|]); apply Forall2_nil|reflexivity|reflexivity|destruct (cf_aspid g); reflexivity
      |cbn [sum_len fold_right]; rewrite !slot_size_len; cbn [slot_size]; lia|intros m' K; cbn [sym]; now rewrite K].
  - eapply (packet_says ASPAC [cf_tmt g; cf_rc g; None] _ KAspActive);
      [apply NewAspActive_rt; repeat (apply Forall2_cons; [first [assumption | exact Logic.I]|]); apply Forall2_nil|reflexivity|reflexivity|destruct (cf_tmt g), (cf_rc g); reflexivity
      |cbn [sum_len fold_right]; rewrite !slot_size_len; cbn [slot_size]; lia|intros m' K; cbn [sym]; now rewrite K].
  - eapply (packet_says ASPUP_ACK [cf_aspid g; None] _ KAspUpAck);
      [apply NewAspUpAck_rt; repeat (apply Forall2_cons; [first [assumption | exact Logic.I]|]); apply Forall2_nil|reflexivity|reflexivity|destruct (cf_aspid g); reflexivity
      |cbn [sum_len fold_right]; rewrite !slot_size_len; cbn [slot_size]; lia|intros m' K; cbn [sym]; now rewrite K].
  - eapply (packet_says ASPAC_ACK [cf_tmt g; cf_rc g; None] _ KAspActiveAck);
      [apply NewAspActiveAck_rt; repeat (apply Forall2_cons; [first [assumption | exact Logic.I]|]); apply Forall2_nil|reflexivity|reflexivity|destruct (cf_tmt g), (cf_rc g); reflexivity
      |cbn [sum_len fold_right]; rewrite !slot_size_len; cbn [slot_size]; lia|intros m' K; cbn [sym]; now rewrite K].
  - eapply (packet_says ASPDN_ACK [None] _ KAspDownAck);
      [apply NewAspDownAck_rt; repeat (apply Forall2_cons; [first [assumption | exact Logic.I]|]); apply Forall2_nil|reflexivity|reflexivity|reflexivity
      |cbn; lia|intros m' K; cbn [sym]; now rewrite K].
  - eapply (packet_says ASPIA_ACK [cf_rc g; None] _ KAspInactiveAck);
      [apply NewAspInactiveAck_rt; repeat (apply Forall2_cons; [first [assumption | exact Logic.I]|]); apply Forall2_nil|reflexivity|reflexivity|destruct (cf_rc g); reflexivity
      |cbn [sum_len fold_right]; rewrite !slot_size_len; cbn [slot_size]; lia|intros m' K; cbn [sym]; now rewrite K].
  - intros m. eexists. split; [reflexivity|]. now apply unexp_says.
  - intros m. cbn [error_reply]. destruct (first40_total m) as (b & _ & E). rewrite E. cbn [bind]. eexists. split; [reflexivity|].
    apply unsup_says. rewrite firstn_length. lia.
Qed.

(** ** One endpoint *)
Definition finished (u : upc) : Prop := exists r, u = UDone r.
Record calm (mo : cmode) (g : config) (c : conn) : Prop := {
  ca_mode : mode c = mo; ca_cfg : cfg c = g; ca_ctx : ctxd c = false; ca_closed : closed c = false; ca_open : sopen c = true;
  ca_crash : crash c = None; ca_ds : ds c = []; ca_us : Forall finished (us c); ca_hb : hq (hb c) }.

(** the rest of a packet goroutine in state s: it will cause [o] to be sent, then ask for [s']; the number bounds its steps *)
Definition live (s : st) : Prop := match s with CDI | RI => False | _ => True end.
Inductive tail (s : st) : list instr -> st -> nat -> Prop :=
| Ta_st s' : live s' -> tail s [ISt s'] s' 1
| Ta_cur : tail s [ICur] s 2.
Inductive doing (g : config) (s : st) : list instr -> list sig -> st -> nat -> Prop :=
| Do_tail k s' w : tail s k s' w -> doing g s k [] s' w
| Do_write m x k s' w : says m x -> tail s k s' w -> doing g s (IWrite m :: k) [x] s' (2 + w)
| Do_err e r k s' w : error_reply g e = Ok (Some r) -> says r SErr -> tail s k s' w -> doing g s (IErr e :: k) [SErr] s' (3 + w)
| Do_handle t x k s' w : sym (Typed t) = Some x -> x <> SOther -> tail s k s' w -> doing g s (IHandle t :: k) (react s x) s' (4 + w)
| Do_sig m x : b2n (Version m) = 1%N -> sym m = Some x -> doing g s [ISig m] (react s x) (goal s x) 7
| Do_parse raw x : denotes raw x -> doing g s [IParse raw] (react s x) (goal s x) 8.

Definition idle (l : list (list instr)) : Prop := Forall (fun x => x = []) l.
Definition dd (told : bool) : dialst := if told then DOk else DWait.
(** [phase mo g s ini dial mon hs o a w]: the endpoint will still send o and then be in a, after at most w steps of its own *)
Inductive phase (mo : cmode) (g : config) (s : st) : bool -> dialst -> mpc -> list (list instr) -> list sig -> abs -> nat -> Prop :=
| Ph_ini : s = Down -> phase mo g s true DWait MSelect [] (hello mo Down) (Rest Down false) 5
| Ph_upd t s' l : idle l -> live s' -> phase mo g s false (dd t) (MUpd s') l (hello mo s') (settle s s' t) 4
| Ph_init t m x l : idle l -> says m x -> phase mo g s false (dd t) (MInit m) l [x] (Rest s t) 2
| Ph_est l : idle l -> s = Active -> phase mo g s false DWait MEst l [] (Rest Active true) 1
| Ph_hung l : idle l -> s = Active -> phase mo g s false DOk MEst l [] Hung 0
| Ph_read t l : idle l -> phase mo g s false (dd t) MRead l [] (Rest s t) 0
| Ph_work t l il o s' w : idle l -> doing g s il o s' w ->
    phase mo g s false (dd t) MSelect (l ++ [il]) (o ++ hello mo s') (settle s s' t) (4 + w)
| Ph_err t l il s' w orig e r : idle l -> error_reply g e = Ok (Some r) -> says r SErr -> tail s il s' w ->
    phase mo g s false (dd t) (MErr orig e) (l ++ [il]) (SErr :: hello mo s') (settle s s' t) (6 + w).
Definition at_phase (mo : cmode) (g : config) (c : conn) : list sig -> abs -> nat -> Prop :=
  fun o a w => live (state c) /\ phase mo g (state c) (ini c) (dial c) (mon c) (hs c) o a w.

Lemma idle_nth l i x : idle l -> nth_error l i = Some x -> x = [].
Proof. intros I N. apply nth_error_In in N. unfold idle in I. rewrite Forall_forall in I. auto. Qed.
Lemma idle_last l il i : idle l -> nth_error (l ++ [il]) i = None \/ nth_error (l ++ [il]) i = Some [] \/ (i = length l /\ nth_error (l ++ [il]) i = Some il).
Proof.
  intros I. destruct (Nat.lt_trichotomy i (length l)) as [L|[->|L]].
  - destruct (nth_error l i) as [x|] eqn:N; [|apply nth_error_None in N; lia]. rewrite nth_error_app1, N by exact L. rewrite (idle_nth _ _ _ I N). auto.
  - rewrite nth_error_app2, Nat.sub_diag by lia. auto.
  - left. apply nth_error_None. rewrite app_length. cbn. lia.
Qed.
Lemma upd_last {A} (l : list A) a b : upd (l ++ [a]) (length l) b = l ++ [b].
Proof. induction l as [|x l IH]; cbn; [reflexivity|now rewrite IH]. Qed.
Lemma nth_last {A} (l : list A) a : nth_error (l ++ [a]) (length l) = Some a.
Proof. rewrite nth_error_app2, Nat.sub_diag by lia. reflexivity. Qed.
Lemma idle_snoc l : idle l -> idle (l ++ [[]]).
Proof. intros I. apply Forall_app. split; [exact I|repeat constructor]. Qed.

Lemma calm_labels mo g c l c' : calm mo g c -> hb_on g = false -> benign l -> step c l = Some c' ->
  (exists h, c' = set_hb h c /\ hq h /\ hw h < hw (hb c)) \/ l = LInit \/ l = LMon true \/ exists i, l = LHand i true.
Proof.
  intros [Mo G X K So C D U H] Ho B S. rewrite <- G in Ho. unfold step in S. rewrite C in S.
  assert (Nn : forall A i, @nth_error A [] i = None) by (intros A [|]; reflexivity).
  destruct l; try contradiction; try rewrite D in S; try rewrite X in S; try rewrite K in S; auto.
  - destruct ok; [auto|contradiction].
  - destruct (mon c); discriminate.
  - destruct ok; [eauto 6|contradiction].
  - unfold step_data in S. rewrite D, Nn in S. discriminate.
  - rewrite Nn in S. discriminate.
  - unfold step_hb in S. rewrite Ho in S. destruct ok; [|contradiction]. left.
    destruct (hb c); cbn in H; try contradiction; try discriminate; injection S as <-; eexists; (split; [reflexivity|]); cbn; split; auto; lia.
  - destruct (hb c); cbn in H; try contradiction; discriminate.
  - destruct (hb c); cbn in H; try contradiction; discriminate.
  - destruct (hb c); cbn in H; try contradiction; discriminate.
  - destruct (dial c); discriminate.
  - unfold step_user in S. destruct (nth_error (us c) i) as [u|] eqn:N; [|discriminate].
    apply nth_error_In in N. rewrite Forall_forall in U. destruct (U _ N) as [r ->]. discriminate.
Qed.

(** the handlers follow the table *)
Lemma handle_table g d s t x : speaks g -> sym (Typed t) = Some x -> x <> SOther ->
  match handle g d s t with
  | HNil => react s x = []
  | HErr e => react s x = [SErr] /\ exists r, error_reply g e = Ok (Some r) /\ says r SErr
  | HReply r => exists y, react s x = [y] /\ says r y
  | HPanic _ => False
  end.
Proof.
  intros [] Sx No. cbn [sym] in Sx. unfold handle. destruct (m_kind t); inversion Sx; subst x; try congruence; clear Sx No;
    destruct s; cbn [st_eqb negb stream_check StreamID N.eqb react]; try reflexivity; try (split; [reflexivity|apply sp_unexp0]);
    eexists; (split; [reflexivity|]); assumption.
Qed.
(** ... and so does their choice *)
Lemma plan_table g s m x : speaks g -> sym m = Some x ->
  fst (plan m) = None /\ exists w, w <= 6 /\ doing g s (snd (plan m)) (react s x) (goal s x) w.
Proof.
  intros Sp Sx. destruct m as [t|ge]; cbn [sym] in Sx.
  - unfold plan. destruct (m_kind t) eqn:K; inversion Sx; subst x; cbn [fst snd]; (split; [reflexivity|]); eexists;
      (split; [|first [ eapply Do_handle; [cbn [sym]; rewrite K; reflexivity|discriminate|cbn [goal]; first [apply Ta_cur | apply Ta_st; exact Logic.I]]
              | replace (react s SOther) with [SErr] by (destruct s; reflexivity);
                destruct (sp_unsup g Sp (Typed t)) as (r & E & Sy); eapply Do_err; [exact E|exact Sy|cbn [goal]; apply Ta_cur] ]]); lia.
  - inversion Sx; subst x. cbn [plan fst snd]. split; [reflexivity|]. exists 5. split; [lia|].
    replace (react s SOther) with [SErr] by (destruct s; reflexivity).
    destruct (sp_unsup g Sp (Gen ge)) as (r & E & Sy). apply (Do_err g s _ r [ICur] s 2 E Sy). constructor.
Qed.

Lemma packets_app l1 l2 : packets (l1 ++ l2) = packets l1 ++ packets l2.
Proof. unfold packets. apply flat_map_app. Qed.

(** what a step does *)
Definition silent mo g c c' o a w : Prop :=
  inq c' = inq c /\ packets (log c') = packets (log c) /\ exists w', at_phase mo g c' o a w' /\ w' + hw (hb c') < w + hw (hb c).
Definition sends mo g c c' o a w : Prop :=
  inq c' = inq c /\ exists b x o' w', o = x :: o' /\ packets (log c') = packets (log c) ++ [b] /\ denotes b x /\
    at_phase mo g c' o' a w' /\ w' + hw (hb c') + 1 < w + hw (hb c).
Definition takes mo g c c' (o : list sig) a : Prop :=
  exists raw q s t, inq c = raw :: q /\ o = [] /\ a = Rest s t /\ packets (log c') = packets (log c) /\ hw (hb c') = hw (hb c) /\
    forall x, denotes raw x -> inq c' = q /\ at_phase mo g c' (fst (hears mo s t x)) (snd (hears mo s t x)) 12.

Lemma signal_wire o c m b : wire m = Ok b -> sopen c = true -> WriteSignal o c m true = WOk (emit (ESend o 0 m b) c) (m3_MarshalLen m + length b).
Proof. apply signal_ok. Qed.

Lemma told_dd t : (match dd t with DWait => false | _ => true end) = t.
Proof. now destruct t. Qed.
Lemma goal_live s x : live s -> live (goal s x).
Proof. now destruct x. Qed.
Lemma doing_live g s il o s' w : live s -> doing g s il o s' w -> live s'.
Proof. intros L D. destruct D; try now apply goal_live. all: match goal with T : tail _ _ _ _ |- _ => destruct T; auto end. Qed.
Lemma upd_phase mo g c s' t : speaks g -> mode c = mo -> cfg c = g -> idle (hs c) -> ini c = false -> dial c = dd t -> live s' ->
  exists w, w < 4 /\ at_phase mo g (state_update s' c) (hello mo s') (settle (state c) s' t) w.
Proof.
  intros Sp M G I Ni D Lv. unfold at_phase, state_update. destruct s'; try contradiction; unfold settle; cbn [st_eqb andb]; cb; rewrite ?M, ?G.
  - destruct mo; cb; rewrite Ni, D; cbn [hello].
    + exists 2. split; [lia|]. split; [exact Lv|]. apply Ph_init; [exact I|]. now apply sp_up.
    + exists 0. split; [lia|]. split; [exact Lv|]. now apply Ph_read.
  - destruct mo; cb; rewrite Ni, D; cbn [hello].
    + exists 2. split; [lia|]. split; [exact Lv|]. apply Ph_init; [exact I|]. now apply sp_act.
    + exists 0. split; [lia|]. split; [exact Lv|]. now apply Ph_read.
  - replace (hello mo Active) with (@nil sig) by now destruct mo.
    destruct (st_eqb (state c) Active) eqn:Sa; cb; rewrite Ni, D; cbn [negb].
    + exists 0. split; [lia|]. split; [exact Lv|]. now apply Ph_read.
    + destruct t; [exists 0|exists 1]; (split; [lia|]); (split; [exact Lv|]); [now apply Ph_hung|now apply Ph_est].
Qed.

Lemma calm_set_hb mo g c h : calm mo g c -> hq h -> calm mo g (set_hb h c).
Proof. intros [] H. constructor; auto. Qed.
Lemma calm_same mo g c c' : calm mo g c -> mode c' = mode c -> cfg c' = cfg c -> ctxd c' = ctxd c -> closed c' = closed c -> sopen c' = sopen c ->
  crash c' = crash c -> ds c' = ds c -> us c' = us c -> hb c' = hb c -> calm mo g c'.
Proof. intros [] E1 E2 E3 E4 E5 E6 E7 E8 E9. constructor; congruence. Qed.
Lemma state_update_same s c : mode (state_update s c) = mode c /\ cfg (state_update s c) = cfg c /\ ctxd (state_update s c) = ctxd c /\
  closed (state_update s c) = closed c /\ sopen (state_update s c) = sopen c /\ crash (state_update s c) = crash c /\ ds (state_update s c) = ds c /\
  us (state_update s c) = us c /\ hb (state_update s c) = hb c /\ inq (state_update s c) = inq c /\ packets (log (state_update s c)) = packets (log c).
Proof.
  assert (P : packets (log c ++ [EUpd s]) = packets (log c)) by (rewrite packets_app; cbn; apply app_nil_r).
  destruct c as [mo g ma s0 cl so cx iq dq0 mn hb0 ii hs0 ds0 us0 di hd ha cr lg]. cbn [log] in P.
  unfold state_update, emit. destruct s; cb; rewrite ?P; auto 20.
  - destruct mo; cb; rewrite ?P; auto 20.
  - destruct mo; cb; rewrite ?P; auto 20.
  - destruct (st_eqb s0 Active); cb; rewrite ?P; auto 20.
Qed.

Ltac same C := eapply calm_same; [exact C|reflexivity..].

Lemma broadcast_eq c : broadcast c = set_hb (woken (hb c)) c.
Proof. unfold broadcast. destruct c as [? ? ? ? ? ? ? ? ? ? h ? ? ? ? ? ? ? ? ?]. cbn [hb]. now destruct h. Qed.

Lemma some_inj {A} (x y : A) : Some x = Some y -> x = y.
Proof. congruence. Qed.
Lemma calm_step mo g c l c' o a w : speaks g -> hb_on g = false -> calm mo g c -> at_phase mo g c o a w -> benign l -> step c l = Some c' ->
  calm mo g c' /\ (silent mo g c c' o a w \/ sends mo g c c' o a w \/ takes mo g c c' o a).
Proof.
  intros Sp Ho C [Lv Ph] B S. destruct (calm_labels _ _ _ _ _ C Ho B S) as [(h & -> & H1 & H2)|Lb].
  { split; [now apply calm_set_hb|]. left. unfold silent. cb. split; [reflexivity|]. split; [reflexivity|]. exists w.
    split; [split; [exact Lv|exact Ph]|lia]. }
  pose proof C as [Mo G X K So Cr D U H]. unfold step in S. rewrite Cr in S.
  (* only one goroutine of the connection can move *)
  remember (state c) as s eqn:Es in Ph, Lv. remember (ini c) as ii eqn:Ei in Ph. remember (dial c) as dl eqn:Ed in Ph. remember (mon c) as mn eqn:Em in Ph. remember (hs c) as hh eqn:Eh in Ph.
  destruct Ph as [Hs|t s' l0 I Lv'|t m x l0 I Sy|l0 I Hs|l0 I Hs|t l0 I|t l0 il o s' w I Do|t l0 il s' w orig e r I Er Sy Do].
  - (* the initial state *)
    destruct Lb as [->|[->|[i ->]]].
    + rewrite <- Ei, <- Em in S. injection S as <-. split; [same C|]. left. split; [reflexivity|]. split; [reflexivity|]. exists 4. split; [|cb; lia].
      split; [cb; now rewrite <- Es|]. cb. rewrite <- Ed, <- Eh. change DWait with (dd false).
      replace (Rest Down false) with (settle (state c) Down false) by (rewrite <- Es, Hs; reflexivity). apply Ph_upd; [constructor|exact Logic.I].
    + unfold step_mon in S. rewrite <- Em in S. discriminate.
    + unfold step_hand in S. rewrite <- Eh in S. destruct i; discriminate.
  - (* a state update *)
    destruct Lb as [->|[->|[i ->]]].
    + rewrite <- Ei in S. discriminate.
    + unfold step_mon in S. rewrite <- Em in S. injection S as <-.
      destruct (state_update_same s' c) as (E1 & E2 & E3 & E4 & E5 & E6 & E7 & E8 & E9 & E10 & E11).
      split; [eapply calm_same; eauto|]. left. split; [exact E10|]. split; [exact E11|].
      destruct (upd_phase mo g c s' t Sp Mo G ltac:(now rewrite <- Eh) ltac:(auto) ltac:(auto) Lv') as (w' & Lw & P). rewrite Es.
      exists w'. split; [exact P|]. rewrite E9. lia.
    + unfold step_hand in S. rewrite <- Eh in S. destruct (nth_error l0 i) as [z|] eqn:N; [|discriminate]. rewrite (idle_nth _ _ _ I N) in S. discriminate.
  - (* the first message after an update *)
    destruct Lb as [->|[->|[i ->]]].
    + rewrite <- Ei in S. discriminate.
    + unfold step_mon in S. rewrite <- Em in S. destruct Sy as (b & W & De). rewrite (signal_wire _ _ _ _ W So) in S. injection S as <-.
      split; [same C|]. right. left. split; [reflexivity|]. exists b, x, [], 0. split; [reflexivity|]. split; [cb; now rewrite packets_app|].
      split; [exact De|]. split; [|cb; lia]. split; [cb; now rewrite <- Es|]. cb. rewrite <- ?Es, <- ?Ei, <- ?Ed, <- ?Eh. now apply Ph_read.
    + unfold step_hand in S. rewrite <- Eh in S. destruct (nth_error l0 i) as [z|] eqn:N; [|discriminate]. rewrite (idle_nth _ _ _ I N) in S. discriminate.
  - (* reporting the establishment *)
    destruct Lb as [->|[->|[i ->]]].
    + rewrite <- Ei in S. discriminate.
    + unfold step_mon in S. rewrite <- Em, K, <- Ed in S. injection S as <-.
      rewrite broadcast_eq. assert (Hw : hq (woken (hb c)) /\ hw (woken (hb c)) <= hw (hb c)) by (destruct (hb c); cbn in H; try contradiction; cbn; auto).
      split; [constructor; cb; auto; apply Hw|]. left. split; [reflexivity|]. split; [reflexivity|]. exists 0. split; [|cb; lia].
      split; [cb; now rewrite <- Es|]. cb. rewrite <- Es, <- Ei, <- Eh, Hs. change DOk with (dd true). now apply Ph_read.
    + unfold step_hand in S. rewrite <- Eh in S. destruct (nth_error l0 i) as [z|] eqn:N; [|discriminate]. rewrite (idle_nth _ _ _ I N) in S. discriminate.
  - (* hung *)
    destruct Lb as [->|[->|[i ->]]].
    + rewrite <- Ei in S. discriminate.
    + unfold step_mon in S. rewrite <- Em, K, <- Ed in S. discriminate.
    + unfold step_hand in S. rewrite <- Eh in S. destruct (nth_error l0 i) as [z|] eqn:N; [|discriminate]. rewrite (idle_nth _ _ _ I N) in S. discriminate.
  - (* reading *)
    destruct Lb as [->|[->|[i ->]]].
    + rewrite <- Ei in S. discriminate.
    + unfold step_mon in S. rewrite <- Em, So in S. cbn [andb] in S. destruct (inq c) as [|raw q] eqn:Q; [discriminate|]. apply some_inj in S. subst c'.
      split; [same C|]. right. right. exists raw, q, s, t. split; [exact Q|]. split; [reflexivity|]. split; [reflexivity|]. split; [cb; rewrite packets_app; cbn; apply app_nil_r|].
      split; [reflexivity|]. intros x De. pose proof De as (m & V & Sx & Ln).
      assert (F1 : firstn bufsize raw = raw) by (apply firstn_all2; exact Ln). assert (F2 : skipn bufsize raw = []) by (apply skipn_all2; exact Ln).
      rewrite F1, F2. split; [reflexivity|]. split; [cb; now rewrite <- Es|]. cb. rewrite <- ?Es, <- ?Ei, <- ?Ed, <- ?Eh.
      unfold hears. cbn [fst snd]. apply (Ph_work mo g s t l0 [IParse raw] _ _ 8 I). now apply Do_parse.
    + unfold step_hand in S. rewrite <- Eh in S. destruct (nth_error l0 i) as [z|] eqn:N; [|discriminate]. rewrite (idle_nth _ _ _ I N) in S. discriminate.
  - (* a packet goroutine *)
    destruct Lb as [->|[->|[i ->]]].
    + rewrite <- Ei in S. discriminate.
    + unfold step_mon in S. rewrite <- Em in S. discriminate.
    + unfold step_hand in S. rewrite <- Eh in S. destruct (idle_last l0 il i I) as [N|[N|[-> N]]]; rewrite N in S; try discriminate.
      assert (Un : unlocked c = true) by (unfold unlocked; now rewrite <- Em).
      assert (Gen : forall il' o' w' c1, state c1 = s -> ini c1 = false -> dial c1 = dd t -> mon c1 = MSelect -> hs c1 = l0 ++ [il'] -> doing g s il' o' s' w' ->
        at_phase mo g c1 (o' ++ hello mo s') (settle s s' t) (4 + w')).
      { intros il' o' w' c1 E1 E2 E3 E4 E5 Do'. split; [now rewrite E1|]. rewrite E1, E2, E3, E4, E5. now apply Ph_work. }
      destruct Do as [k s' w Ta|m x k s' w Sy Ta|e r k s' w Er Sy Ta|t0 x k s' w Sx No Ta|m x V Sx|raw x De]; cbv beta iota in S.
      * destruct Ta as [s' Lv'|].
        -- rewrite <- Em in S. injection S as <-. split; [same C|]. left. split; [reflexivity|]. split; [reflexivity|]. exists 4. split; [|cb; lia].
           split; [cb; now rewrite <- Es|]. cb. rewrite <- ?Es, <- ?Ei, <- ?Ed, <- ?Eh, upd_last. cbn [app]. apply Ph_upd; [now apply idle_snoc|assumption].
        -- rewrite Un in S. injection S as <-. split; [same C|]. left. split; [reflexivity|]. split; [reflexivity|]. exists (4 + 1). split; [|cb; lia].
           apply (Gen [ISt (state c)] []); cb; auto; [now rewrite <- ?Eh, upd_last|]. rewrite <- Es. apply Do_tail. now apply Ta_st.
      * destruct Sy as (b & W & De). rewrite (signal_wire _ _ _ _ W So) in S. injection S as <-. split; [same C|].
        right. left. split; [reflexivity|]. exists b, x, (hello mo s'), (4 + w). split; [reflexivity|]. split; [cb; now rewrite packets_app|]. split; [exact De|].
        split; [|cb; lia]. apply (Gen k []); cb; auto; [now rewrite <- ?Eh, upd_last|]. now apply Do_tail.
      * unfold recv_err in S. cb. rewrite <- Em in S. injection S as <-. split; [same C|]. left. split; [reflexivity|]. split; [reflexivity|]. exists (6 + w).
        split; [|cb; lia]. split; [cb; now rewrite <- Es|]. cb. rewrite <- ?Es, <- ?Ei, <- ?Ed, <- ?Eh, upd_last. eapply Ph_err; eauto.
      * rewrite Un, G, <- Es in S. pose proof (handle_table g (hbd c) s t0 x Sp Sx No) as T.
        destruct (handle g (hbd c) s t0) as [|e|r|p]; [| | |contradiction]; injection S as <-; (split; [same C|]); left; (split; [reflexivity|]); (split; [reflexivity|]).
        -- exists (4 + w). split; [|cb; lia]. rewrite T. apply (Gen k []); cb; auto; [now rewrite <- ?Eh, upd_last|]. now apply Do_tail.
        -- destruct T as (T & r & Er & Sr). exists (4 + (3 + w)). split; [|cb; lia]. rewrite T.
           apply (Gen (IErr e :: k) [SErr]); cb; auto; [now rewrite <- ?Eh, upd_last|]. eapply Do_err; eauto.
        -- destruct T as (y & T & Sr). exists (4 + (2 + w)). split; [|cb; lia]. rewrite T.
           apply (Gen (IWrite r :: k) [y]); cb; auto; [now rewrite <- ?Eh, upd_last|]. eapply Do_write; eauto.
      * rewrite X, V in S. cbn [negb N.eqb Pos.eqb] in S.
        destruct (plan_table g s m x Sp Sx) as (P1 & w1 & Lw & P2). destruct (plan m) as [d l1]. cbn [fst snd] in P1, P2. subst d. injection S as <-.
        split; [same C|]. left. split; [reflexivity|]. split; [reflexivity|]. exists (4 + w1). split; [|cb; lia].
        eapply Gen; cb; eauto. now rewrite <- ?Eh, upd_last.
      * destruct De as (m & [P V] & Sx & Ln). rewrite P in S. injection S as <-.
        split; [same C|]. left. split; [reflexivity|]. split; [reflexivity|]. exists (4 + 7). split; [|cb; lia].
        eapply Gen; cb; eauto; [now rewrite <- ?Eh, upd_last|]. now apply Do_sig.
  - (* the monitor answers with an Error *)
    destruct Lb as [->|[->|[i ->]]].
    + rewrite <- Ei in S. discriminate.
    + unfold step_mon in S. rewrite <- Em in S. cb. change (cfg (emit (ERefused orig e) c)) with (cfg c) in S. rewrite G, Er in S.
      destruct Sy as (b & W & De). rewrite (signal_wire _ _ _ _ W) in S by exact So. injection S as <-.
      split; [same C|]. right. left. split; [reflexivity|]. exists b, SErr, (hello mo s'), (4 + w). split; [reflexivity|].
      split; [cb; rewrite !packets_app; cbn; now rewrite app_nil_r|]. split; [exact De|]. split; [|cb; lia].
      split; [cb; now rewrite <- Es|]. cb. rewrite <- ?Es, <- ?Ei, <- ?Ed, <- ?Eh.
      apply (Ph_work mo g s t l0 il [] s' w I). now apply Do_tail.
    + unfold step_hand in S. rewrite <- Eh in S. destruct (idle_last l0 il i I) as [N|[N|[-> N]]]; rewrite N in S; try discriminate.
      assert (Un : unlocked c = true) by (unfold unlocked; now rewrite <- Em).
      destruct Do as [s' Lv'|]; cbv beta iota in S.
      * rewrite <- Em in S. discriminate.
      * rewrite Un in S. injection S as <-. split; [same C|]. left. split; [reflexivity|]. split; [reflexivity|]. exists (6 + 1). split; [|cb; lia].
        split; [cb; now rewrite <- Es|]. cb. rewrite <- ?Es, <- ?Ei, <- ?Ed, <- ?Em, <- ?Eh, upd_last. eapply Ph_err; eauto. now apply Ta_st.
Qed.

(** an endpoint that cannot move waits for a packet or is hung *)
Lemma calm_stuck mo g c o a w : speaks g -> calm mo g c -> at_phase mo g c o a w -> (forall l c', benign l -> step c l <> Some c') ->
  o = [] /\ ((mon c = MRead /\ inq c = [] /\ exists t, a = Rest (state c) t /\ dial c = dd t) \/ (mon c = MEst /\ dial c = DOk /\ state c = Active /\ a = Hung)).
Proof.
  intros Sp C [Lv Ph] St. pose proof C as [Mo G X K So Cr D U H].
  remember (state c) as s eqn:Es in Ph, Lv. remember (ini c) as ii eqn:Ei in Ph. remember (dial c) as dl eqn:Ed in Ph. remember (mon c) as mn eqn:Em in Ph. remember (hs c) as hh eqn:Eh in Ph.
  assert (Bad : forall l, benign l -> (exists c', step c l = Some c') -> False) by (intros l B [c' S]; exact (St l c' B S)).
  destruct Ph as [Hs|t s' l0 I Lv'|t m x l0 I Sy|l0 I Hs|l0 I Hs|t l0 I|t l0 il o s' w I Do|t l0 il s' w orig e r I Er Sy Do].
  - exfalso. apply (Bad LInit); [exact Logic.I|]. unfold step. rewrite Cr, <- Ei, <- Em. eauto.
  - exfalso. apply (Bad (LMon true)); [exact Logic.I|]. unfold step, step_mon. rewrite Cr, <- Em. eauto.
  - exfalso. apply (Bad (LMon true)); [exact Logic.I|]. unfold step, step_mon. destruct Sy as (b & W & _). rewrite Cr, <- Em, (signal_wire _ _ _ _ W So). eauto.
  - exfalso. apply (Bad (LMon true)); [exact Logic.I|]. unfold step, step_mon. rewrite Cr, <- Em, K, <- Ed. eauto.
  - split; [reflexivity|]. right. rewrite <- Es. auto.
  - split; [reflexivity|]. left. split; [auto|]. split.
    + destruct (inq c) as [|raw q] eqn:Q; [reflexivity|exfalso]. apply (Bad (LMon true)); [exact Logic.I|]. unfold step, step_mon. rewrite Cr, <- Em, So, Q. cbn [andb]. eauto.
    + exists t. rewrite <- Es. auto.
  - exfalso. assert (Un : unlocked c = true) by (unfold unlocked; now rewrite <- Em).
    apply (Bad (LHand (length l0) true)); [exact Logic.I|]. unfold step, step_hand. rewrite Cr, <- Eh, nth_last.
    destruct Do as [k s' w Ta|m x k s' w Sy Ta|e r k s' w Er Sy Ta|t0 x k s' w Sx No Ta|m x V Sx|raw x De]; cbv beta iota.
    + destruct Ta; [rewrite <- Em|rewrite Un]; eauto.
    + destruct Sy as (b & W & _). rewrite (signal_wire _ _ _ _ W So). eauto.
    + unfold recv_err. cb. rewrite <- Em. eauto.
    + rewrite Un, G. pose proof (handle_table g (hbd c) (state c) t0 x Sp Sx No) as T. destruct (handle g (hbd c) (state c) t0); eauto.
    + rewrite X, V. cbn [negb N.eqb Pos.eqb]. destruct (plan_table g (state c) m x Sp Sx) as (P1 & _). destruct (plan m) as [d l1]. cbn in P1. subst d. eauto.
    + destruct De as (m & [P _] & _). rewrite P. eauto.
  - exfalso. apply (Bad (LMon true)); [exact Logic.I|]. unfold step, step_mon. destruct Sy as (b & W & _). rewrite Cr, <- Em. cb.
    change (cfg (emit (ERefused orig e) c)) with (cfg c). rewrite G, Er, (signal_wire _ _ _ _ W) by exact So. eauto.
Qed.
Lemma calm_arrive mo g c o a w raw : calm mo g c -> at_phase mo g c o a w ->
  step c (LArrive raw) = Some (set_inq (inq c ++ [raw]) c) /\ calm mo g (set_inq (inq c ++ [raw]) c) /\ at_phase mo g (set_inq (inq c ++ [raw]) c) o a w.
Proof.
  intros C Ph. split; [unfold step; now rewrite (ca_crash _ _ _ C)|]. split; [same C|exact Ph].
Qed.
(** a call of WriteSignal *)
Definition signalled (c c' : conn) (m : m3ua) : Prop :=
  exists c1, step c (LCall (OpWriteSignal m)) = Some c1 /\ step c1 (LUser (length (us c)) true) = Some c'.
Lemma calm_call mo g c c' o a w m b x : calm mo g c -> at_phase mo g c o a w -> wire m = Ok b -> denotes b x -> signalled c c' m ->
  calm mo g c' /\ at_phase mo g c' o a w /\ inq c' = inq c /\ packets (log c') = packets (log c) ++ [b] /\ hb c' = hb c /\ dial c = DOk.
Proof.
  intros C Ph W De (c1 & S1 & S2). pose proof C as [Mo G X K So Cr D U H]. unfold step in S1. rewrite Cr in S1.
  destruct (dial c) eqn:Dl; try discriminate. injection S1 as <-. unfold step, step_user in S2. cb.
  change (crash (set_us (us c ++ [UGo (OpWriteSignal m)]) c)) with (crash c) in S2. rewrite Cr in S2.
  change (us (set_us (us c ++ [UGo (OpWriteSignal m)]) c)) with (us c ++ [UGo (OpWriteSignal m)]) in S2. rewrite nth_last in S2. cbv beta iota in S2.
  rewrite (signal_wire _ _ _ _ W) in S2 by exact So. injection S2 as <-. split.
  - constructor; cb; auto. rewrite upd_last. apply Forall_app. split; [exact U|]. constructor; [eexists; reflexivity|constructor].
  - split; [destruct Ph as [Lv Ph]; split; [exact Lv|exact Ph]|]. split; [reflexivity|]. split; [cb; now rewrite packets_app|]. auto.
Qed.
Lemma calm_start mo g o : hb_on g = false -> calm mo g (start mo g o) /\ at_phase mo g (start mo g o) (hello mo Down) (Rest Down false) 5.
Proof. intros _. split; [constructor; try reflexivity; constructor|]. split; [exact Logic.I|]. now apply Ph_ini. Qed.
