(** The main invariant: the log of every reachable connection is a trace of ConnSpec.v, and
    the token that moves between the monitor and the packet goroutines. *)
From Verif Require Import GoBase BaseProofs ParamsModel MessagesModel MessagesProofs MessagesProofs2 ConfigModel
  ConnModel ConnSpec ConnBase.
From Coq Require Import Arith Lia.
Open Scope nat_scope.

(** ** Encoding never fails *)
Lemma wire_encodes m b : wire m = Ok b -> encodes m b.
Proof.
  unfold wire, encodes, m3_MarshalBinary. intros H.
  destruct (m3_MarshalTo m (zeros (m3_MarshalLen m))) as [[m' b']|e|p]; cbn in H; inversion H; subst. eauto.
Qed.
Lemma wire_total m : exists b, wire m = Ok b.
Proof.
  destruct (m3_MarshalTo_any m) as (m' & b & H & _). exists b. unfold wire. unfold m3_MarshalBinary in H. rewrite H. reflexivity.
Qed.
Lemma first40_total m : exists b, encodes m b /\ first40 m = Ok (firstn 40 b).
Proof.
  destruct (m3_MarshalTo_any m) as (m' & b & H & _). exists b. split; [exists m'; exact H|].
  unfold first40. rewrite H. destruct (length b <? 40) eqn:L.
  - rewrite firstn_all2; auto. apply Nat.ltb_lt in L. lia.
  - apply Nat.ltb_ge in L. rewrite slice_ok by lia. reflexivity.
Qed.
Lemma error_reply_answers g e m : error_reply g e = Ok (Some m) ->
  (forall i, e <> EInvalidStream i) -> (forall m, e <> EUnsupportedClass m) -> e <> EAspIDRequired -> answers g e m.
Proof.
  intros H A B C. destruct e; cbn in H; try discriminate; try (exfalso; eapply A; reflexivity);
    try (exfalso; eapply B; reflexivity); try congruence.
  - inversion H; subst. constructor.
  - destruct (first40_total m0) as (b & E & F). rewrite F in H. cbn in H. inversion H; subst. now constructor.
  - inversion H; subst. constructor.
Qed.
Lemma error_reply_total g e : exists r, error_reply g e = Ok r.
Proof.
  destruct e; cbn; eauto; destruct (first40_total m) as (b & _ & ->); cbn; eauto.
Qed.

(** ** The invariant *)
Definition idle (m : mpc) : Prop :=
  match m with MUpd _ | MInit _ | MEst | MRead => False | _ => True end.
Definition dead (l : list (list instr)) : Prop := Forall (fun h => h = []) l.
(** the monitor is handling an error about a packet *)
Definition pend_of (m : mpc) : bool := match m with MErr (OHand _) _ => true | _ => false end.

Definition fresh (pend : bool) (h : hstate) : Prop := h_out h = false /\ pend = false.
Definition settled (g : config) (pend : bool) (h : hstate) (m : m3ua) : Prop :=
  h_out h = true \/ pend = true \/ exists s, seen h s /\ reacts g s m Consume.
Definition complains (g : config) (h : hstate) (m : m3ua) (e : cerr) : Prop :=
  exists s, seen h s /\ (reacts g s m (Refuse e) \/ (e = EWriteSignal /\ exists r, reacts g s m (Reply r))).

(** the possible remaining instructions of the goroutine processing a valid message *)
Inductive body (g : config) (pend : bool) (h : hstate) (m : m3ua) : list instr -> Prop :=
| B_start : fresh pend h -> body g pend h m (snd (plan m))
| B_err t k e : snd (plan m) = IHandle t :: k -> fresh pend h -> complains g h m e -> body g pend h m (IErr e :: k)
| B_write t k r s : snd (plan m) = IHandle t :: k -> fresh pend h -> seen h s -> reacts g s m (Reply r) ->
    body g pend h m (IWrite r :: k)
| B_next x k : snd (plan m) = x :: k -> settled g pend h m -> body g pend h m k
| B_acked x k : snd (plan m) = [x; IBeatAck; k] -> settled g pend h m -> body g pend h m [k]
| B_st s : allowed h m s -> settled g pend h m -> body g pend h m [ISt s].

Inductive for_packet (g : config) (pend : bool) (h : hstate) (raw : list byte) : list instr -> Prop :=
| F_parse : fresh pend h -> for_packet g pend h raw [IParse raw]
| F_sig m : fresh pend h -> Parse raw = Ok m -> for_packet g pend h raw [ISig m]
| F_ver m : fresh pend h -> Parse raw = Ok m -> b2n (Version m) <> 1%N ->
    for_packet g pend h raw [IErr (EInvalidVersion (Version m))]
| F_body m l : valid raw m -> body g pend h m l -> for_packet g pend h raw l.

Inductive token (c : conn) (h : hstate) : Prop :=
| T_ini : ini c = true -> dead (hs c) -> idle (mon c) -> h_due h = Some None -> token c h
| T_upd s : ini c = false -> dead (hs c) -> mon c = MUpd s ->
    ((h_due h = Some None /\ s = Down) \/
     exists raw m, h_due h = Some (Some raw) /\ valid raw m /\ allowed h m s /\ settled (cfg c) false h m) -> token c h
| T_busy : ini c = false -> dead (hs c) -> mon c = MEst \/ (exists m, mon c = MInit m) \/ mon c = MRead ->
    h_due h = None -> token c h
| T_hand pre l raw : ini c = false -> hs c = pre ++ [l] -> dead pre -> l <> [] -> idle (mon c) ->
    h_due h = Some (Some raw) -> for_packet (cfg c) (pend_of (mon c)) h raw l -> token c h
| T_lost : ini c = false -> dead (hs c) -> idle (mon c) -> token c h.

(** the error the monitor is about to handle *)
Definition merr_ok (c : conn) (h : hstate) : Prop :=
  forall o e, mon c = MErr o e ->
    match o with
    | OHand i => S i = h_n h /\ h_out h = false /\ exists raw, h_due h = Some (Some raw) /\ justified (cfg c) h raw e
    | _ => other_error o e
    end.

Definition dok (i : nat) (d : dpc) : Prop :=
  match d with
  | DCheck t | DPd t => m_kind t = KData
  | DErr e => other_error (OData i) e
  | _ => True
  end.
Definition bok (g : config) (b : bpc) : Prop :=
  match b with
  | BStart | BWait | BRun | BDone => True
  | BWrite d => hb_on g = true /\ length d = 128
  | BErr e => other_error OHb e
  | _ => hb_on g = true
  end.

Definition Core (c : conn) (h : hstate) : Prop :=
  state c = observed h /\ h_n h = length (hs c) /\ merr_ok c h /\ (forall m, mon c = MInit m -> h_may h = Some m) /\
  token c h.
Definition Inv (c : conn) : Prop :=
  (forall i d, nth_error (ds c) i = Some d -> dok i d) /\ bok (cfg c) (hb c) /\
  exists h, history (mode c) (cfg c) (log c) h /\ Core c h.

(** the shapes of a plan *)
Lemma plan_shape m :
  (exists t, m = Typed t /\ m_kind t = KData /\ plan m = (Some t, [ICur])) \/
  (exists t s, m = Typed t /\ names m = Some s /\ plan m = (None, [IHandle t; ISt s])) \/
  (exists t, m = Typed t /\ names m = None /\ plan m = (None, [IHandle t; ICur])) \/
  (exists t, m = Typed t /\ m_kind t = KHeartbeatAck /\ plan m = (None, [IHandle t; IBeatAck; ICur])) \/
  (names m = None /\ supported m = false /\ plan m = (None, [IErr (EUnsupportedMessage m); ICur])).
Proof.
  destruct m as [t|g]; [|cbn; intuition].
  destruct (m_kind t) eqn:K; unfold plan, names, supported; rewrite K; eauto 10.
Qed.
Ltac shapes m := destruct (plan_shape m) as [(?t & ?E & ?K & ?P)|[(?t & ?s & ?E & ?K & ?P)|[(?t & ?E & ?K & ?P)|[(?t & ?E & ?K & ?P)|(?K & ?SU & ?P)]]]].
Lemma plan_handle m t k : snd (plan m) = IHandle t :: k -> m = Typed t.
Proof. intros X. shapes m; rewrite P in X; cbn [snd] in X; inversion X; congruence. Qed.
Lemma plan_handle_kind m t k : snd (plan m) = IHandle t :: k ->
  m_kind t <> KData /\ supported (Typed t) = true.
Proof.
  intros X. pose proof (plan_handle _ _ _ X) as ->. unfold plan in X. destruct (m_kind t) eqn:K; cbn in X; inversion X; unfold supported; rewrite ?K; split; congruence.
Qed.
Lemma plan_data m t l : plan m = (Some t, l) -> names m = None /\ l = [ICur] /\ m = Typed t /\ m_kind t = KData.
Proof.
  intros H. shapes m; rewrite P in H; inversion H; subst. repeat split; auto. unfold names. now rewrite K.
Qed.

(** the handlers follow the table *)
Definition ranged (s : st) : Prop := s = Down \/ s = Inactive \/ s = Active.
Lemma handle_reacts g d s t : ranged s -> m_kind t <> KData -> supported (Typed t) = true ->
  match handle g d s t with
  | HNil => reacts g s (Typed t) Consume
  | HErr e => reacts g s (Typed t) (Refuse e)
  | HReply r => reacts g s (Typed t) (Reply r)
  | HPanic _ => m_kind t = KHeartbeatAck /\ fget FHeartbeatData (m_f t) = None
  end.
Proof.
  intros R ND SU. unfold handle, stream_check. change (negb (StreamID =? 0)%N) with false. cbn [supported] in SU.
  destruct (m_kind t) eqn:K; try discriminate; try contradiction;
  destruct R as [->|[->| ->]]; cbn [st_eqb negb];
  try (apply RC_silent; unfold silent_table; rewrite K; cbn; auto; fail);
  try (eapply RC_reply; [unfold reply_table; rewrite K; reflexivity|cbn; auto]; fail);
  try (apply RC_unexpected; [unfold supported; rewrite K; reflexivity|unfold silent_table; rewrite K; cbn; intuition discriminate|
      unfold reply_table; rewrite K; intros l r HH; inversion HH; subst; cbn; intuition discriminate]; fail).
  destruct (fget FHeartbeatData (m_f t)); [|auto]. destruct (list_eq_dec _ _ _).
  - apply RC_silent. unfold silent_table. rewrite K. cbn. auto.
  - apply RC_beat_ack; auto.
Qed.
Lemma hnext_ranged mo g h e h' : hnext mo g h e h' -> ranged (h_cur h) -> ranged (h_cur h').
Proof.
  intros H R. destruct H; cbn in *; auto.
  - left; auto.
  - destruct H0 as [N|[_ [->|[_ ->]]]]; auto; [|left; auto].
    destruct m as [t|]; [|discriminate]. cbn in N. destruct (m_kind t); inversion N; unfold ranged; auto.
Qed.
Lemma history_ranged mo g l h : history mo g l h -> ranged (h_cur h).
Proof. intros H. induction H; [left; reflexivity|eauto using hnext_ranged]. Qed.
Lemma seen_ranged mo g l h s : history mo g l h -> seen h s -> ranged s.
Proof. intros H [->|[_ ->]]; [eapply history_ranged; eauto|left; auto]. Qed.
Lemma observed_seen h : seen h (observed h).
Proof. unfold observed, seen. destruct (h_cl h); auto. Qed.

Lemma dead_live pre l i x : dead pre -> nth_error (pre ++ [l]) i = Some x -> x <> [] ->
  i = length pre /\ x = l.
Proof.
  intros D H Hx. destruct (Nat.lt_trichotomy i (length pre)) as [L|[L|L]].
  - rewrite nth_error_app1 in H by auto. pose proof (Forall_nth _ _ _ _ D H). cbn beta in *. contradiction.
  - subst. rewrite nth_error_app2, Nat.sub_diag in H by auto. cbn in H. now inversion H.
  - rewrite nth_error_app2 in H by lia. destruct (i - length pre) as [|[|k]] eqn:E; cbn in H; try discriminate. lia.
Qed.
Lemma dead_none l i x k : dead l -> nth_error l i = Some (x :: k) -> False.
Proof. intros D H. pose proof (Forall_nth _ _ _ _ D H). cbn beta in *. discriminate. Qed.
Lemma upd_last {A} (pre : list A) l x : upd (pre ++ [l]) (length pre) x = pre ++ [x].
Proof. induction pre; cbn; congruence. Qed.
Lemma dead_app a b : dead a -> dead b -> dead (a ++ b).
Proof. intros; apply Forall_app; auto. Qed.
Lemma dead_one : dead [[]].
Proof. constructor; auto. Qed.

Lemma reads_app a b : reads (a ++ b) = reads a ++ reads b.
Proof. apply flat_map_app. Qed.
Lemma updates_app a b : updates (a ++ b) = updates a ++ updates b.
Proof. apply flat_map_app. Qed.
Lemma history_n mo g l h : history mo g l h -> h_n h = length (reads l) /\
  (forall raw, h_due h = Some (Some raw) -> exists q, reads l = q ++ [raw]) /\
  (h_due h = Some None -> reads l = [] /\ updates l = []).
Proof.
  intros H. induction H as [|l h e h' H (I1 & I2 & I3) S].
  - cbn. repeat split; auto. discriminate.
  - rewrite reads_app, updates_app. destruct S; cbn [h_due h_n] in *; cbn [reads updates flat_map]; rewrite ?app_nil_r; repeat split; auto; try discriminate; try (apply I3; auto).
    + rewrite app_length. cbn. lia.
    + intros r E. inversion E; subst. eauto.
Qed.

(** the goroutine that has the token *)
Lemma token_hand c h i x k : token c h -> nth_error (hs c) i = Some (x :: k) ->
  exists pre raw, ini c = false /\ hs c = pre ++ [x :: k] /\ dead pre /\ i = length pre /\ idle (mon c) /\
    h_due h = Some (Some raw) /\ for_packet (cfg c) (pend_of (mon c)) h raw (x :: k).
Proof.
  intros T H. inversion T as [|s|A B C D|pre l raw Hi Hs Hd Hl Hm Hdue Hf|]; try (exfalso; eapply dead_none; eauto; fail).
  rewrite Hs in H. destruct (dead_live _ _ _ _ Hd H ltac:(discriminate)) as [-> <-].
  exists pre, raw. auto 10.
Qed.

(** frame: fields the invariant does not look at *)
Lemma Core_ext c c' h : Core c h -> cfg c' = cfg c -> ini c' = ini c -> mon c' = mon c -> hs c' = hs c -> state c' = state c ->
  Core c' h.
Proof.
  intros (H1 & H2 & H3 & H4 & H5) E0 E1 E2 E3 E4. unfold Core, merr_ok. rewrite E0, E2, E3, E4. repeat split; auto.
  destruct H5.
  - apply T_ini; congruence. - eapply T_upd; rewrite ?E0; eauto; congruence.
  - apply T_busy; rewrite ?E1, ?E2, ?E3; auto. - eapply T_hand; rewrite ?E0, ?E2; eauto; congruence. - apply T_lost; congruence.
Qed.
Lemma Inv_frame c c' :
  Inv c -> mode c' = mode c -> cfg c' = cfg c -> ini c' = ini c -> mon c' = mon c -> hs c' = hs c -> state c' = state c ->
  (log c' = log c \/ exists e, log c' = log c ++ [e] /\ forall h, hnext (mode c) (cfg c) h e h) ->
  (forall i d, nth_error (ds c') i = Some d -> dok i d) -> bok (cfg c) (hb c') -> Inv c'.
Proof.
  intros (D & B & h & H & K) E0 E1 E2 E3 E4 E5 E6 D' B'. split; [auto|split; [congruence|]].
  exists h. split; [|eapply Core_ext; eauto].
  rewrite E0, E1. destruct E6 as [->|(e & -> & N)]; auto. econstructor; eauto.
Qed.

(** the monitor moves between points where it does not have the token and is not
    handling an error about a packet *)
Lemma Core_idle c c' h : Core c h -> cfg c' = cfg c -> ini c' = ini c -> idle (mon c) -> idle (mon c') ->
  pend_of (mon c) = false -> pend_of (mon c') = false -> (forall o e, mon c' = MErr o e -> other_error o e) ->
  hs c' = hs c -> state c' = state c -> Core c' h.
Proof.
  intros (H1 & H2 & H3 & H4 & H5) E0 E1 I1 I2 P1 P2 Q E3 E4. unfold Core, merr_ok. rewrite E0, E3, E4. repeat split; auto.
  - intros o e E. specialize (Q o e E). rewrite E in P2. destruct o; auto; discriminate.
  - intros m E. rewrite E in I2. contradiction.
  - inversion H5 as [A B D E|s A B D E|A B D E|pre l raw A B D E F' G|A B D].
    + apply T_ini; auto; congruence.
    + rewrite D in I1. contradiction.
    + destruct D as [D|[[m D]|D]]; rewrite D in I1; contradiction.
    + eapply T_hand; eauto; congruence.
    + apply T_lost; auto; congruence.
Qed.

(** how the predicates depend on the history *)
Definition grows (h h' : hstate) : Prop :=
  h_due h' = h_due h /\ h_n h' = h_n h /\ h_cur h' = h_cur h /\ (h_cl h = true -> h_cl h' = true) /\ h_out h' = h_out h.
Lemma seen_grows h h' s : grows h h' -> seen h s -> seen h' s.
Proof. intros (A & N & B & C & D) [->|[E ->]]; unfold seen; auto. Qed.
Lemma allowed_grows h h' m s : grows h h' -> allowed h m s -> allowed h' m s.
Proof. intros G [A|[A B]]; [left|right]; eauto using seen_grows. Qed.
Lemma settled_grows g p h h' m : grows h h' -> settled g p h m -> settled g p h' m.
Proof. intros G [A|[A|(s & A & B)]]; unfold settled; [left; now destruct G as (? & ? & ? & ? & ->)|auto|]. right; right. exists s. eauto using seen_grows. Qed.
Lemma fresh_grows p h h' : grows h h' -> fresh p h -> fresh p h'.
Proof. intros (A & N & B & C & D) [E F]. unfold fresh. rewrite D. auto. Qed.
Lemma justified_grows g h h' raw e : grows h h' -> justified g h raw e -> justified g h' raw e.
Proof. intros G J. destruct J; [eapply J_version|eapply J_refuse|eapply J_write]; eauto using seen_grows. Qed.
Lemma body_grows g p h h' m l : grows h h' -> body g p h m l -> body g p h' m l.
Proof.
  intros G B. pose proof (fresh_grows p _ _ G). pose proof (settled_grows g p _ _ m G). destruct B.
  - apply B_start; auto.
  - eapply B_err; eauto. destruct H3 as (s & S & C). exists s; eauto using seen_grows.
  - eapply B_write; eauto using seen_grows.
  - eapply B_next; eauto.
  - eapply B_acked; eauto.
  - eapply B_st; eauto using allowed_grows.
Qed.
Lemma for_packet_grows g p h h' raw l : grows h h' -> for_packet g p h raw l -> for_packet g p h' raw l.
Proof.
  intros G F. destruct F; [apply F_parse|apply F_sig|apply F_ver|eapply F_body]; eauto using fresh_grows, body_grows.
Qed.
Lemma token_grows c h h' : grows h h' -> token c h -> token c h'.
Proof.
  intros G T. destruct (G) as (D & N & _). destruct T.
  - apply T_ini; congruence.
  - eapply T_upd; eauto. destruct H2 as [[? ?]|(raw & m & A & B & C & S)]; [left; split; congruence|].
    right. exists raw, m. split; [congruence|]. eauto using allowed_grows, settled_grows.
  - apply T_busy; auto; congruence.
  - eapply T_hand with (l := l); eauto using for_packet_grows. congruence.
  - apply T_lost; auto.
Qed.
Lemma merr_grows c h h' : grows h h' -> merr_ok c h -> merr_ok c h'.
Proof.
  intros G M o e E. specialize (M o e E). destruct o; auto. destruct M as (A & B & raw & C & J).
  destruct (G) as (Gd & Gn & _ & _ & Go). rewrite Gn, Go, Gd. repeat split; auto. exists raw. eauto using justified_grows.
Qed.

(** Close *)
Definition hclose (h : hstate) : hstate := mkH (h_due h) (h_n h) (h_cur h) true (h_out h) (h_may h).
Lemma hclose_grows h : grows h (hclose h).
Proof. repeat split; auto. Qed.
Lemma hclose_next mo g h : hnext mo g h EClosed (hclose h).
Proof. destruct h. constructor. Qed.
Lemma Inv_close c : Inv c -> Inv (closing c).
Proof.
  intros (D & B & h & H & H1 & H2 & H3 & H4 & H5).
  destruct (closing_fields c) as (F0 & F0' & _ & F1 & _ & _ & _ & _ & _ & F2 & F2' & F3 & F4 & F4' & _ & _ & _ & _ & _ & F5).
  split; [rewrite F4'; exact D|split; [rewrite F0', F2'; exact B|]].
  exists (hclose h). rewrite F0, F0', F5. split; [econstructor; eauto using hclose_next|].
  apply (Core_ext (set_state Down c)); auto.
  unfold Core. cb. repeat split; auto.
  - apply (merr_grows c h); auto using hclose_grows.
  - eapply token_grows; [apply hclose_grows|]. destruct H5; [apply T_ini|eapply T_upd|apply T_busy|eapply T_hand with (l := l)|apply T_lost]; cb; eauto.
Qed.

Lemma Inv_start m g o : Inv (start m g o).
Proof.
  split; [intros [|i] d E; discriminate|split; [exact I|]].
  exists h0. split; [constructor|]. unfold Core. cbn. repeat split; auto; try discriminate.
  apply T_ini; cbn; auto. constructor.
Qed.

(** the instruction a packet goroutine is at *)
Lemma for_packet_inv g p h raw x k : for_packet g p h raw (x :: k) ->
  match x with
  | IParse r => r = raw /\ k = [] /\ fresh p h
  | ISig m => Parse raw = Ok m /\ k = [] /\ fresh p h
  | IHandle t => valid raw (Typed t) /\ snd (plan (Typed t)) = IHandle t :: k /\ fresh p h
  | IWrite r => exists t s, valid raw (Typed t) /\ snd (plan (Typed t)) = IHandle t :: k /\ fresh p h /\
      seen h s /\ reacts g s (Typed t) (Reply r)
  | IErr e => fresh p h /\ justified g h raw e /\ (k = [] \/ exists m y, valid raw m /\ snd (plan m) = y :: k)
  | IBeatAck => k = [ICur] /\ exists t, valid raw (Typed t) /\ m_kind t = KHeartbeatAck /\ settled g p h (Typed t)
  | ICur => k = [] /\ exists m, valid raw m /\ names m = None /\
      (settled g p h m \/ (fresh p h /\ exists t, m = Typed t /\ m_kind t = KData))
  | ISt s => k = [] /\ exists m, valid raw m /\ allowed h m s /\ settled g p h m
  end.
Proof.
  intros H. inversion H as [Fr Hp|m Fr P Hp|m Fr P V Hp|m l V B Hl]; subst; eauto.
  - repeat split; try apply Fr; auto. now apply J_version.
  - assert (N : forall t, m = Typed t -> m_kind t = KHeartbeatAck -> names m = None)
      by (intros t -> K; cbn; now rewrite K).
    assert (N' : forall t, m = Typed t -> m_kind t = KData -> names m = None)
      by (intros t -> K; cbn; now rewrite K).
    inversion B as [Fr X|t k' e X Fr Y|t k' r s X Fr Y Z|y k' X S|y k' X S|s X S]; subst.
    + shapes m; rewrite P in X; cbn [snd] in X; inversion X; subst x k.
      * split; auto. exists m. split; auto. split; [eauto|]. right. eauto.
      * subst m. rewrite P. auto.
      * subst m. rewrite P. auto.
      * subst m. rewrite P. auto.
      * split; auto. split.
        -- eapply J_refuse; eauto using observed_seen. now apply RC_unsupported.
        -- right. exists m. eexists. rewrite P. cbn [snd]. eauto 6.
    + split; auto. split.
      * destruct Y as (s & S & [R|(-> & r & R)]); [eapply J_refuse|eapply J_write]; eauto.
      * right. eauto.
    + pose proof (plan_handle _ _ _ X). subst m. exists t, s. auto.
    + shapes m; rewrite P in X; cbn [snd] in X; inversion X; subst x k.
      * split; auto. exists m. split; auto. split; auto. left; auto.
      * split; auto. exists m. auto.
      * split; auto. exists t. subst m. auto.
      * split; auto. exists m. auto.
    + shapes m; rewrite P in X; cbn [snd] in X; inversion X; subst.
      split; auto. eexists. split; [exact V|]. split; [eapply N; eauto|]. auto.
    + split; eauto.
Qed.

Lemma hand_idle c h i x k : Core c h -> nth_error (hs c) i = Some (x :: k) -> idle (mon c).
Proof.
  intros (_ & _ & _ & _ & T) H.
  now destruct (token_hand _ _ _ _ _ T H) as (? & ? & ? & ? & ? & ? & ? & ?).
Qed.

(** the token holder takes one step; the monitor stays where it is *)
Lemma Core_hand c c' h h' i x k l :
  Core c h -> nth_error (hs c) i = Some (x :: k) ->
  cfg c' = cfg c -> ini c' = ini c -> mon c' = mon c -> hs c' = upd (hs c) i l -> state c' = state c ->
  h_due h' = h_due h -> h_n h' = h_n h -> observed h' = observed h -> merr_ok c h' ->
  (forall raw, h_due h = Some (Some raw) -> state c = observed h -> S i = h_n h ->
     for_packet (cfg c) (pend_of (mon c)) h raw (x :: k) -> l = [] \/ for_packet (cfg c) (pend_of (mon c)) h' raw l) ->
  Core c' h'.
Proof.
  intros (H1 & H2 & H3 & H4 & H5) N E0 E1 E2 E3 E4 G1 G2 G3 M P.
  destruct (token_hand _ _ _ _ _ H5 N) as (pre & raw & K1 & K2 & K3 & K4 & K5 & K6 & K7).
  unfold Core, merr_ok. rewrite E0, E2, E3, E4, upd_len, G2, G3. repeat split; auto.
  - intros o e E. specialize (M o e E). now rewrite G2 in M.
  - intros m E. rewrite E in K5. contradiction.
  - assert (Li : S i = h_n h) by (rewrite H2, K2, app_length; cbn; lia).
    rewrite K2, K4, upd_last in E3. destruct (P raw K6 H1 Li K7) as [->|Hf].
    + apply T_lost; auto; try congruence. rewrite E3. apply dead_app; auto using dead_one.
    + destruct l as [|y l']; [apply T_lost; auto; try congruence; rewrite E3; apply dead_app; auto using dead_one|].
      eapply T_hand with (l := y :: l'); rewrite ?E0, ?E2; eauto; congruence.
Qed.

(** the ghost effect of refusing a packet *)
Definition hrefuse (h : hstate) (may : option m3ua) : hstate := mkH (h_due h) (h_n h) (h_cur h) (h_cl h) true may.
Definition hmay (h : hstate) (may : option m3ua) : hstate := mkH (h_due h) (h_n h) (h_cur h) (h_cl h) (h_out h) may.

Lemma refuse_next mo c h o e may : mode c = mo -> merr_ok c h -> mon c = MErr o e ->
  (forall r, may = Some r -> answers (cfg c) e r) ->
  hnext mo (cfg c) h (ERefused o e) (if pend_of (mon c) then hrefuse h may else hmay h may).
Proof.
  intros Mo M E A. specialize (M o e E). rewrite E. destruct o; cbn [pend_of]; try (destruct h; apply H_other; auto; fail).
  destruct M as (Hi & Ho & raw & Hd & J). destruct h as [d n cur cl out m]. cbn in *. subst. apply H_refuse; auto.
Qed.
Lemma settled_refused g h may m : settled g true h m -> settled g false (hrefuse h may) m.
Proof. left. reflexivity. Qed.
Lemma body_refused g h may m l : body g true h m l -> body g false (hrefuse h may) m l.
Proof.
  intros B. destruct B; try (match goal with F : fresh _ _ |- _ => destruct F; discriminate end).
  - eapply B_next; eauto using settled_refused.
  - eapply B_acked; eauto using settled_refused.
  - eapply B_st; eauto using settled_refused.
Qed.
(** the monitor has handled an error *)
Lemma Core_err c c' h o e may may' : Core c h -> mon c = MErr o e -> cfg c' = cfg c -> ini c' = ini c -> hs c' = hs c -> state c' = state c ->
  mon c' = MSelect \/ mon c' = MClose ->
  h_may (if pend_of (mon c) then hrefuse h may else hmay h may) = may ->
  Core c' (hmay (if pend_of (mon c) then hrefuse h may else hmay h may) may').
Proof.
  intros (H1 & H2 & H3 & H4 & H5) E E0 E1 E3 E4 E5 _.
  assert (I2 : idle (mon c')) by (destruct E5 as [-> | ->]; exact I).
  assert (P2 : pend_of (mon c') = false) by (destruct E5 as [-> | ->]; reflexivity).
  unfold Core, merr_ok. rewrite E0, E3, E4. split; [destruct (pend_of (mon c)); exact H1|].
  split; [destruct (pend_of (mon c)); exact H2|]. split; [intros o' e' X; destruct E5; congruence|].
  split; [intros m X; destruct E5; congruence|].
  destruct H5 as [A B D F|s A B D F|A B D F|pre l raw A B D F G J K|A B D]; try (rewrite E in D; cbn in D; contradiction); try congruence.
  - apply T_ini; auto; try congruence. destruct (pend_of (mon c)); exact F.
  - destruct D as [D|[[m D]|D]]; congruence.
  - eapply T_hand with (l := l); eauto; try congruence.
    + destruct (pend_of (mon c)); exact J.
    + rewrite E0, P2. destruct (pend_of (mon c)) eqn:Pe.
      * destruct K as [Fr|m Fr|m Fr|m l V Bd]; try (destruct Fr as [_ Fr]; discriminate).
        eapply F_body; eauto. apply (body_refused _ _ may') in Bd. exact Bd.
      * eapply for_packet_grows; [|exact K]. repeat split; auto.
  - apply T_lost; auto; congruence.
Qed.

(** the data and heartbeat parts *)
Lemma dok_upd (l : list dpc) i d : (forall i d, nth_error l i = Some d -> dok i d) -> dok i d ->
  forall j x, nth_error (upd l i d) j = Some x -> dok j x.
Proof.
  intros H K j x E. destruct (Nat.eq_dec i j) as [->|N].
  - destruct (nth_error l j) as [y|] eqn:Y.
    + rewrite (upd_nth_same _ _ _ _ Y) in E. inversion E; subst; auto.
    + exfalso. apply nth_error_None in Y. assert (nth_error (upd l j d) j <> None) by congruence.
      apply nth_error_Some in H0. rewrite upd_len in H0. lia.
  - rewrite upd_nth_other in E by auto. eauto.
Qed.
Lemma dok_app (l : list dpc) d : (forall i d, nth_error l i = Some d -> dok i d) -> (forall i, dok i d) ->
  forall j x, nth_error (l ++ [d]) j = Some x -> dok j x.
Proof.
  intros H K j x E. destruct (Nat.lt_ge_cases j (length l)).
  - rewrite nth_error_app1 in E by auto. eauto.
  - rewrite nth_error_app2 in E by auto. destruct (j - length l) as [|[|z]]; cbn in E; inversion E; subst; auto.
Qed.

Ltac frame := eapply Inv_frame; [eassumption|reflexivity|reflexivity|reflexivity|reflexivity|reflexivity|reflexivity|try (left; reflexivity)
  |cb; try assumption|cb; try exact Logic.I; try assumption].
Ltac getinv I := let D := fresh "D" in let B := fresh "B" in let h := fresh "h" in let Hh := fresh "Hh" in let K := fresh "K" in
  destruct (I) as (D & B & h & Hh & K).
Ltac hand0 h := exists h; split; [assumption|]; eapply Core_hand with (h := h);
  [eassumption|eassumption|reflexivity|reflexivity|reflexivity|cb; reflexivity|reflexivity|reflexivity|reflexivity|reflexivity
  |match goal with K : Core _ _ |- _ => apply K end|].

(** every step keeps the invariant, or is a panic *)
Lemma Inv_step c l c' : Inv c -> crash c = None -> stepR c l c' -> crash c' = None -> Inv c'.
Proof.
  intros I C S C'. getinv I.
  destruct S; try (frame; fail).
  - (* init *)
    split; [exact D|split; [exact B|]]. exists h. split; auto.
    destruct K as (H1 & H2 & H3 & H4 & H5). unfold Core. cb. split; [auto|]. split; [auto|].
    split; [intros o e X; discriminate|]. split; [intros m X; discriminate|].
    inversion H5; try congruence. eapply T_upd; cb; eauto.
  - (* err_send *)
    split; [exact D|split; [exact B|]]. cb.
    assert (A : forall r, Some m = Some r -> answers (cfg c) e r).
    { intros r X. inversion X; subst. destruct K as (_ & _ & M & _). specialize (M o e H).
      apply error_reply_answers; auto.
      all: destruct o; [inversion M|destruct M as (_ & _ & raw & _ & J)|inversion M|inversion M|inversion M];
        try (intros; discriminate); try (subst; intros; discriminate).
      all: try (cbn in H6; intuition (subst; discriminate)).
      all: try (inversion J; subst; try (intros; discriminate)); try (match goal with R : reacts _ _ _ (Refuse _) |- _ => inversion R; subst; intros; discriminate end).
      all: try (match goal with R : In _ _ |- _ => cbn in R; intuition (subst; discriminate) end). }
    exists (hmay (if pend_of (mon c) then hrefuse h (Some m) else hmay h (Some m)) None). split.
    + econstructor; [econstructor; [exact Hh|]|].
      * eapply refuse_next; eauto. apply K.
      * destruct (pend_of (mon c)); apply H_mon; now apply wire_encodes.
    + eapply Core_err; eauto. destruct (pend_of (mon c)); reflexivity.
  - split; [exact D|split; [exact B|]]. cb.
    exists (hmay (if pend_of (mon c) then hrefuse h None else hmay h None) None). split.
    + assert (X : hmay (if pend_of (mon c) then hrefuse h None else hmay h None) None =
                  (if pend_of (mon c) then hrefuse h None else hmay h None)) by (destruct (pend_of (mon c)); reflexivity).
      rewrite X. econstructor; [exact Hh|]. eapply refuse_next; eauto; [apply K|]. discriminate.
    + eapply Core_err; eauto. destruct (pend_of (mon c)); reflexivity.
  - (* upd *)
    rewrite state_update_eq. split; [exact D|split; [exact B|]]. cb.
    destruct K as (H1 & H2 & H3 & H4 & H5).
    inversion H5 as [A B' D' E|s' A B' D' E|A B' D' E|pre l raw A B' D' E F G|A B' D']; try (rewrite H in *; cbn in *; contradiction).
    2:{ destruct D' as [D'|[[m D']|D']]; congruence. }
    rewrite H in D'. inversion D'; subst s'. exists (mkH None (h_n h) s false false (initial (mode c) (cfg c) s)). split.
    + econstructor; [exact Hh|]. destruct h as [due n cur cl out may]; cbn in *. destruct E as [[-> ->]|(raw & m & -> & V & Al & Se)].
      * apply H_first. * eapply H_upd; eauto. destruct Se as [Se|[Se|Se]]; auto; discriminate.
    + unfold Core. cb. repeat split; auto.
      * intros o e X. destruct s; cbn [upd_mon] in X; cb; try discriminate; try destruct (mode c); try discriminate; destruct (st_eqb (state c) Active); discriminate.
      * intros m X. unfold initial. cbn [h_may]. destruct s; cbn [upd_mon] in X; cb; try discriminate; try destruct (mode c); try discriminate; try (destruct (st_eqb (state c) Active); discriminate); now inversion X.
      * destruct s; cbn [upd_mon]; try (destruct (mode c)); try (destruct (st_eqb (state c) Active));
          try (apply T_busy; cb; eauto; fail); apply T_lost; cb; cbn; auto.
  - (* init_send *)
    split; [exact D|split; [exact B|]]. cb. exists (hmay h None). split.
    + econstructor; [exact Hh|]. destruct K as (_ & _ & _ & K & _). specialize (K m H). destruct h; cbn in *. subst. apply H_mon. now apply wire_encodes.
    + destruct K as (H4 & H5 & H6 & H7 & H8). unfold Core, merr_ok. cb. repeat split; auto; try (intros; discriminate).
      inversion H8; try (rewrite H in *; cbn in *; contradiction); try congruence. apply T_busy; cb; auto.
  - split; [exact D|split; [exact B|]]. cb. exists h. split; auto.
    destruct K as (H4 & H5 & H6 & H7 & H8). unfold Core, merr_ok. cb. repeat split; auto; try (intros; discriminate).
    inversion H8; try (rewrite H in *; cbn in *; contradiction); try congruence. apply T_busy; cb; auto.
  - (* est *)
    destruct (broadcast_fields (set_dial DOk c)) as (F0 & F0' & _ & F1 & _ & _ & _ & _ & _ & F2 & F2' & F3 & F4 & F4' & _ & _ & _ & _ & _ & F5).
    split; [cb; rewrite F4'; exact D|split; [|]].
    + cb. rewrite F0', F2'. destruct (hb c); auto.
    + exists h. cb. rewrite F0, F0', F5. split; auto.
      destruct K as (H4 & H5 & H6 & H7 & H8). unfold Core, merr_ok. cb. rewrite F0', F1, F4. repeat split; auto; try (intros; discriminate).
      inversion H8; try (rewrite H in *; cbn in *; contradiction); try congruence. apply T_busy; cb; rewrite ?F3, ?F4; auto.
  - (* read *)
    split; [exact D|split; [exact B|]]. cb.
    destruct K as (H4 & H5 & H6 & H7 & H8).
    inversion H8 as [A B' D' E|s' A B' D' E|A B' D' E|pre l raw A B' D' E F G|A B' D']; try (rewrite H in *; cbn in *; contradiction); try congruence.
    set (raw := firstn bufsize p). exists (mkH (Some (Some raw)) (S (h_n h)) (h_cur h) (h_cl h) false None). split.
    + econstructor; [exact Hh|]. destruct h; cbn in *. subst. apply H_read.
    + unfold Core. cb. rewrite app_length, H5. cbn [length h_n]. repeat split; auto; try (intros; discriminate); try lia.
      eapply T_hand with (pre := hs c) (l := [IParse raw]); cb; auto; try discriminate.
      * exact Logic.I. * reflexivity. * apply F_parse. split; reflexivity.
  - (* read_fail *)
    split; [exact D|split; [exact B|]]. cb. exists h. split; auto.
    destruct K as (H4 & H5 & H6 & H7 & H8). unfold Core, merr_ok. cb. repeat split; auto; try (intros; discriminate).
    inversion H8; try (rewrite H in *; cbn in *; contradiction); try congruence. apply T_lost; cb; cbn; auto.
  - (* mclose *)
    destruct (broadcast_fields (closing c)) as (F0 & F0' & _ & F1 & _ & _ & _ & _ & _ & F2 & F2' & F3 & F4 & F4' & _ & _ & _ & _ & _ & F5).
    apply Inv_close in I. clear D B h Hh K. getinv I.
    split; [cb; rewrite F4'; exact D|split; [|]].
    + cb. rewrite F0', F2'. destruct (hb (closing c)); auto.
    + exists h. cb. rewrite F0, F0', F5. split; auto.
      destruct (closing_fields c) as (_ & _ & _ & _ & _ & _ & _ & _ & _ & F6 & _).
      eapply (Core_idle (closing c)); eauto; cb; auto; rewrite ?F6, ?H; try exact Logic.I; try reflexivity. intros; discriminate.
  - (* monctx *)
    split; [exact D|split; [exact B|]]. exists h. split; auto.
    eapply (Core_idle c); eauto; cb; rewrite ?H; try exact Logic.I; try reflexivity. intros; discriminate.
  - (* parse *)
    split; [exact D|split; [exact B|]]. hand0 h.
    intros raw' Hd O Hi Fp. right. destruct (for_packet_inv _ _ _ _ _ _ Fp) as (-> & -> & Fr). now apply F_sig.
  - split; [exact D|split; [exact B|]]. hand0 h. auto.
  - split; [exact D|split; [exact B|]]. hand0 h. auto.
  - (* version *)
    split; [exact D|split; [exact B|]]. hand0 h.
    intros raw' Hd O Hi Fp. right. destruct (for_packet_inv _ _ _ _ _ _ Fp) as (P & -> & Fr). now apply F_ver.
  - split; [exact D|split; [exact B|]]. hand0 h.
    intros raw' Hd O Hi Fp. right. destruct (for_packet_inv _ _ _ _ _ _ Fp) as (P & -> & Fr).
    apply F_body with m; [split; auto|]. replace l with (snd (plan m)) by now rewrite H2. now apply B_start.
  - destruct (plan_data _ _ _ H2) as (_ & _ & _ & Kd).
    split; [apply dok_app; [exact D|intros; exact Kd]|split; [exact B|]]. hand0 h.
    intros raw' Hd O Hi Fp. right. destruct (for_packet_inv _ _ _ _ _ _ Fp) as (P & -> & Fr).
    apply F_body with m; [split; auto|]. replace l with (snd (plan m)) by now rewrite H2. now apply B_start.
  - (* handle *)
    split; [exact D|split; [exact B|]]. hand0 h.
    intros raw' Hd O Hi Fp. right. destruct (for_packet_inv _ _ _ _ _ _ Fp) as (V & P & Fr).
    eapply F_body; eauto. eapply B_next; eauto. right; right. exists (state c). rewrite O. split; [apply observed_seen|].
    rewrite <- O. destruct (plan_handle_kind _ _ _ P) as [N1 N2].
    pose proof (handle_reacts (cfg c) (hbd c) (state c) m) as HR. rewrite H1 in HR. apply HR; auto.
    rewrite O. eapply seen_ranged; eauto using observed_seen.
  - split; [exact D|split; [exact B|]]. hand0 h.
    intros raw' Hd O Hi Fp. right. destruct (for_packet_inv _ _ _ _ _ _ Fp) as (V & P & Fr).
    eapply F_body; eauto. eapply B_err; eauto. exists (state c). rewrite O. split; [apply observed_seen|]. left.
    rewrite <- O. destruct (plan_handle_kind _ _ _ P) as [N1 N2].
    pose proof (handle_reacts (cfg c) (hbd c) (state c) m) as HR. rewrite H1 in HR. apply HR; auto.
    rewrite O. eapply seen_ranged; eauto using observed_seen.
  - split; [exact D|split; [exact B|]]. hand0 h.
    intros raw' Hd O Hi Fp. right. destruct (for_packet_inv _ _ _ _ _ _ Fp) as (V & P & Fr).
    eapply F_body; eauto. eapply B_write with (s := state c); eauto; [rewrite O; apply observed_seen|].
    destruct (plan_handle_kind _ _ _ P) as [N1 N2].
    pose proof (handle_reacts (cfg c) (hbd c) (state c) m) as HR. rewrite H1 in HR. apply HR; auto.
    rewrite O. eapply seen_ranged; eauto using observed_seen.
  - (* hwrite *)
    split; [exact D|split; [exact B|]].
    destruct K as (K1 & K2 & K3 & K4 & K5).
    destruct (token_hand _ _ _ _ _ K5 H) as (pre & raw & Q1 & Q2 & Q3 & Q4 & Q5 & Q6 & Q7).
    destruct (for_packet_inv _ _ _ _ _ _ Q7) as (t & s & V & P & Fr & Se & Re).
    assert (Hn : h_n h = S i) by (rewrite K2, Q2, app_length, Q4; cbn; lia).
    exists (mkH (h_due h) (h_n h) (h_cur h) (h_cl h) true (h_may h)). split.
    + cb. econstructor; [exact Hh|]. destruct Fr as [Fr _]. destruct h as [d n cur cl out may]. cbn [h_due h_n h_cur h_cl h_out h_may] in *. subst out d n.
      rewrite Hn in *. eapply H_reply; eauto. now apply wire_encodes.
    + eapply Core_hand with (h := h); [repeat split; eassumption|eassumption|reflexivity|reflexivity|reflexivity|cb; reflexivity|reflexivity|reflexivity|reflexivity|reflexivity| |].
      * intros o e E. specialize (K3 o e E). destruct o; auto. destruct Fr as [_ Fr]. rewrite E in Fr. discriminate.
      * intros raw' Hd O Hi Fp. right. rewrite Q6 in Hd. inversion Hd; subst raw'.
        eapply F_body; eauto. eapply B_next; eauto. left. reflexivity.
  - split; [exact D|split; [exact B|]]. hand0 h.
    intros raw' Hd O Hi Fp. right. destruct (for_packet_inv _ _ _ _ _ _ Fp) as (t & s & V & P & Fr & Se & Re).
    eapply F_body; eauto. eapply B_err; eauto. exists s. split; auto. right. eauto.
  - (* herr *)
    split; [exact D|split; [exact B|]]. exists h. split; auto.
    destruct K as (K1 & K2 & K3 & K4 & K5).
    destruct (token_hand _ _ _ _ _ K5 H) as (pre & raw & Q1 & Q2 & Q3 & Q4 & Q5 & Q6 & Q7).
    destruct (for_packet_inv _ _ _ _ _ _ Q7) as (Fr & J & Hk).
    assert (Hn : S i = h_n h) by (rewrite K2, Q2, app_length, Q4; cbn; lia).
    unfold Core. cb. rewrite upd_len. repeat split; auto.
    + intros o e' E. cb. inversion E; subst. destruct Fr. eauto 6.
    + intros; discriminate.
    + destruct Hk as [->|(m & y & V & P)].
      * apply T_lost; cb; auto. rewrite Q2, Q4, upd_last. apply dead_app; auto using dead_one. exact Logic.I.
      * destruct k as [|z k']; [apply T_lost; cb; auto; [rewrite Q2, Q4, upd_last; apply dead_app; auto using dead_one|exact Logic.I]|].
        eapply T_hand with (l := z :: k'); cb; auto.
        -- rewrite Q2, Q4, upd_last. reflexivity. -- auto. -- discriminate. -- exact Logic.I. -- eauto.
        -- eapply F_body; eauto. eapply B_next; eauto. right; left. reflexivity.
  - (* beatack *)
    split; [exact D|split; [cb; rewrite H1 in B; exact B|]]. hand0 h.
    intros raw' Hd O Hi Fp. destruct (for_packet_inv _ _ _ _ _ _ Fp) as (-> & t & V & Kt & Se).
    right. eapply F_body; eauto. eapply B_acked; eauto. unfold plan. rewrite Kt. reflexivity.
  - (* cur *)
    split; [exact D|split; [exact B|]]. hand0 h.
    intros raw' Hd O Hi Fp. destruct (for_packet_inv _ _ _ _ _ _ Fp) as (-> & m & V & N & Se).
    right. eapply F_body; eauto. eapply B_st.
    + right. split; auto. rewrite O. apply observed_seen.
    + destruct Se as [Se|(Fr & t & -> & Kt)]; auto. right; right. exists (state c). rewrite O. split; [apply observed_seen|].
      apply RC_silent. unfold silent_table. rewrite Kt.
      destruct (seen_ranged _ _ _ _ _ Hh (observed_seen h)) as [->|[->| ->]]; cbn; auto.
  - (* st *)
    split; [exact D|split; [exact B|]]. exists h. split; auto.
    destruct K as (K1 & K2 & K3 & K4 & K5).
    destruct (token_hand _ _ _ _ _ K5 H) as (pre & raw & Q1 & Q2 & Q3 & Q4 & Q5 & Q6 & Q7).
    destruct (for_packet_inv _ _ _ _ _ _ Q7) as (-> & m & V & A & Se).
    unfold Core. cb. rewrite upd_len. repeat split; auto; try (intros; discriminate).
    eapply T_upd; cb; auto.
    + rewrite Q2, Q4, upd_last. apply dead_app; auto using dead_one.
    + right. exists raw, m. repeat split; auto; try apply V. rewrite H0 in Se. exact Se.
  - (* data *)
    frame. apply dok_upd; auto. exact (D _ _ H).
  - frame. apply dok_upd; auto. constructor. exact (D _ _ H).
  - (* derr *)
    split; [cb; apply dok_upd; [auto|exact Logic.I]|split; [exact B|]]. exists h. split; auto.
    eapply (Core_idle c); eauto; cb; rewrite ?H0; try exact Logic.I; try reflexivity.
    intros o e' E. inversion E; subst. exact (D _ _ H).
  - frame. apply dok_upd; auto. exact Logic.I.
  - frame. apply dok_upd; auto. constructor.
  - frame. apply dok_upd; auto. exact Logic.I.
  - frame. apply dok_upd; auto. exact Logic.I.
  - (* heartbeat *)
    frame. destruct (hb_on (cfg c)) eqn:E; cbn; auto.
  - frame. constructor. cbn; auto.
  - rewrite H in B. eapply Inv_frame; [eassumption|destruct (hba c); reflexivity..| | |]; destruct (hba c); cb; cbn [bok] in *; auto.
  - rewrite H in B. frame. right. eexists. split; [reflexivity|]. intros h'. apply H_beat; try apply B. now apply wire_encodes.
    apply B.
  - frame. constructor. cbn; auto.
  - rewrite H in B. frame.
  - (* hb_err *)
    split; [exact D|split; [exact Logic.I|]]. exists h. split; auto.
    eapply (Core_idle c); eauto; cb; rewrite ?H0; try exact Logic.I; try reflexivity.
    intros o e' E. inversion E; subst. rewrite H in B. exact B.
  - frame. constructor. cbn; auto.
  - rewrite H in B. frame.
  - frame. right. eexists. split; [reflexivity|]. intros. apply H_user. now apply wire_encodes.
  - eapply Inv_frame; [apply Inv_close; eassumption|try reflexivity..| | |]; cb; auto.
    + intros i0 d. destruct (closing_fields c) as (_ & _ & _ & _ & _ & _ & _ & _ & _ & _ & _ & _ & _ & -> & _). apply D.
    + destruct (closing_fields c) as (_ & -> & _ & _ & _ & _ & _ & _ & _ & _ & -> & _). exact B.
  - frame. right. eexists. split; [reflexivity|]. intros. apply H_deliver.
  - frame. right. eexists. split; [reflexivity|]. intros. apply H_user. eexists; eauto.
  - discriminate C'.
Qed.

Definition reachable (c : conn) : Prop := exists m g o ls, run (start m g o) ls = Some c.

Lemma stepR_crash c l c' : stepR c l c' -> crash c = None ->
  crash c' = None \/ exists p es, panics c p /\ (es = [] \/ es = [EClosed] \/ exists o e, mon c = MErr o e /\ es = [ERefused o e]) /\
    c' = set_crash (Some p) (set_log (log c ++ es) c).
Proof.
  intros S C. destruct S; cb; auto; try (right; eauto; fail).
  - rewrite state_update_eq. auto.
  - left. now destruct (broadcast_fields (set_dial DOk c)) as (_ & _ & _ & _ & _ & _ & _ & _ & _ & _ & _ & _ & _ & _ & _ & _ & _ & _ & -> & _).
  - left. destruct (broadcast_fields (closing c)) as (_ & _ & _ & _ & _ & _ & _ & _ & _ & _ & _ & _ & _ & _ & _ & _ & _ & _ & -> & _).
    now destruct (closing_fields c) as (_ & _ & _ & _ & _ & _ & _ & _ & _ & _ & _ & _ & _ & _ & _ & _ & _ & _ & -> & _).
  - left. destruct (hba c); auto.
  - left. now destruct (closing_fields c) as (_ & _ & _ & _ & _ & _ & _ & _ & _ & _ & _ & _ & _ & _ & _ & _ & _ & _ & -> & _).
Qed.

Lemma Inv_log_crash c es : Inv c -> (es = [] \/ es = [EClosed] \/ exists o e, mon c = MErr o e /\ es = [ERefused o e]) ->
  exists h, history (mode c) (cfg c) (log c ++ es) h.
Proof.
  intros (D & B & h & H1 & K) [->|[->|(o & e & E & ->)]].
  - rewrite app_nil_r. eauto.
  - eexists. econstructor; eauto using hclose_next.
  - eexists. econstructor; [exact H1|]. eapply refuse_next with (may := None); eauto; [apply K|]. discriminate.
Qed.

(** when the process has crashed, the log is still a trace *)
Definition Inv' (c : conn) : Prop :=
  (crash c = None /\ Inv c) \/ (crash c <> None /\ exists h, history (mode c) (cfg c) (log c) h).
Lemma Inv'_step a l b : Inv' a -> crash a = None -> stepR a l b -> Inv' b.
Proof.
  intros [[C I]|[C _]] C0 S; [|contradiction].
  destruct (stepR_crash _ _ _ S C) as [C'|(p & es & _ & Hes & ->)].
  - left. split; auto. eapply Inv_step; eauto.
  - right. cb. split; [discriminate|]. eapply Inv_log_crash; eauto.
Qed.
Lemma Inv'_reachable c : reachable c -> Inv' c.
Proof.
  intros (m & g & o & ls & R).
  refine (run_inv_all Inv' Inv'_step ls (start m g o) c _ R).
  left. split; [reflexivity|apply Inv_start].
Qed.
Lemma Inv_reachable c : reachable c -> crash c = None -> Inv c.
Proof. intros R C. destruct (Inv'_reachable c R) as [[_ I]|[H _]]; auto; contradiction. Qed.
Lemma trace_reachable c : reachable c -> exists h, history (mode c) (cfg c) (log c) h.
Proof. intros R. destruct (Inv'_reachable c R) as [[_ (_ & _ & h & H & _)]|[_ H]]; eauto. Qed.
