(** Consequences of the trace specification of ConnSpec.v. *)
From Verif Require Import GoBase BaseProofs ParamsModel MessagesModel MessagesProofs MessagesProofs2 ConfigModel
  ConnModel ConnSpec ConnBase ConnInv.
From Coq Require Import Arith Lia.
Open Scope nat_scope.

Lemma delivered_app a b : delivered (a ++ b) = delivered a ++ delivered b.
Proof. apply flat_map_app. Qed.

(** a history can be cut anywhere *)
Lemma history_cut mo g l : forall h, history mo g l h -> forall a b, l = a ++ b ->
  exists ha, history mo g a ha.
Proof.
  intros h H. induction H as [|l h e h' H IH S]; intros a b E.
  - destruct a; [|discriminate]. exists h0. constructor.
  - destruct b as [|x b] using rev_ind.
    + rewrite app_nil_r in E. subst a. exists h'. econstructor; eauto.
    + rewrite app_assoc in E. apply app_inj_tail in E. destruct E as [-> ->]. eapply IH; eauto.
Qed.
Lemma history_snoc mo g l e h : history mo g (l ++ [e]) h -> exists h1, history mo g l h1 /\ hnext mo g h1 e h.
Proof.
  intros H. remember (l ++ [e]) as k eqn:E. destruct H as [|l' h1 e' h' H S].
  - destruct l; discriminate.
  - apply app_inj_tail in E. destruct E as [-> ->]. eauto.
Qed.
Lemma history_split mo g l h a e b : history mo g l h -> l = a ++ e :: b ->
  exists ha he, history mo g a ha /\ hnext mo g ha e he /\ history mo g (a ++ [e]) he.
Proof.
  intros H ->. assert (X : a ++ e :: b = (a ++ [e]) ++ b) by now rewrite <- app_assoc.
  destruct (history_cut _ _ _ _ H _ _ X) as [he He].
  destruct (history_snoc _ _ _ _ _ He) as (h1 & H1 & S). exists h1, he. auto.
Qed.
(** a run of the automaton from a given point *)
Inductive hrun (mo : cmode) (g : config) : hstate -> list event -> hstate -> Prop :=
| R_nil h : hrun mo g h [] h
| R_snoc h l h1 e h' : hrun mo g h l h1 -> hnext mo g h1 e h' -> hrun mo g h (l ++ [e]) h'.
Lemma history_hrun mo g l h : history mo g l h -> forall a b, l = a ++ b ->
  exists ha, history mo g a ha /\ hrun mo g ha b h.
Proof.
  intros H. induction H as [|l h e h' H IH S]; intros a b E.
  - destruct a; [|discriminate]. cbn in E. subst b. exists h0. split; constructor.
  - destruct b as [|x b _] using rev_ind.
    + rewrite app_nil_r in E. subst a. exists h'. split; [econstructor; eauto|constructor].
    + rewrite app_assoc in E. apply app_inj_tail in E. destruct E as [-> ->].
      destruct (IH a b eq_refl) as (ha & A & B). exists ha. split; auto. econstructor; eauto.
Qed.

(** ** Updates explained by packets *)
Lemma explains_snoc cl p rs ss raw s : explains cl p rs ss -> forall m, valid raw m ->
  (names m = Some s \/ (names m = None /\ (s = last ss p \/ (cl = true /\ s = Down)))) ->
  explains cl p (rs ++ [raw]) (ss ++ [s]).
Proof.
  intros H. induction H as [p|p raw' m' s' rs ss V A H IH]; intros m Vm Al; cbn [app].
  - econstructor; eauto. constructor.
  - econstructor; eauto. eapply IH; eauto. destruct Al as [?|[? [L|?]]]; auto. right. split; auto. left.
    rewrite L. destruct ss as [|x ss]; [reflexivity|]. change (last (s' :: x :: ss) p) with (last (x :: ss) p).
    clear. revert x. induction ss as [|y ss IHs]; intros x; [reflexivity|]. apply IHs.
Qed.
Lemma explains_mono cl p rs ss : explains cl p rs ss -> explains true p rs ss.
Proof. intros H. induction H; econstructor; eauto. destruct H0 as [?|[? [?|[_ ?]]]]; auto. Qed.
Lemma explains_len cl p rs ss : explains cl p rs ss -> length rs = length ss.
Proof. intros H. induction H; cbn; auto. Qed.

Lemma closes_app a b : closes (a ++ b) = closes a || closes b.
Proof. apply existsb_app. Qed.

Lemma history_explains mo g l h : history mo g l h ->
  (h_cl h = true -> closes l = true) /\
  match h_due h with
  | Some None => l = l /\ reads l = [] /\ updates l = [] /\ h_cur h = Down
  | Some (Some raw) => exists rs ss, reads l = rs ++ [raw] /\ updates l = Down :: ss /\
      explains (closes l) Down rs ss /\ h_cur h = last ss Down
  | None => exists ss, updates l = Down :: ss /\ explains (closes l) Down (reads l) ss /\ h_cur h = last ss Down
  end.
Proof.
  intros H. induction H as [|l h e h' H IH S].
  - cbn. repeat split; auto.
  - rewrite reads_app, updates_app, closes_app.
    destruct IH as [C IH]. destruct S; cbn [h_due h_cl h_cur] in *; cbn [reads updates closes flat_map existsb app];
      rewrite ?app_nil_r, ?orb_false_r; try (split; [now auto|]); auto.
    + destruct IH as (_ & R & U & _). rewrite R, U. exists []. repeat split. constructor.
    + destruct IH as (rs & ss & R & U & E & L). exists (ss ++ [s]). rewrite U, R. repeat split.
      * eapply explains_snoc; eauto. repeat match goal with x := _ |- _ => subst x end.
        match goal with A : allowed _ _ _ |- _ => destruct A as [?|[? [Q|[Q ?]]]]; auto; cbn in Q end.
        -- right. split; auto. left. now rewrite Q. -- right. split; auto.
      * now rewrite last_last.
    + destruct IH as (ss & U & E & L). exists (reads l), ss. auto.
    + split; [intros; apply orb_true_r|]. rewrite orb_true_r. destruct d as [[raw|]|].
      * destruct IH as (rs & ss & R & U & E & L). exists rs, ss. repeat split; auto. eapply explains_mono; eauto.
      * destruct IH as (_ & R & U & L). auto.
      * destruct IH as (ss & U & E & L). exists ss. repeat split; auto. eapply explains_mono; eauto.
    + destruct d as [[raw|]|]; auto. destruct IH as (_ & IH). auto.
    + destruct d as [[raw|]|]; auto. destruct IH as (_ & IH). auto.
    + destruct (h_due h) as [[raw|]|]; auto. destruct IH as (_ & IH). auto.
    + destruct (h_due h) as [[raw|]|]; auto. destruct IH as (_ & IH). auto.
    + destruct (h_due h) as [[raw|]|]; auto. destruct IH as (_ & IH). auto.
Qed.

Lemma explained_reachable c : reachable c ->
  (updates (log c) = [] /\ reads (log c) = []) \/
  exists ss rs rest, updates (log c) = Down :: ss /\ reads (log c) = rs ++ rest /\ length rest <= 1 /\
    explains (closes (log c)) Down rs ss.
Proof.
  intros R. destruct (trace_reachable c R) as [h H]. destruct (history_explains _ _ _ _ H) as [_ E].
  destruct (h_due h) as [[raw|]|].
  - destruct E as (rs & ss & E1 & E2 & E3 & _). right. exists ss, rs, [raw]. auto.
  - left. intuition.
  - destruct E as (ss & E1 & E2 & _). right. exists ss, (reads (log c)), []. rewrite app_nil_r. auto.
Qed.

(** a packet that is not valid is the last one read *)
Lemma explains_valid cl p rs ss : explains cl p rs ss -> Forall (fun raw => exists m, valid raw m) rs.
Proof. intros H. induction H; constructor; eauto. Qed.
Lemma invalid_last c a raw b : reachable c -> reads (log c) = a ++ raw :: b -> (forall m, ~ valid raw m) -> b = [].
Proof.
  intros R E V. destruct (explained_reachable c R) as [[_ Z]|(ss & rs & rest & _ & E2 & L & X)].
  - rewrite Z in E. now destruct a.
  - rewrite E2 in E. apply explains_valid in X. destruct b as [|y b]; auto. exfalso.
    assert (In raw rs).
    { destruct rest as [|r [|]]; cbn in L; try lia.
      - rewrite app_nil_r in E. subst rs. apply in_or_app; cbn; auto.
      - assert (F : exists z, y :: b = z ++ [last (y :: b) y]).
        { exists (removelast (y :: b)). apply app_removelast_last. discriminate. }
        destruct F as [z F]. rewrite F in E. change (raw :: z ++ [last (y :: b) y]) with ((raw :: z) ++ [last (y :: b) y]) in E.
        rewrite app_assoc in E. apply app_inj_tail in E. destruct E as [-> _]. apply in_or_app; cbn; auto. }
    rewrite Forall_forall in X. destruct (X _ H) as [m M]. exact (V m M).
Qed.

(** between two consecutive packets there is exactly one update, caused by the first *)
Lemma hrun_reads0 mo g h l h' : hrun mo g h l h' -> reads l = [] -> forall raw, h_due h = Some (Some raw) ->
  (updates l = [] /\ h_due h' = Some (Some raw) /\ h_cur h' = h_cur h /\ h_n h' = h_n h) \/
  (exists s m, updates l = [s] /\ h_due h' = None /\ h_cur h' = s /\ valid raw m /\ h_n h' = h_n h /\
     (names m = Some s \/ (names m = None /\ (s = h_cur h \/ s = Down)))).
Proof.
  intros R. induction R as [h|h l h1 e h' R IH S]; intros E raw D.
  - left. auto.
  - rewrite reads_app in E. apply app_eq_nil in E. destruct E as [E1 E2]. rewrite updates_app.
    destruct (IH E1 raw D) as [(U & D1 & C1 & N1)|(s & m & U & D1 & C1 & V & N1 & A)].
    + rewrite U. destruct S; cbn [h_due h_cur h_n] in *; cbn [updates flat_map app] in *; try discriminate; auto.
      repeat match goal with x := _ |- _ => subst x end.
      right. inversion D1; subst. exists s, m. repeat split; auto; try apply H.
      match goal with A : allowed _ _ _ |- _ => destruct A as [?|[? [Q|[_ Q]]]]; auto; cbn in Q end.
      right. split; auto. left. cbn in C1. now rewrite Q.
    + rewrite U. right. exists s, m. destruct S; cbn [h_due h_cur h_n] in *; cbn [updates reads flat_map app] in *; try discriminate; auto 10.
Qed.
Lemma between_reads c l1 raw l2 raw' l3 : reachable c -> log c = l1 ++ ERead raw :: l2 ++ ERead raw' :: l3 ->
  reads l2 = [] -> exists s m, updates l2 = [s] /\ valid raw m /\
    (names m = Some s \/ (names m = None /\ (Some s = hd_error (rev (updates l1)) \/ s = Down))).
Proof.
  intros R E Z. destruct (trace_reachable c R) as [h H].
  destruct (history_hrun _ _ _ _ H ((l1 ++ [ERead raw]) ++ l2) (ERead raw' :: l3)) as (h2 & H2 & R2).
  { rewrite E, <- !app_assoc. reflexivity. }
  destruct (history_hrun _ _ _ _ H2 _ _ eq_refl) as (h1 & H1 & R1).
  assert (D1 : h_due h1 = Some (Some raw)).
  { destruct (history_snoc _ _ _ _ _ H1) as (hx & _ & S). inversion S; subst; reflexivity. }
  assert (D2 : h_due h2 = None).
  { destruct (history_split _ _ _ _ ((l1 ++ [ERead raw]) ++ l2) (ERead raw') l3 H) as (ha & he & Ha & S & _).
    { rewrite E, <- !app_assoc. reflexivity. }
    (* h2 need not be ha; use the run *)
    destruct (hrun_reads0 _ _ _ _ _ R1 Z raw D1) as [(U & D2 & _)|(s & m & _ & D2 & _)]; auto. exfalso.
    pose proof (history_n _ _ _ _ Ha) as (_ & _ & _).
    destruct (history_explains _ _ _ _ Ha) as [_ Xa]. destruct (history_explains _ _ _ _ H2) as [_ X2].
    assert (Da : h_due ha = None) by (inversion S; reflexivity). rewrite Da in Xa. rewrite D2 in X2.
    destruct Xa as (ssa & Ua & Ea & _). destruct X2 as (rs & ss & R2' & U2 & E2 & _).
    apply explains_len in Ea. apply explains_len in E2. rewrite U2 in Ua. inversion Ua; subst. rewrite R2', app_length in Ea. cbn in Ea. lia. }
  destruct (hrun_reads0 _ _ _ _ _ R1 Z raw D1) as [(U & D & _)|(s & m & U & D & C & V & N & A)]; [congruence|].
  exists s, m. repeat split; auto; try apply V. destruct A as [A|[A [B|B]]]; auto. right. split; auto. left.
  destruct (history_explains _ _ _ _ H1) as [_ X]. rewrite D1 in X. destruct X as (rs & ss & _ & U1 & _ & L).
  rewrite updates_app in U1. cbn in U1. rewrite app_nil_r in U1. rewrite U1, B, L.
  destruct ss as [|x ss _] using rev_ind; [reflexivity|]. rewrite last_last. cbn [rev]. rewrite rev_app_distr. reflexivity.
Qed.
(** the update after a packet *)
Lemma update_after_read c l1 raw l2 s l3 : reachable c -> log c = l1 ++ ERead raw :: l2 ++ EUpd s :: l3 ->
  reads l2 = [] -> updates l2 = [] -> exists m, valid raw m /\
    (names m = Some s \/ (names m = None /\ (Some s = hd_error (rev (updates l1)) \/ s = Down))).
Proof.
  intros R E Z Zu. destruct (trace_reachable c R) as [h H].
  destruct (history_hrun _ _ _ _ H ((l1 ++ [ERead raw]) ++ l2 ++ [EUpd s]) l3) as (h2 & H2 & R2).
  { rewrite E, <- !app_assoc. reflexivity. }
  destruct (history_hrun _ _ _ _ H2 _ _ eq_refl) as (h1 & H1 & R1).
  assert (D1 : h_due h1 = Some (Some raw)).
  { destruct (history_snoc _ _ _ _ _ H1) as (hx & _ & S). inversion S; subst; reflexivity. }
  assert (Zr : reads (l2 ++ [EUpd s]) = []) by (rewrite reads_app, Z; reflexivity).
  destruct (hrun_reads0 _ _ _ _ _ R1 Zr raw D1) as [(U & D & _)|(s' & m & U & D & C & V & N & A)];
    rewrite updates_app, Zu in U; cbn in U; [discriminate|]. inversion U; subst s'.
  exists m. split; auto. destruct A as [A|[A [B|B]]]; auto. right. split; auto. left.
  destruct (history_explains _ _ _ _ H1) as [_ X]. rewrite D1 in X. destruct X as (rs & ss & _ & U1 & _ & L).
  rewrite updates_app in U1. cbn in U1. rewrite app_nil_r in U1. rewrite U1, B, L.
  destruct ss as [|x ss _] using rev_ind; [reflexivity|]. rewrite last_last. cbn [rev]. rewrite rev_app_distr. reflexivity.
Qed.

(** ** Octets *)
Lemma encodes_hdr m b : encodes m b -> nth 2 b x00 = h_class (hdr_of m) /\ nth 3 b x00 = h_type (hdr_of m).
Proof.
  intros [m' H]. destruct m as [t|t].
  - rewrite msg_MarshalBinary_ok in H. inversion H. auto.
  - rewrite gen_MarshalBinary_ok in H. inversion H. auto.
Qed.
Lemma encodes_octets m b : encodes m b -> octets b = (b2n (h_class (hdr_of m)), b2n (h_type (hdr_of m))).
Proof. intros H. unfold octets. now destruct (encodes_hdr _ _ H) as [-> ->]. Qed.
Lemma new_msg_octets k fs b : encodes (Typed (new_msg k fs)) b -> octets b = (b2n (kind_class k), b2n (kind_type k)).
Proof. intros H. now rewrite (encodes_octets _ _ H). Qed.
Lemma Parse_hdr raw t : Parse raw = Ok (Typed t) -> h_class (m_hdr t) = nth 2 raw x00.
Proof.
  unfold Parse. destruct (length raw <? 4); [discriminate|].
  destruct (index raw 2) as [c|e|p]; [|discriminate|discriminate]. cbn [bind].
  destruct (index raw 3) as [y|e|p]; [|discriminate|discriminate]. cbn [bind].
  destruct (dispatch c y) as [k|]; [|destruct (gen_Unmarshal raw); discriminate].
  unfold msg_Unmarshal. destruct (Nat.lt_ge_cases (length raw) 8) as [L|L].
  - rewrite ParseHeader_short by exact L. discriminate.
  - rewrite (proj2 (Header_decoding raw) L). cbn [bind h_payload]. destruct (ParseMultiParams (skipn 8 raw)) as [ps|e|p]; [|discriminate|discriminate].
    cbn [bind]. destruct (assign_all k no_fields ps); [|discriminate|discriminate]. cbn [bind]. intros E. inversion E. reflexivity.
Qed.
Lemma answers_octets g e r b : answers g e r -> encodes r b -> octets b = (0, 0)%N.
Proof. intros A E. destruct A; exact (new_msg_octets _ _ _ E). Qed.
Lemma reply_octets g t l r raw b : reply_table g t = Some (l, r) -> Parse raw = Ok (Typed t) -> encodes r b ->
  Some (octets b) = ack_octets raw (m_kind t).
Proof.
  unfold reply_table. destruct (m_kind t) eqn:K; intros H P E; inversion H; subst; unfold ack_octets; f_equal.
  1,2,4,5: exact (new_msg_octets _ _ _ E).
  rewrite (encodes_octets _ _ E). cbn [beat_ack_of hdr_of m_hdr h_class h_type]. now rewrite (Parse_hdr _ _ P).
Qed.
Lemma beat_octets x b : encodes (beat x) b -> octets b = (3, 3)%N.
Proof. intros H. now rewrite (encodes_octets _ _ H). Qed.

(** ** At most one reply or error per packet *)
Definition count_about (i : nat) (l : list event) : nat := length (filter (about i) l).
Lemma count_about_snoc i l e : count_about i (l ++ [e]) = count_about i l + (if about i e then 1 else 0).
Proof. unfold count_about. rewrite filter_app, app_length. cbn. now destruct (about i e). Qed.
Lemma history_about mo g l h : history mo g l h -> forall i,
  count_about i l <= 1 /\ (h_n h <= i -> count_about i l = 0) /\ (S i = h_n h -> h_out h = false -> h_due h <> None -> count_about i l = 0).
Proof.
  intros H. induction H as [|l h e h' H IH S]; intros i; [cbn; lia|]. rewrite count_about_snoc.
  destruct (IH i) as (A & B & C).
  destruct S; cbn [h_n h_out h_due about] in *; repeat match goal with x := _ |- _ => subst x end; cbn [h_n h_out h_due] in *;
    try (rewrite ?Nat.add_0_r; repeat split; intros; try congruence; try lia; try (apply C; auto; discriminate); apply B; lia).
  - destruct (i =? n) eqn:E.
    + apply Nat.eqb_eq in E. subst. rewrite C by (auto; discriminate). repeat split; intros; try discriminate; lia.
    + repeat split; intros; try lia; try congruence; rewrite B; lia.
  - destruct (i =? n) eqn:E.
    + apply Nat.eqb_eq in E. subst. rewrite C by (auto; discriminate). repeat split; intros; try discriminate; lia.
    + repeat split; intros; try lia; try congruence; rewrite B; lia.
  - destruct o; try (match goal with O : other_error _ _ |- _ => inversion O; fail end);
      rewrite ?Nat.add_0_r; auto.
Qed.

(** the reply of a packet goroutine *)
Lemma reply_justified c l1 i s r b l2 : reachable c -> log c = l1 ++ ESend (OHand i) s r b :: l2 ->
  s = 0%N /\ encodes r b /\ length (reads l1) = S i /\
  exists raw t sts, nth_error (reads l1) i = Some raw /\ valid raw (Typed t) /\
    reply_table (cfg c) t = Some (sts, r) /\ Some (octets b) = ack_octets raw (m_kind t) /\
    (In (current l1) sts \/ (closes l1 = true /\ In Down sts)).
Proof.
  intros R E. destruct (trace_reachable c R) as [h H].
  destruct (history_split _ _ _ _ _ _ _ H E) as (ha & he & Ha & S & _).
  destruct (history_n _ _ _ _ Ha) as (N1 & N2 & _). destruct (history_explains _ _ _ _ Ha) as [C X].
  inversion S; subst; repeat match goal with x := _ |- _ => subst x end.
  match goal with A : valid _ _, B : seen _ _, K : reacts _ _ _ _ |- _ => rename A into Va, B into Sn, K into Rc end.
  unfold seen in Sn. cbn [h_n h_due h_cur h_cl] in *. destruct (N2 raw eq_refl) as [q Q].
  assert (Li : length q = i) by (rewrite Q, app_length in N1; cbn in N1; lia).
  split; [reflexivity|]. split; [assumption|]. split; [now rewrite <- N1|].
  inversion Rc; subst. exists raw, t, l. split.
  { rewrite Q, nth_error_app2, Nat.sub_diag by lia. reflexivity. }
  split; [assumption|]. split; [assumption|]. split; [eapply reply_octets; eauto; apply Va|].
  destruct X as (rs & ss & _ & U & _ & L). unfold current. rewrite U.
  assert (Lc : last (Down :: ss) Down = cur) by (rewrite L; now destruct ss).
  rewrite Lc. destruct Sn as [->|[K ->]]; [left; assumption|]. right. split; auto.
Qed.

(** what the monitor sends *)
Lemma history_may mo g l h : history mo g l h -> forall r, h_may h = Some r ->
  (exists l0 s l1, l = l0 ++ EUpd s :: l1 /\ initial mo g s = Some r /\ forallb quiet l1 = true) \/
  (exists l0 o e l1, l = l0 ++ ERefused o e :: l1 /\ answers g e r /\ forallb quiet l1 = true).
Proof.
  intros H. induction H as [|l h e h' H IH S]; intros r M; [discriminate|].
  assert (Q : quiet e = true -> h_may h = Some r ->
    (exists l0 s l1, l ++ [e] = l0 ++ EUpd s :: l1 /\ initial mo g s = Some r /\ forallb quiet l1 = true) \/
    (exists l0 o x l1, l ++ [e] = l0 ++ ERefused o x :: l1 /\ answers g x r /\ forallb quiet l1 = true)).
  { intros Qe M'. destruct (IH r M') as [(l0 & s & l1 & -> & A & B)|(l0 & o & x & l1 & -> & A & B)]; [left|right].
    - exists l0, s, (l1 ++ [e]). rewrite <- app_assoc. repeat split; auto. rewrite forallb_app, B. cbn. now rewrite Qe.
    - exists l0, o, x, (l1 ++ [e]). rewrite <- app_assoc. repeat split; auto. rewrite forallb_app, B. cbn. now rewrite Qe. }
  destruct S; cbn [h_may] in *; try (apply Q; auto; fail); try discriminate.
  - left. exists l, Down, []. auto.
  - left. exists l, s, []. auto.
  - right. exists l, (OHand n), e, []. auto.
  - right. exists l, o, e, []. auto.
Qed.
Lemma mon_sends c l1 s r b l2 : reachable c -> log c = l1 ++ ESend OMon s r b :: l2 ->
  s = 0%N /\ encodes r b /\
  ((exists l0 x l3, l1 = l0 ++ EUpd x :: l3 /\ initial (mode c) (cfg c) x = Some r /\ forallb quiet l3 = true) \/
   (exists l0 o e l3, l1 = l0 ++ ERefused o e :: l3 /\ answers (cfg c) e r /\ forallb quiet l3 = true)).
Proof.
  intros R E. destruct (trace_reachable c R) as [h H].
  destruct (history_split _ _ _ _ _ _ _ H E) as (ha & he & Ha & S & _).
  inversion S; subst. split; [reflexivity|]. split; [assumption|]. eapply history_may; eauto.
Qed.
(** nobody but a client sends ASP Up and ASP Active *)
Lemma handshake_sends c l1 o s m b l2 : reachable c -> log c = l1 ++ ESend o s m b :: l2 -> by_user o = false ->
  octets b = (3, 1)%N \/ octets b = (4, 1)%N ->
  o = OMon /\ mode c = Client /\ s = 0%N /\
  exists l0 x l3, l1 = l0 ++ EUpd x :: l3 /\ forallb quiet l3 = true /\
    ((octets b = (3, 1)%N /\ x = Down /\ m = Typed (NewAspUp (cf_aspid (cfg c)) None)) \/
     (octets b = (4, 1)%N /\ x = Inactive /\ m = Typed (NewAspActive (cf_tmt (cfg c)) (cf_rc (cfg c)) None))).
Proof.
  intros R E U O. destruct o as [|i|i| |i]; try discriminate.
  - destruct (mon_sends _ _ _ _ _ _ R E) as (-> & En & [(l0 & x & l3 & -> & I & Q)|(l0 & o & e & l3 & -> & A & Q)]).
    + unfold initial in I. destruct (mode c), x; try discriminate; inversion I; subst m.
      * repeat split; auto. exists l0, Down, l3. repeat split; auto. left. repeat split. exact (new_msg_octets _ _ _ En).
      * repeat split; auto. exists l0, Inactive, l3. repeat split; auto. right. repeat split. exact (new_msg_octets _ _ _ En).
    + rewrite (answers_octets _ _ _ _ A En) in O. destruct O; discriminate.
  - destruct (reply_justified _ _ _ _ _ _ _ R E) as (_ & _ & _ & raw & t & sts & _ & _ & _ & K & _).
    exfalso. unfold ack_octets in K. destruct (m_kind t); try discriminate;
      apply (f_equal (fun x => match x with Some y => y | None => (0, 0)%N end)) in K; cbn beta iota in K; rewrite K in O;
      destruct O as [O|O]; inversion O.
  - destruct (trace_reachable c R) as [h H].
    destruct (history_split _ _ _ _ _ _ _ H E) as (ha & he & Ha & S & _). inversion S.
  - destruct (trace_reachable c R) as [h H].
    destruct (history_split _ _ _ _ _ _ _ H E) as (ha & he & Ha & S & _). inversion S; subst.
    match goal with B : encodes (beat _) _ |- _ => rewrite (beat_octets _ _ B) in O end. destruct O; discriminate.
Qed.

(** errors *)
Lemma refused_kinds c o e : reachable c -> In (ERefused o e) (log c) ->
  (forall i, e <> EInvalidStream i) /\ (forall m, e <> EUnsupportedClass m) /\ e <> EAspIDRequired.
Proof.
  intros R I. apply in_split in I as (l1 & l2 & E). destruct (trace_reachable c R) as [h H].
  destruct (history_split _ _ _ _ _ _ _ H E) as (ha & he & Ha & S & _).
  inversion S; subst.
  - match goal with J : justified _ _ _ _ |- _ => inversion J; subst end; try (repeat split; intros; discriminate).
    match goal with J : reacts _ _ _ _ |- _ => inversion J; subst end; repeat split; intros; discriminate.
  - match goal with J : other_error _ _ |- _ => inversion J; subst end; try (repeat split; intros; discriminate).
    match goal with J : In _ _ |- _ => cbn in J; destruct J as [J|[J|[J|[]]]]; subst end; repeat split; intros; discriminate.
Qed.

(** ** State range (also after a crash) *)
Definition rinstr (x : instr) : Prop := match x with ISt s => ranged s | _ => True end.
Definition RInv (c : conn) : Prop :=
  ranged (state c) /\ (forall s, mon c = MUpd s -> ranged s) /\ Forall (Forall rinstr) (hs c) /\
  Forall (fun u => match u with UDone (RState s) => ranged s | _ => True end) (us c).
Lemma plan_ranged m d l : plan m = (d, l) -> Forall rinstr l.
Proof.
  unfold plan, ranged. destruct m as [t|g].
  - destruct (m_kind t); intros H; inversion H; subst;
      repeat first [apply Forall_cons|apply Forall_nil]; cbn; unfold ranged; auto.
  - intros H; inversion H; subst. repeat constructor.
Qed.
Lemma RInv_ext c c' : RInv c -> state c' = state c \/ state c' = Down -> (mon c' = mon c \/ forall s, mon c' <> MUpd s) ->
  hs c' = hs c -> us c' = us c -> RInv c'.
Proof.
  intros (A & B & C & D) E1 E2 E3 E4. unfold RInv. rewrite E3, E4. repeat split; auto.
  - destruct E1 as [-> | ->]; auto. left; auto.
  - intros s E. destruct E2 as [E2|E2]; [apply B; congruence|]. now apply E2 in E.
Qed.
Lemma RInv_hs c i l k : RInv c -> nth_error (hs c) i = Some k -> Forall rinstr l -> Forall (Forall rinstr) (upd (hs c) i l).
Proof. intros (A & B & C & D) N F. now apply Forall_upd. Qed.
Lemma RInv_step c l c' : RInv c -> crash c = None -> stepR c l c' -> RInv c'.
Proof.
  intros R C S. pose proof R as (R1 & R2 & R3 & R4).
  assert (HG : forall i k l0 c1, nth_error (hs c) i = Some k -> Forall rinstr l0 -> state c1 = state c ->
     (mon c1 = mon c \/ forall s, mon c1 <> MUpd s) -> hs c1 = upd (hs c) i l0 -> us c1 = us c -> RInv c1).
  { intros i k l0 c1 N F E1 E2 E3 E4. unfold RInv. rewrite E1, E3, E4. repeat split; auto.
    - intros s E. destruct E2 as [E2|E2]; [apply R2; congruence|]. now apply E2 in E.
    - now apply Forall_upd. }
  assert (KG : forall i x k, nth_error (hs c) i = Some (x :: k) -> rinstr x /\ Forall rinstr k).
  { intros i x k N. pose proof (Forall_nth _ _ _ _ R3 N) as F. inversion F; auto. }
  assert (UG : forall i u c1, state c1 = state c \/ state c1 = Down -> mon c1 = mon c -> hs c1 = hs c ->
     us c1 = upd (us c) i u -> match u with UDone (RState s) => ranged s | _ => True end -> RInv c1).
  { intros i u c1 E1 E2 E3 E4 F. unfold RInv. rewrite E2, E3, E4. repeat split; auto.
    - destruct E1 as [-> | ->]; auto. left; auto.
    - now apply Forall_upd. }
  destruct S; try (eapply RInv_ext; [exact R|now left|first [now left|right; discriminate]|reflexivity|reflexivity]; fail);
    try (match goal with N : nth_error (hs c) _ = Some (_ :: _) |- _ =>
      eapply HG; [exact N| |reflexivity|first [now left|right; discriminate]|reflexivity|reflexivity];
      destruct (KG _ _ _ N) as [K1 K2]; first [exact K2 | constructor; [exact I|exact K2] | repeat constructor] end; fail).
  - unfold RInv. cb. repeat split; auto. intros s E. inversion E. left; auto.
  - rewrite state_update_eq. unfold RInv. cb. repeat split; auto.
    intros s' E. unfold upd_mon in E. destruct s; try destruct (mode c); try destruct (st_eqb (state c) Active); discriminate.
  - destruct (broadcast_fields (set_dial DOk c)) as (_ & _ & _ & F1 & _ & _ & _ & _ & _ & _ & _ & _ & F4 & _ & F5 & _).
    eapply RInv_ext; [exact R| | | |]; cb; auto. right; discriminate.
  - unfold RInv. cb. repeat split; auto; try discriminate. apply Forall_app. split; auto. repeat constructor.
  - destruct (broadcast_fields (closing c)) as (_ & _ & _ & F1 & _ & _ & _ & _ & _ & _ & _ & _ & F4 & _ & F5 & _).
    destruct (closing_fields c) as (_ & _ & _ & G1 & _ & _ & _ & _ & _ & _ & _ & _ & G4 & _ & G5 & _).
    eapply RInv_ext; [exact R| | | |]; cb; try congruence; [right; congruence|right; discriminate].
  - eapply HG; [exact H|eapply plan_ranged; eauto|reflexivity|now left|reflexivity|reflexivity].
  - eapply HG; [exact H|eapply plan_ranged; eauto|reflexivity|now left|reflexivity|reflexivity].
  - destruct (KG _ _ _ H) as [K1 K2]. eapply (HG i _ (ISt (state c) :: k)); [exact H|constructor; [exact R1|exact K2]|reflexivity|now left|reflexivity|reflexivity].
  - destruct (KG _ _ _ H) as [K1 K2]. unfold RInv. cb. repeat split; auto.
    + intros s' E. inversion E; subst. exact K1. + now apply Forall_upd.
  - destruct (hba c); (eapply RInv_ext; [exact R|now left|now left|reflexivity|reflexivity]).
  - unfold RInv. cb. repeat split; auto. apply Forall_app. split; auto.
  - eapply UG; eauto; try reflexivity; destruct op; inversion H0; exact I.
  - eapply UG; eauto; try reflexivity; exact I.
  - eapply UG; eauto; try reflexivity; exact I.
  - eapply UG; eauto; try reflexivity; exact I.
  - eapply UG; eauto; try reflexivity; exact I.
  - eapply UG; eauto; try reflexivity; exact I.
  - destruct (closing_fields c) as (_ & _ & _ & G1 & _ & _ & _ & _ & _ & G2 & _ & _ & G4 & _ & G5 & _).
    eapply (UG i (UDone (RClosed (sopen c)))); cb; auto. now rewrite G5.
  - eapply (UG i (UDone (RState (state c)))); cb; auto.
  - eapply (UG i (UDone (read_result buf pd))); cb; auto. unfold read_result. destruct buf; exact I.
  - eapply UG; eauto; try reflexivity; exact I.
  - eapply UG; eauto; try reflexivity; exact I.
  - eapply UG; eauto; try reflexivity; exact I.
Qed.
Lemma RInv_reachable c : reachable c -> RInv c.
Proof.
  intros (m & g & o & ls & R). refine (run_inv_all RInv RInv_step ls _ c _ R).
  unfold RInv. cbn. split; [left; auto|]. repeat split; try discriminate; constructor.
Qed.
Lemma updates_ranged c s : reachable c -> In (EUpd s) (log c) -> ranged s.
Proof.
  intros R I. apply in_split in I as (l1 & l2 & E). destruct (trace_reachable c R) as [h H].
  destruct (history_split _ _ _ _ _ _ _ H E) as (ha & he & Ha & S & He).
  apply history_ranged in He. inversion S; subst; exact He.
Qed.

(** ** Establishment *)
Lemma established_update c : reachable c -> dial c = DOk \/ mon c = MEst -> In Active (updates (log c)).
Proof.
  intros (m & g & o & ls & R).
  refine (run_inv_all (fun c => dial c = DOk \/ mon c = MEst -> In Active (updates (log c))) _ ls _ c _ R).
  2:{ cbn. intros [|]; discriminate. }
  clear. intros c l c' I C S.
  assert (A : forall es, log c' = log c ++ es -> dial c' = dial c -> (mon c' = mon c \/ mon c' <> MEst) ->
    dial c' = DOk \/ mon c' = MEst -> In Active (updates (log c'))).
  { intros es E1 E2 E3 H. rewrite E1, updates_app. apply in_or_app. left. apply I. rewrite E2 in H.
    destruct H as [H|H]; auto. destruct E3; [right; congruence|contradiction]. }
  destruct S; try (eapply A with (es := []); cb; rewrite ?app_nil_r; auto; right; discriminate);
    try (eapply A; cb; rewrite <- ?app_assoc; [reflexivity|auto|auto]; fail);
    try (eapply A; cb; rewrite <- ?app_assoc; [reflexivity|auto|right; discriminate]; fail).
  - (* upd *) rewrite state_update_eq. cb. rewrite updates_app. intros [H1|H1]; apply in_or_app; [left; auto|right].
    unfold upd_mon in H1. destruct s; try destruct (mode c); try discriminate; left; reflexivity.
  - destruct (broadcast_fields (set_dial DOk c)) as (_ & _ & _ & _ & _ & _ & _ & _ & _ & _ & _ & _ & _ & _ & _ & _ & _ & _ & _ & L).
    intros _. cb. rewrite L. cb. auto.
  - destruct (broadcast_fields (closing c)) as (_ & _ & _ & _ & _ & _ & _ & _ & _ & _ & _ & _ & _ & _ & _ & Dl & _ & _ & _ & L).
    destruct (closing_fields c) as (_ & _ & _ & _ & _ & _ & _ & _ & _ & _ & _ & _ & _ & _ & _ & Dl' & _ & _ & _ & L').
    eapply A with (es := [EClosed]); cb; try congruence. right; discriminate.
  - eapply A with (es := []); destruct (hba c); cb; rewrite ?app_nil_r; auto.
  - cb. intros [H1|H1]; [discriminate|auto].
  - cb. intros [H1|H1]; [discriminate|auto].
  - destruct (closing_fields c) as (_ & _ & _ & _ & _ & _ & _ & _ & _ & G2 & _ & _ & _ & _ & _ & Dl' & _ & _ & _ & L').
    eapply A with (es := [EClosed]); cb; try congruence. left; congruence.
Qed.
Lemma explains_active cl p rs ss : explains cl p rs ss -> p <> Active -> In Active ss ->
  exists raw m, In raw rs /\ valid raw m /\ names m = Some Active.
Proof.
  intros H. induction H as [p|p raw m s rs ss V A H IH]; intros Hp I; [contradiction|].
  destruct (st_dec s Active) as [->|Hs].
  - exists raw, m. split; [left; auto|]. split; auto. destruct A as [A|[_ [A|[_ A]]]]; auto; congruence.
  - destruct I as [I|I]; [contradiction|]. destruct (IH Hs I) as (r & m' & ? & ?). exists r, m'. split; [right; auto|auto].
Qed.
Lemma established_read c : reachable c -> dial c = DOk -> exists raw t, In raw (reads (log c)) /\ valid raw (Typed t) /\
  (m_kind t = KAspActive \/ m_kind t = KAspActiveAck).
Proof.
  intros R D. pose proof (established_update c R (or_introl D)) as I.
  destruct (explained_reachable c R) as [[U _]|(ss & rs & rest & U & E & _ & X)]; [rewrite U in I; contradiction|].
  rewrite U in I. destruct I as [I|I]; [discriminate|].
  destruct (explains_active _ _ _ _ X ltac:(discriminate) I) as (raw & m & J & V & N).
  destruct m as [t|t]; [|discriminate]. exists raw, t. split; [rewrite E; apply in_or_app; auto|]. split; auto.
  cbn in N. destruct (m_kind t); try discriminate; auto.
Qed.

(** ** The reaction to one packet *)
Lemma last_read l1 raw l2 l1' raw' l2' : l1 ++ ERead raw :: l2 = l1' ++ ERead raw' :: l2' ->
  reads l2 = [] -> reads l2' = [] -> l1 = l1' /\ raw = raw' /\ l2 = l2'.
Proof.
  revert l1'. induction l1 as [|x l1 IH]; intros [|y l1'] E Z Z'; cbn [app] in E; inversion E; subst; auto.
  - rewrite reads_app in Z. cbn in Z. destruct (reads l1'); discriminate.
  - rewrite reads_app in Z'. cbn in Z'. destruct (reads l1); discriminate.
  - destruct (IH l1' H1 Z Z') as (-> & -> & ->). auto.
Qed.
Definition reacted (g : config) (i : nat) (raw : list byte) (l1 l2 : list event) : Prop :=
  (exists m s rc, valid raw m /\ was_current l1 l2 s /\ reacts g s m rc /\ rc <> Consume /\ does i rc (filter (about i) l2)) \/
  (exists m, Parse raw = Ok m /\ b2n (Version m) <> 1%N /\ filter (about i) l2 = [ERefused (OHand i) (EInvalidVersion (Version m))]).
Definition processing (g : config) (h : hstate) (l : list event) : Prop :=
  forall raw, h_due h = Some (Some raw) -> exists l1 l2, l = l1 ++ ERead raw :: l2 /\ reads l2 = [] /\ updates l2 = [] /\
    h_n h = S (length (reads l1)) /\ h_cur h = current l1 /\ (h_cl h = true -> closes (l1 ++ l2) = true) /\
    (h_out h = false -> filter (about (length (reads l1))) l2 = []) /\
    (h_out h = true -> reacted g (length (reads l1)) raw l1 l2).
Lemma was_current_app l1 l2 l3 s : was_current l1 l2 s -> was_current l1 (l2 ++ l3) s.
Proof. intros [H|[H1 H2]]; [left; auto|right]. rewrite app_assoc, closes_app, H1. auto. Qed.
Lemma reacted_app g i raw l1 l2 e : reacted g i raw l1 l2 -> about i e = false -> reacted g i raw l1 (l2 ++ [e]).
Proof.
  intros [(m & s & rc & V & W & R & N & D)|(m & P & V & D)] A; [left|right].
  - exists m, s, rc. rewrite filter_app. cbn [filter]. rewrite A, app_nil_r. repeat split; auto; try apply V. now apply was_current_app.
  - exists m. rewrite filter_app. cbn [filter]. rewrite A, app_nil_r. auto.
Qed.
Lemma history_current mo g l h : history mo g l h -> h_cur h = current l.
Proof.
  intros H. destruct (history_explains _ _ _ _ H) as [_ E]. unfold current.
  destruct (h_due h) as [[raw|]|].
  - destruct E as (rs & ss & _ & -> & _ & ->). now destruct ss.
  - destruct E as (_ & _ & -> & ->). reflexivity.
  - destruct E as (ss & -> & _ & ->). now destruct ss.
Qed.
Lemma history_processing mo g l h : history mo g l h -> processing g h l.
Proof.
  intros H. induction H as [|l h e h' H IH S]; intros raw0 D; [discriminate|].
  pose proof (history_current _ _ _ _ H) as Cu. pose proof (history_n _ _ _ _ H) as (Hn & _).
  destruct (history_explains _ _ _ _ H) as [Hcl _].
  assert (K : h_due h = Some (Some raw0) -> reads [e] = [] -> updates [e] = [] -> h_n h' = h_n h -> h_cur h' = h_cur h ->
     (h_cl h' = true -> h_cl h = true \/ e = EClosed) -> h_out h' = h_out h -> (forall i, about i e = false) ->
     exists l1 l2, l ++ [e] = l1 ++ ERead raw0 :: l2 /\ reads l2 = [] /\ updates l2 = [] /\
    h_n h' = Datatypes.S (length (reads l1)) /\ h_cur h' = current l1 /\ (h_cl h' = true -> closes (l1 ++ l2) = true) /\
    (h_out h' = false -> filter (about (length (reads l1))) l2 = []) /\
    (h_out h' = true -> reacted g (length (reads l1)) raw0 l1 l2)).
  { intros E1 E2 E3 E4 E5 E6 E7 E8. destruct (IH raw0 E1) as (l1 & l2 & -> & R & U & N & C & Cl & O & O').
    exists l1, (l2 ++ [e]). rewrite <- app_assoc, reads_app, updates_app, R, U, E2, E3, E4, E5, E7.
    repeat split; auto.
    - intros X. rewrite app_assoc, closes_app. destruct (E6 X) as [Y|Y]; [rewrite Cl by exact Y; auto|].
      subst e. cbn. apply orb_true_r.
    - intros X. rewrite filter_app. cbn [filter]. rewrite E8, app_nil_r. auto.
    - intros X. apply reacted_app; auto. }
  destruct S; cbn [h_due] in D; try discriminate; try (apply K; auto; fail).
  - (* read *) inversion D; subst raw0. exists l, []. cbn [h_n h_cur h_cl h_out] in *. rewrite app_nil_r.
    repeat split; auto; discriminate.
  - (* reply *) repeat match goal with x := _ |- _ => subst x end. inversion D; subst raw0.
    destruct (IH raw eq_refl) as (l1 & l2 & -> & R & U & N & C & Cl & O & O'). cbn [h_n h_cur h_cl h_out] in *.
    inversion N as [Ni]. exists l1, (l2 ++ [ESend (OHand (length (reads l1))) 0 r b]).
    rewrite <- app_assoc, reads_app, updates_app, R, U. repeat split; auto.
    + intros X. rewrite app_assoc, closes_app, (Cl X). reflexivity.
    + discriminate.
    + intros _. left. exists m, s, (Reply r). rewrite filter_app, O by reflexivity. cbn [filter about app]. rewrite Nat.eqb_refl.
      repeat split; auto; try (match goal with V : valid _ _ |- _ => apply V end).
      * apply was_current_app. match goal with V : seen _ _ |- _ => destruct V as [V|[V1 V2]]; cbn in * end.
        -- left. congruence. -- right. auto.
      * discriminate.
      * left. eauto.
  - (* refuse *) inversion D; subst raw0.
    destruct (IH raw eq_refl) as (l1 & l2 & -> & R & U & N & C & Cl & O & O'). cbn [h_n h_cur h_cl h_out] in *.
    inversion N as [Ni]. exists l1, (l2 ++ [ERefused (OHand (length (reads l1))) e]).
    rewrite <- app_assoc, reads_app, updates_app, R, U. repeat split; auto.
    + intros X. rewrite app_assoc, closes_app, (Cl X). reflexivity.
    + discriminate.
    + intros _. assert (W : forall s, seen (mkH (Some (Some raw)) (Datatypes.S n) cur cl false may) s ->
          was_current l1 (l2 ++ [ERefused (OHand (length (reads l1))) e]) s).
      { intros s [V|[V1 V2]]; cbn in *; apply was_current_app; [left; congruence|right; auto]. }
      match goal with J : justified _ _ _ _ |- _ => destruct J end.
      * right. exists m. rewrite filter_app, O by reflexivity. cbn [filter about app]. rewrite Nat.eqb_refl. auto.
      * left. exists m, s, (Refuse e). rewrite filter_app, O by reflexivity. cbn [filter about app]. rewrite Nat.eqb_refl.
        repeat split; auto; try discriminate; match goal with V : valid _ _ |- _ => apply V end.
      * left. exists m, s, (Reply r). rewrite filter_app, O by reflexivity. cbn [filter about app]. rewrite Nat.eqb_refl.
        repeat split; auto; try discriminate; try (match goal with V : valid _ _ |- _ => apply V end). right. reflexivity.
  - (* other *) destruct o; try (apply K; auto; fail). match goal with O : other_error _ _ |- _ => inversion O end.
Qed.
Lemma packet_reaction c l1 raw l2 s l3 : reachable c -> log c = l1 ++ ERead raw :: l2 ++ EUpd s :: l3 ->
  reads l2 = [] -> updates l2 = [] ->
  exists m s0 rc, valid raw m /\ was_current l1 l2 s0 /\ reacts (cfg c) s0 m rc /\
    does (length (reads l1)) rc (filter (about (length (reads l1))) l2) /\
    (s = next_state m s0 \/ (names m = None /\ was_current l1 l2 s)).
Proof.
  intros R E Z Zu. destruct (trace_reachable c R) as [h H].
  destruct (history_split _ _ _ _ (l1 ++ ERead raw :: l2) (EUpd s) l3 H) as (ha & he & Ha & S & _).
  { rewrite E, <- app_assoc. reflexivity. }
  inversion S; subst; repeat match goal with x := _ |- _ => subst x end.
  - pose proof (history_n _ _ _ _ Ha) as (_ & _ & Q). destruct (Q eq_refl) as [Q1 _]. rewrite reads_app in Q1. cbn in Q1.
    destruct (reads l1); discriminate.
  - destruct (history_processing _ _ _ _ Ha raw0 eq_refl) as (a & b & E' & Rb & Ub & N & C & Cl & O & O').
    destruct (last_read _ _ _ _ _ _ E' Z Rb) as (<- & <- & <-). cbn [h_n h_cur h_cl h_out] in *.
    assert (W : forall x, seen (mkH (Some (Some raw)) n cur cl out may) x -> was_current l1 l2 x).
    { intros x [V|[V1 V2]]; cbn in *; [left; congruence|right; auto]. }
    assert (Fin : forall s0, was_current l1 l2 s0 -> s = next_state m s0 \/ (names m = None /\ was_current l1 l2 s)).
    { intros s0 W0. match goal with Q : allowed _ _ _ |- _ => destruct Q as [A0|[A1 A2]] end.
      - left. unfold next_state. now rewrite A0. - right. auto. }
    destruct out.
    + destruct (O' eq_refl) as [(m' & s0 & rc & V & W0 & Rc & _ & D)|(m' & P & V & _)].
      * assert (m' = m) as -> by (match goal with V1 : valid raw m |- _ => destruct V as [V _], V1 as [V1 _]; congruence end).
        exists m, s0, rc. repeat split; auto; apply V.
      * exfalso. match goal with V1 : valid raw m |- _ => destruct V1 as [V1 V2]; rewrite P in V1; inversion V1; congruence end.
    + match goal with X : _ \/ _ |- _ => destruct X as [X|(s0 & X1 & X2)]; [discriminate|] end.
      exists m, s0, Consume. repeat split; auto; try (match goal with V1 : valid raw m |- _ => apply V1 end). apply O; auto.
Qed.

(** reactions: total, and unique except for the data comparison of a BEAT ACK *)
Lemma reacts_det g s m r1 r2 : reacts g s m r1 -> reacts g s m r2 ->
  (forall t, m = Typed t -> m_kind t <> KHeartbeatAck) -> r1 = r2.
Proof.
  intros A B N. destruct A as [t I|t l r T I|t Su NI NR|m Su|t K ->]; inversion B; subst; auto;
    try (exfalso; eapply N; eauto; fail); try contradiction; try congruence;
    try (match goal with F : forall l r, _ = Some (l, r) -> ~ _ |- _ => exfalso; eapply F; eauto; fail end);
    exfalso; unfold reply_table, silent_table, supported in *; destruct (m_kind t); try discriminate; cbn in *; tauto.
Qed.
