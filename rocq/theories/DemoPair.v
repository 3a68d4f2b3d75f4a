(** The example client connected to the example server. *)
From Verif Require Import GoBase BaseProofs ParamsModel MessagesModel WireSpec ParamsSpec MsgSpec ConfigModel
  ConnModel CfgSpec ConnSpec ConnBase ConnInv ConnTrace ConnUser ConnCodec ConnMacro ConnMore ConnStable ConnData ConnPair ConnPieces ConnE2E ConnDialog ConnDuo TalkSpec ConnTalk
  LifeSpec ConnLife ConnLife2 ConnLife3 DemoModel DemoSpec DemoProofs.
From Coq Require Import Arith Lia Permutation.
Open Scope nat_scope.
Opaque max_value_len.

(** ** What stays *)
Lemma dial_fixed c l c' : step c l = Some c' -> dial c <> DWait -> dial c' = dial c.
Proof.
  intros S D. apply step_stepR in S as [C S]. destruct S; cb; auto; try congruence.
  - rewrite state_update_eq. reflexivity.
  - destruct (broadcast_fields (closing c)) as (_ & _ & _ & _ & _ & _ & _ & _ & _ & _ & _ & _ & _ & _ & _ & E1 & _).
    destruct (closing_fields c) as (_ & _ & _ & _ & _ & _ & _ & _ & _ & _ & _ & _ & _ & _ & _ & E1' & _). congruence.
  - destruct (hba c); auto.
  - destruct (closing_fields c) as (_ & _ & _ & _ & _ & _ & _ & _ & _ & _ & _ & _ & _ & _ & _ & E1' & _). congruence.
Qed.
Lemma done_fixed c l c' i r : step c l = Some c' -> nth_error (us c) i = Some (UDone r) -> nth_error (us c') i = Some (UDone r).
Proof.
  intros S N. destruct l as [p| | | |ok| |j ok|j|j|ok|d| | | | |op|j ok];
    try (destruct (user_frame _ _ _ _ _ S N) as [[ok' E]|[E _]]; [discriminate E|exact E]).
  destruct (user_frame _ _ _ _ _ S N) as [[ok' E]|[E _]]; [|exact E]. injection E as -> ->.
  unfold step in S. destruct (crash c); [discriminate|]. unfold step_user in S. rewrite N in S. discriminate.
Qed.
(** the two endpoints of a conversation make steps of the library *)
Definition both (P : conn -> conn -> Prop) (t t' : talk) : Prop := P (t_cl t) (t_cl t') /\ P (t_sv t) (t_sv t').
Lemma lstep_both (P : conn -> conn -> Prop) : (forall c, P c c) -> (forall c l c', (forall op, l <> LCall op) -> step c l = Some c' -> P c c') ->
  forall t t', lstep t t' -> both P t t'.
Proof.
  intros R H t t' S. destruct S as [a b u d l a' new F Nt St Pk|a b u d l b' new F Nt St Pk|a b u1 raw u2 d b' St|a b u d1 raw d2 a' Or St]; split; cbn [t_cl t_sv]; auto.
  - apply (H a l a'); auto. intros op ->. destruct F as [[] _].
  - apply (H b l b'); auto. intros op ->. destruct F as [[] _].
  - apply (H b (LArrive raw) b'); [discriminate|exact St].
  - apply (H a (LArrive raw) a'); [discriminate|exact St].
Qed.
Lemma tick_both (P : conn -> conn -> Prop) : (forall c, P c c) -> (forall c l c', (forall op, l <> LCall op) -> step c l = Some c' -> P c c') ->
  forall t t', tick t t' -> both P t t'.
Proof. intros R H t t' S. destruct S as [a b u d a' Hb St|a b u d b' Hb St]; split; cbn [t_cl t_sv]; auto; apply (H _ LHbTimer); auto; discriminate. Qed.
Definition lasting (c c' : conn) : Prop :=
  (dial c <> DWait -> dial c' = dial c) /\ (forall i r, nth_error (us c) i = Some (UDone r) -> nth_error (us c') i = Some (UDone r)).
Lemma lsteps_last m t t' : lsteps m t t' -> both lasting t t'.
Proof.
  induction 1 as [t|m t t1 t2 L IH S]; [split; split; auto|].
  assert (B : both lasting t1 t2).
  { apply lstep_both; [split; auto|intros c l c' _ St; split; [apply (dial_fixed _ _ _ St)|intros i r; apply (done_fixed _ _ _ _ _ St)]|exact S]. }
  destruct IH as [[A1 A2] [A3 A4]], B as [[B1 B2] [B3 B4]]. split; split; auto.
  - intros D. specialize (A1 D). rewrite <- A1. apply B1. congruence.
  - intros D. specialize (A3 D). rewrite <- A3. apply B3. congruence.
Qed.

Definition fit (gc gs : config) : Prop := cfg_ok gc /\ cfg_ok gs /\ signals_fit gc /\ signals_fit gs.
(** calls that have returned have returned as they should *)
Lemma done_right gc gs oc os n i ka kb t : fit gc gs -> lives n i ka kb (lstart gc gs oc os) t ->
  (dial (t_cl t) = DWait \/ dial (t_cl t) = DOk) /\ (dial (t_sv t) = DWait \/ dial (t_sv t) = DOk) /\
  (forall j op r, nth_error ka j = Some op -> nth_error (us (t_cl t)) j = Some (UDone r) -> exists c, answered c op (UDone r)) /\
  (forall j op r, nth_error kb j = Some op -> nth_error (us (t_sv t)) j = Some (UDone r) -> exists c, answered c op (UDone r)).
Proof.
  intros (O1 & O2 & F1 & F2) L. destruct (life_settles _ _ _ _ _ _ _ _ _ O1 O2 F1 F2 L) as (m & t' & _ & R & C1 & C2 & _).
  destruct (lsteps_last _ _ _ R) as [[A1 A2] [A3 A4]].
  split; [|split; [|split]].
  - destruct (dial (t_cl t)) eqn:E; auto; rewrite (ce_dial _ _ C1) in A1; specialize (A1 ltac:(discriminate)); discriminate.
  - destruct (dial (t_sv t)) eqn:E; auto; rewrite (ce_dial _ _ C2) in A3; specialize (A3 ltac:(discriminate)); discriminate.
  - intros j op r Nk Nu. apply A2 in Nu. destruct (Forall2_nth _ _ _ (ce_us _ _ C1) _ _ Nu) as (op' & No & An). rewrite Nk in No. injection No as <-. eauto.
  - intros j op r Nk Nu. apply A4 in Nu. destruct (Forall2_nth _ _ _ (ce_us _ _ C2) _ _ Nu) as (op' & No & An). rewrite Nk in No. injection No as <-. eauto.
Qed.
(** runs of the two endpoints *)
Lemma life_runs gc gs oc os n i ka kb t : fit gc gs -> lives n i ka kb (lstart gc gs oc os) t ->
  exists lsa lsb, run (start Client gc oc) lsa = Some (t_cl t) /\ calls lsa = ka /\ run (start Server gs os) lsb = Some (t_sv t) /\ calls lsb = kb /\
    Permutation (arrivals lsb ++ t_up t) (packets (log (t_cl t))) /\ Forall (fun b => length b <= 1500) (packets (log (t_cl t))).
Proof.
  intros (O1 & O2 & F1 & F2) L. pose proof (cfg_speaks _ O1 F1) as Sp1. pose proof (cfg_speaks _ O2 F2) as Sp2.
  destruct (cfg_plays2 gc gs Sp1 Sp2) as (up & act & upk & ack & mu & ma & mk & mc & Pl).
  pose proof (suits_cl gc gs oc os _ _ _ _ _ _ _ _ O1 Sp1 Pl) as SA. pose proof (suits_sv gc gs oc os _ _ _ _ _ _ _ _ O2 Sp2 Pl) as SB.
  destruct (linv_lives _ _ n i ka kb t SA SB (roomy_sv _ _ _ _ _ _ _ _ _ _ _ _) L) as (w & Lw & I).
  destruct I as [_ _ _ (lsa & Ra & Ca & _) (lsb & Rb & Cb & Pb) S1 _ _ _]. exists lsa, lsb. auto 8.
Qed.
Lemma accepted_le ops : forall us, length (accepted ops us) <= length ops.
Proof.
  induction ops as [|o ops IH]; intros [|u us]; cbn [accepted List.combine flat_map length] in *; try lia.
  rewrite app_length. specialize (IH us). unfold accepted in IH. assert (length (accepted1 (o, u)) <= 1) by (destruct o, u as [| | |[]]; cbn; lia). lia.
Qed.
(** what the server's user has got *)
Lemma got gc gs oc os n i ka kb t d : fit gc gs -> lives n i ka kb (lstart gc gs oc os) t -> Forall (fun op => exists rnd, op = OpWrite d rnd) ka ->
  exists k, delivered (log (t_sv t)) = repeat (pd_of gc d) k /\ k <= length ka.
Proof.
  intros F L Fw. destruct (life_runs _ _ _ _ _ _ _ _ _ F L) as (lsa & lsb & Ra & Ca & Rb & Cb & Pb & Sz). destruct F as (O1 & _).
  destruct (end_to_end_sub _ _ _ _ _ _ _ _ _ _ (t_up t) Ra Rb O1) as [rest P]; auto.
  { rewrite Ca. eapply Forall_impl; [|exact Fw]. intros op [rnd ->]. exact I. }
  rewrite Ca in P.
  assert (Al : forall x, In x (map (pd_of gc) (accepted ka (us (t_cl t)))) -> x = pd_of gc d).
  { intros x Hx. apply in_map_iff in Hx as (b & <- & Hb). unfold accepted in Hb. apply in_flat_map in Hb as ([op u] & Ho & Hb).
    apply in_combine_l in Ho. rewrite Forall_forall in Fw. destruct (Fw _ Ho) as [rnd ->]. destruct u as [| | |[]]; cbn in Hb; try contradiction. destruct Hb as [->|[]]. reflexivity. }
  exists (length (delivered (log (t_sv t)))). split.
  - apply Forall_eq_repeat. apply Forall_forall. intros x Hx. symmetry. apply Al. eapply Permutation_in; [exact P|]. apply in_or_app. auto.
  - apply Permutation_length in P. rewrite app_length, map_length in P. pose proof (accepted_le ka (us (t_cl t))). lia.
Qed.

(** ** The programs *)
Definition writing (d : list byte) (ka : list uop) (c : conn) (p : prog) : Prop :=
  length ka = length (us c) /\ Forall (fun op => exists rnd, op = OpWrite d rnd) ka /\
  match g_at p with
  | AEstablish => us c = [] /\ g_out p = []
  | ACall => dial c = DOk /\ Forall read_done (us c) /\ g_out p = repeat (PSent d) (length (us c))
  | AReturn i => dial c = DOk /\ exists us0 u, us c = us0 ++ [u] /\ length us0 = i /\ Forall read_done us0 /\ g_out p = repeat (PSent d) i
  | _ => False
  end.
Definition reading (kb : list uop) (c : conn) (q : prog) : Prop :=
  length kb = length (us c) /\ Forall (fun op => exists b, op = OpRead b) kb /\ serves 1500 c q /\
  match g_at q with
  | AEstablish => True
  | ACall => length (g_out q) = length (us c)
  | AReturn i => length (g_out q) = i
  | _ => False
  end.
Definition cdone (p : prog) : nat := match g_at p with AEstablish => 0 | _ => 1 + length (g_out p) end.
Definition sdone (q : prog) : nat := match g_at q with AEstablish => 0 | AReturn i => 2 + 2 * length (g_out q) | _ => 1 + 2 * length (g_out q) end.
Definition dinv (gc gs : config) (oc os : N) (d : list byte) (n i w : nat) (x : demo) : Prop :=
  exists m ka kb, lives m i ka kb (lstart gc gs oc os) (e_talk x) /\ length ka = w /\
    n = m + cdone (e_cl x) + sdone (e_sv x) /\
    writing d ka (t_cl (e_talk x)) (e_cl x) /\ reading kb (t_sv (e_talk x)) (e_sv x).
Lemma upd_len {A} (l : list A) : forall i x, length (upd l i x) = length l.
Proof. induction l as [|y l IH]; intros [|i] x; cbn; auto. Qed.
Lemma writing_lib d ka c p c' : writing d ka c p -> lasting c c' -> (us c' = us c \/ exists i u v, nth_error (us c) i = Some u /\ ~ read_done u /\ us c' = upd (us c) i v) ->
  writing d ka c' p.
Proof.
  intros (L & F & H) [Ld Lu] D.
  assert (Ln : length (us c') = length (us c)) by (destruct D as [->|(i & u & v & _ & _ & ->)]; [reflexivity|apply upd_len]).
  split; [congruence|]. split; [exact F|]. destruct (g_at p) as [| |j|j|]; try contradiction.
  - destruct H as [E O]. rewrite E in Ln. destruct (us c'); [auto|discriminate].
  - destruct H as (Dc & Fr & O). split; [rewrite Ld; congruence|]. rewrite Ln. split; [|exact O].
    destruct D as [->|(i & u & v & N & Nd & ->)]; [exact Fr|]. rewrite Forall_forall in Fr. destruct Nd. apply Fr. eapply nth_error_In; eauto.
  - destruct H as (Dc & us0 & u & E & Lj & Fr & O). split; [rewrite Ld; congruence|]. destruct D as [->|(i & u1 & v & N & Nd & ->)]; [eauto 8|].
    rewrite E in *. destruct (le_lt_dec (length us0) i) as [Li|Li].
    + rewrite nth_error_app2 in N by exact Li. destruct (i - length us0) as [|k] eqn:Ek; [|destruct k; discriminate]. assert (i = length us0) by lia. subst i.
      exists us0, v. rewrite upd_snoc. auto.
    + rewrite nth_error_app1 in N by exact Li. rewrite Forall_forall in Fr. destruct Nd. apply Fr. eapply nth_error_In; eauto.
Qed.
Lemma step_lasting c l c' : step c l = Some c' -> lasting c c'.
Proof. intros S. split; [apply (dial_fixed _ _ _ S)|intros i r; apply (done_fixed _ _ _ _ _ S)]. Qed.
Lemma step_upd c l c' : step c l = Some c' -> (forall op, l <> LCall op) ->
  us c' = us c \/ exists i u v, nth_error (us c) i = Some u /\ ~ read_done u /\ us c' = upd (us c) i v.
Proof.
  intros S Nc. destruct (calls_step _ _ _ S Nc) as [[E _]|(i & u & v & ps & N & E & M & _)]; [auto|right]. exists i, u, v.
  repeat split; auto. intros [r ->]. exact M.
Qed.
Lemma reading_lib kb c l c' q : reading kb c q -> (forall op, l <> LCall op) -> step c l = Some c' -> reading kb c' q.
Proof.
  intros (L & F & Sv & H) Nc S.
  assert (Ln : length (us c') = length (us c)) by (destruct (step_upd _ _ _ S Nc) as [->|(i & u & v & _ & _ & ->)]; [reflexivity|apply upd_len]).
  split; [congruence|]. split; [exact F|]. split; [eapply serves_lib; eauto|]. destruct (g_at q); auto. congruence.
Qed.
Definition kept (d : list byte) (ka kb : list uop) (p q : prog) (t : talk) : Prop := writing d ka (t_cl t) p /\ reading kb (t_sv t) q.
Lemma kept_lstep d ka kb p q t t' : lstep t t' -> kept d ka kb p q t -> kept d ka kb p q t'.
Proof.
  intros S [W R]. unfold kept.
  pose proof (lstep_both (fun c c' => writing d ka c p -> writing d ka c' p) (fun _ H => H)
    ltac:(intros c l c' Nc St H; eapply writing_lib; [exact H|eapply step_lasting; exact St|eapply step_upd; eauto]) _ _ S) as [A _].
  pose proof (lstep_both (fun c c' => reading kb c q -> reading kb c' q) (fun _ H => H)
    ltac:(intros c l c' Nc St H; eapply reading_lib; eauto) _ _ S) as [_ B]. auto.
Qed.
Lemma kept_tick d ka kb p q t t' : tick t t' -> kept d ka kb p q t -> kept d ka kb p q t'.
Proof.
  intros S [W R]. unfold kept.
  pose proof (tick_both (fun c c' => writing d ka c p -> writing d ka c' p) (fun _ H => H)
    ltac:(intros c l c' Nc St H; eapply writing_lib; [exact H|eapply step_lasting; exact St|eapply step_upd; eauto]) _ _ S) as [A _].
  pose proof (tick_both (fun c c' => reading kb c q -> reading kb c' q) (fun _ H => H)
    ltac:(intros c l c' Nc St H; eapply reading_lib; eauto) _ _ S) as [_ B]. auto.
Qed.
Lemma lives_cfg n i ka kb gc gs oc os t : lives n i ka kb (lstart gc gs oc os) t -> cfg (t_cl t) = gc /\ maxs (t_cl t) = u16 (oc + 65535) /\ reachable (t_cl t) /\ reachable (t_sv t).
Proof.
  intros L. remember (lstart gc gs oc os) as t0 eqn:E0. induction L as [t|n i p q t t1 t2 L IH S|n i p q t t1 t2 L IH S|n i p q t a b u d op a' L IH Sa St|n i p q t a b u d op b' L IH Sa St].
  - subst t. cbn. repeat split; apply reachable_start.
  - destruct (IH E0) as (A & B & C & D).
    destruct (lstep_both (fun c c' => (cfg c' = cfg c /\ maxs c' = maxs c) /\ (reachable c -> reachable c')) (fun _ => conj (conj eq_refl eq_refl) (fun H => H))
      ltac:(intros c l c' _ St; split; [exact (proj2 (static_step _ _ _ St))|intros R; eapply reachable_run; [exact R|apply run_one; exact St]]) _ _ S) as [[[H1 H1'] H2] [_ H4]].
    repeat split; auto; congruence.
  - destruct (IH E0) as (A & B & C & D).
    destruct (tick_both (fun c c' => (cfg c' = cfg c /\ maxs c' = maxs c) /\ (reachable c -> reachable c')) (fun _ => conj (conj eq_refl eq_refl) (fun H => H))
      ltac:(intros c l c' _ St; split; [exact (proj2 (static_step _ _ _ St))|intros R; eapply reachable_run; [exact R|apply run_one; exact St]]) _ _ S) as [[[H1 H1'] H2] [_ H4]].
    repeat split; auto; congruence.
  - destruct (IH E0) as (A & B & C & D). cbn [t_cl t_sv] in *. destruct (static_step _ _ _ St) as (_ & E & E'). repeat split; auto; try congruence. eapply reachable_run; [exact C|apply run_one; exact St].
  - destruct (IH E0) as (A & B & C & D). cbn [t_cl t_sv] in *. destruct (static_step _ _ _ St) as (_ & E & E'). repeat split; auto; try congruence. eapply reachable_run; [exact D|apply run_one; exact St].
Qed.
Lemma nth_last {A} (l : list A) x : nth_error (l ++ [x]) (length l) = Some x.
Proof. now rewrite nth_error_app2, Nat.sub_diag by lia. Qed.
Lemma nth_some_len {A} (l : list A) i : i < length l -> exists x, nth_error l i = Some x.
Proof. intros L. destruct (nth_error l i) eqn:E; [eauto|]. apply nth_error_None in E. lia. Qed.

Lemma streams_max o : streams o -> u16 (o + 65535) = (o - 1)%N.
Proof. intros H. unfold streams in H. unfold u16. replace (o + 65535)%N with (o - 1 + 1 * 65536)%N by lia. rewrite N.mod_add by discriminate. apply N.mod_small. lia. Qed.
Lemma dinv_client gc gs oc os d n i w a b u v p q rnd a' p' : fit gc gs -> streams oc -> data_overhead gc + length d <= 1500 ->
  dinv gc gs oc os d n i w (mkDemo (mkTalk a b u v) p q) -> drawn a rnd -> client_step d rnd a p = Some (a', p') ->
  match client_kind p with KWrite => dinv gc gs oc os d n i (S w) (mkDemo (mkTalk a' b u v) p' q) | _ => dinv gc gs oc os d (S n) i w (mkDemo (mkTalk a' b u v) p' q) end.
Proof.
  intros Ft So Sz (m & ka & kb & L & Lw & En & W & R) Dr S. cbn [e_talk e_cl e_sv t_cl t_sv] in *.
  destruct (done_right _ _ _ _ _ _ _ _ _ Ft L) as (D1 & _ & Rt & _). destruct (lives_cfg _ _ _ _ _ _ _ _ _ L) as (Cf & Mx & _). cbn [t_cl t_sv] in *.
  unfold client_step in S. destruct (crash a) eqn:Cr; [discriminate|]. destruct W as (La & Fa & H). unfold client_kind. destruct p as [at_ buf out]. cbn [g_at g_buf g_out] in *. destruct at_ as [| |j|j|]; try contradiction.
  - destruct H as [E O]. destruct D1 as [D1|D1]; rewrite D1 in S; [discriminate|]. injection S as <- <-.
    exists m, ka, kb. cbn [e_talk e_cl e_sv t_cl t_sv]. split; [exact L|]. split; [exact Lw|]. split; [rewrite O in *; cbn [cdone g_at g_out length] in *; lia|].
    split; [|exact R]. split; [exact La|]. split; [exact Fa|]. cbn [g_at g_out]. rewrite E, O. auto.
  - destruct H as (Da & Fr & O). destruct (step a (LCall (OpWrite d rnd))) as [a1|] eqn:St; [|discriminate]. injection S as <- <-.
    exists m, (ka ++ [OpWrite d rnd]), kb. cbn [e_talk e_cl e_sv t_cl t_sv].
    split; [eapply LV_client; [exact L| |exact St]; cbn [sane]; rewrite Cf; split; [exact Sz|rewrite (streams_max _ So) in Mx; unfold drawn in Dr; unfold streams in So; lia]|].
    split; [rewrite app_length; cbn; lia|]. split; [exact En|]. split; [|exact R].
    destruct (call_step _ _ _ St) as [_ ->]. split; [cb; rewrite !app_length; cbn; lia|]. split; [apply Forall_app; split; [exact Fa|repeat constructor; eauto]|].
    cbn [g_at g_out]. cb. split; [exact Da|]. exists (us a), (UGo (OpWrite d rnd)). rewrite O. auto.
  - destruct H as (Dk & us0 & u0 & E & Lj & Fr & O). rewrite E, <- Lj, nth_last in S. destruct u0 as [| | |r]; try discriminate.
    assert (Nu : nth_error (us a) j = Some (UDone r)) by (rewrite E, <- Lj; apply nth_last).
    assert (Lk : j < length ka) by (rewrite La, E, app_length; cbn; lia).
    destruct (nth_some_len _ _ Lk) as [op No]. destruct (Rt _ _ _ No Nu) as [c An].
    rewrite Forall_forall in Fa. destruct (Fa _ (nth_error_In _ _ No)) as [rn ->]. cbn in An. destruct An as [k Ek]. injection Ek as ->.
    injection S as <- <-. exists m, ka, kb. cbn [e_talk e_cl e_sv t_cl t_sv]. split; [exact L|]. split; [exact Lw|].
    split; [cbn [cdone g_at g_out length] in *; rewrite app_length; cbn [length]; lia|]. split; [|exact R].
    split; [exact La|]. split; [now apply Forall_forall|]. cbn [g_at g_out].
    split; [exact Dk|]. split.
    + rewrite E. apply Forall_app. split; [exact Fr|]. repeat constructor. now eexists.
    + rewrite O, E, app_length. cbn [length]. rewrite repeat_app, Lj. reflexivity.
Qed.
Lemma dinv_server gc gs oc os d n i w a b u v p q b' q' : fit gc gs ->
  dinv gc gs oc os d n i w (mkDemo (mkTalk a b u v) p q) -> serve_step b q = Some (b', q') ->
  dinv gc gs oc os d (S n) i w (mkDemo (mkTalk a b' u v) p q').
Proof.
  intros Ft (m & ka & kb & L & Lw & En & W & R) Ss. cbn [e_talk e_cl e_sv t_cl t_sv] in *.
  destruct (done_right _ _ _ _ _ _ _ _ _ Ft L) as (_ & D2 & _ & Rt). destruct (lives_cfg _ _ _ _ _ _ _ _ _ L) as (_ & _ & _ & Re). cbn [t_cl t_sv] in *.
  destruct R as (Lb & Fb & Sv & H).
  assert (Ls : 1476 <= 1500) by (apply Nat.leb_le; reflexivity).
  destruct (serves_prog _ _ _ _ _ Re Ls Sv Ss) as (Sv' & Cn & _). clear Ls.
  unfold serve_step in Ss. destruct (crash b) eqn:Cr; [discriminate|].
  destruct q as [at_ buf out]. cbn [g_at g_buf g_out] in *. destruct at_ as [| |j|j|]; try contradiction.
  - destruct Sv as (_ & E & _ & O). cbn [g_at g_buf g_out] in *. destruct D2 as [D2|D2]; rewrite D2 in Ss; [discriminate|]. injection Ss as <- <-.
    exists m, ka, kb. cbn [e_talk e_cl e_sv t_cl t_sv]. split; [exact L|]. split; [exact Lw|]. split; [rewrite O in *; cbn [sdone g_at g_out length] in *; lia|].
    split; [exact W|]. split; [exact Lb|]. split; [exact Fb|]. split; [exact Sv'|]. cbn [g_at g_out]. rewrite E, O. auto.
  - destruct (step b (LCall (OpRead buf))) as [b1|] eqn:St; [|discriminate]. injection Ss as <- <-.
    exists m, ka, (kb ++ [OpRead buf]). cbn [e_talk e_cl e_sv t_cl t_sv].
    split; [eapply LV_server; [exact L|exact I|exact St]|].
    split; [exact Lw|]. split; [cbn [sdone g_at g_out] in *; lia|]. split; [exact W|].
    destruct (call_step _ _ _ St) as [_ ->]. split; [cb; rewrite !app_length; cbn; lia|]. split; [apply Forall_app; split; [exact Fb|repeat constructor; eauto]|].
    split; [exact Sv'|]. cbn [g_at g_out]. exact H.
  - destruct Sv as (_ & _ & us0 & u0 & E & Lj & Fr & An). cbn [g_at g_buf g_out] in *. rewrite E, <- Lj, nth_last in Ss. destruct u0 as [| | |r]; try discriminate.
    assert (Nu : nth_error (us b) j = Some (UDone r)) by (rewrite E, <- Lj; apply nth_last).
    assert (Lk : j < length kb) by (rewrite Lb, E, app_length; cbn; lia).
    destruct (nth_some_len _ _ Lk) as [op No]. destruct (Rt _ _ _ No Nu) as [c Aw].
    pose proof Fb as Fb'. rewrite Forall_forall in Fb. destruct (Fb _ (nth_error_In _ _ No)) as [bb ->]. cbn in Aw. destruct Aw as [[pd Ek]|[Ek _]]; [|discriminate]. injection Ek as ->.
    destruct (length (pd_data pd) <=? _) in Ss.
    + injection Ss as <- <-. exists m, ka, kb. cbn [e_talk e_cl e_sv t_cl t_sv]. split; [exact L|]. split; [exact Lw|].
      split; [cbn [sdone g_at g_out] in *; rewrite app_length; cbn [length]; lia|]. split; [exact W|].
      split; [exact Lb|]. split; [exact Fb'|]. split; [exact Sv'|]. cbn [g_at g_out]. rewrite E, !app_length. cbn [length]. lia.
    + exfalso. injection Ss as <- <-. discriminate Cn.
Qed.

Lemma dinv_start gc gs oc os d : dinv gc gs oc os d 0 0 0 (demo_start gc gs oc os).
Proof.
  exists 0, [], []. cbn [demo_start e_talk e_cl e_sv lstart t_cl t_sv]. split; [apply LV_0|]. split; [reflexivity|]. split; [reflexivity|].
  split; [repeat split; constructor|]. split; [reflexivity|]. split; [constructor|]. split; [now apply serve_start_ok|]. exact I.
Qed.
Lemma dinv_dstep gc gs oc os d n i w k x y : fit gc gs -> streams oc -> data_overhead gc + length d <= 1500 -> dinv gc gs oc os d n i w x -> dstep d k x y ->
  match k with KStep => dinv gc gs oc os d (S n) i w y | KTick => dinv gc gs oc os d n (S i) w y | KWrite => dinv gc gs oc os d n i (S w) y end.
Proof.
  intros Ft So Sz H D. destruct D as [t t' p q S|t t' p q S|a b u v p q rnd a' p' Dr S|a b u v p q b' q' S].
  - destruct H as (m & ka & kb & L & Lw & En & W & R). cbn [e_talk e_cl e_sv] in *.
    destruct (kept_lstep _ _ _ _ _ _ _ S (conj W R)) as [W' R']. exists (Datatypes.S m), ka, kb. cbn [e_talk e_cl e_sv].
    split; [eapply LV_S; eauto|]. split; [exact Lw|]. split; [lia|]. auto.
  - destruct H as (m & ka & kb & L & Lw & En & W & R). cbn [e_talk e_cl e_sv] in *.
    destruct (kept_tick _ _ _ _ _ _ _ S (conj W R)) as [W' R']. exists m, ka, kb. cbn [e_talk e_cl e_sv].
    split; [eapply LV_tick; eauto|]. split; [exact Lw|]. split; [lia|]. auto.
  - pose proof (dinv_client _ _ _ _ _ _ _ _ _ _ _ _ _ _ _ _ _ Ft So Sz H Dr S) as K. unfold client_kind in *. destruct (g_at p); exact K.
  - eapply dinv_server; eauto.
Qed.
Lemma dinv_dsteps gc gs oc os d n i w x : fit gc gs -> streams oc -> data_overhead gc + length d <= 1500 ->
  dsteps d n i w (demo_start gc gs oc os) x -> dinv gc gs oc os d n i w x.
Proof.
  intros Ft So Sz H. remember (demo_start gc gs oc os) as x0 eqn:E0. induction H as [x|n i w x y z H IH S|n i w x y z H IH S|n i w x y z H IH S]; subst.
  - apply dinv_start.
  - exact (dinv_dstep _ _ _ _ _ _ _ _ KStep _ _ Ft So Sz (IH eq_refl) S).
  - exact (dinv_dstep _ _ _ _ _ _ _ _ KTick _ _ Ft So Sz (IH eq_refl) S).
  - exact (dinv_dstep _ _ _ _ _ _ _ _ KWrite _ _ Ft So Sz (IH eq_refl) S).
Qed.

Lemma lines_repeat g d k : lines (repeat (pd_of g d) k) = repeat (PRead d) k.
Proof. induction k as [|k IH]; [reflexivity|]. cbn [repeat lines map]. f_equal. exact IH. Qed.
Lemma written_repeat d ka : Forall (fun op => exists rnd, op = OpWrite d rnd) ka -> written ka = repeat d (length ka).
Proof. induction 1 as [|op ka [rnd ->] F IH]; [reflexivity|]. cbn. f_equal. exact IH. Qed.
Lemma repeat_prefix {A} (x : A) l m k : repeat x k = l ++ m -> l = repeat x (length l).
Proof.
  revert k. induction l as [|y l IH]; intros [|k] E; cbn in *; try discriminate; [reflexivity..|]. injection E as <- E. f_equal. eapply IH; exact E.
Qed.
Lemma out_sv kb c q g d k : reading kb c q -> delivered (log c) = repeat (pd_of g d) k ->
  g_out q = repeat (PRead d) (length (g_out q)) /\ length (g_out q) <= k /\ length kb <= S k.
Proof.
  intros (Lb & _ & (_ & Sv) & H) Dl. assert (T : told (log c) = repeat (PRead d) k) by (unfold told; rewrite Dl; apply lines_repeat).
  destruct (g_at q) as [| |j|j|]; try contradiction.
  - destruct Sv as (E & D & ->). rewrite E in Lb. cbn in *. repeat split; lia.
  - destruct Sv as (_ & _ & O). rewrite O, T, repeat_length in *. repeat split; try lia.
  - destruct Sv as (_ & us0 & u & E & Lj & _ & An). rewrite E, app_length in Lb. cbn [length] in Lb.
    assert (A : exists m, told (log c) = g_out q ++ m).
    { destruct u as [op|b|s m|r]; cbn [answer] in An; try contradiction.
      - destruct An as [_ ->]. exists []. now rewrite app_nil_r.
      - destruct An as [_ ->]. exists []. now rewrite app_nil_r.
      - destruct An as [[_ ->]|(ps & pd & Ed & _ & ->)]; [exists []; now rewrite app_nil_r|]. unfold told. rewrite Ed, lines_app. eauto. }
    destruct A as [m A]. rewrite T in A. pose proof (repeat_prefix _ _ _ _ A) as P. apply (f_equal (@length _)) in A. rewrite repeat_length, app_length in A.
    repeat split; [exact P|lia|lia].
Qed.
Lemma out_cl d ka c p : writing d ka c p -> g_out p = repeat (PSent d) (length (g_out p)) /\ length (g_out p) <= length ka <= S (length (g_out p)).
Proof.
  intros (L & _ & H). destruct (g_at p) as [| |j|j|]; try contradiction.
  - destruct H as [E ->]. rewrite E in L. cbn in *. split; [reflexivity|lia].
  - destruct H as (_ & _ & O). rewrite O, repeat_length. split; [reflexivity|lia].
  - destruct H as (_ & us0 & u & E & Lj & _ & O). rewrite O, repeat_length. rewrite E, app_length in L. cbn [length] in L. split; [reflexivity|lia].
Qed.
Theorem demo_fine gc gs oc os d n i w x : fit gc gs -> streams oc -> data_overhead gc + length d <= 1500 -> dsteps d n i w (demo_start gc gs oc os) x ->
  n <= 152 + 29 * w + 31 * i /\
  sound (t_cl (e_talk x)) /\ sound (t_sv (e_talk x)) /\ going (e_cl x) /\ going (e_sv x) /\
  (exists k, g_out (e_cl x) = repeat (PSent d) k /\ k <= w <= S k) /\
  (exists j, g_out (e_sv x) = repeat (PRead d) j /\ j <= w) /\
  ((exists y, dstep d KStep x y) \/ caught_up d w x).
Proof.
  intros Ft So Sz H. destruct (dinv_dsteps _ _ _ _ _ _ _ _ _ Ft So Sz H) as (m & ka & kb & L & Lw & En & W & R). clear H.
  pose proof W as (La & Fa & Wc). pose proof R as (Lb & Fb & Sv & Rc).
  destruct (got _ _ _ _ _ _ _ _ _ _ Ft L Fa) as (k & Dl & Lk). pose proof Ft as (O1 & O2 & F1 & F2).
  destruct (life_fine _ _ _ _ _ _ _ _ _ O1 O2 F1 F2 L) as (Bd & So1 & So2 & _ & _ & Pr).
  destruct (out_sv _ _ _ _ _ _ R Dl) as (Os & Ls & Lkb). destruct (out_cl _ _ _ _ W) as (Oc & Lc1 & Lc2).
  split. { rewrite Lw in *. assert (cdone (e_cl x) <= 1 + w) by (unfold cdone; destruct (g_at (e_cl x)); lia).
    assert (sdone (e_sv x) <= 2 + 2 * w) by (unfold sdone; destruct (g_at (e_sv x)); lia). lia. }
  split; [exact So1|]. split; [exact So2|].
  split. { unfold going. destruct (g_at (e_cl x)); auto. }
  split. { unfold going. destruct (g_at (e_sv x)); auto. }
  split; [exists (length (g_out (e_cl x))); split; [exact Oc|lia]|]. split; [exists (length (g_out (e_sv x))); split; [exact Os|lia]|].
  destruct x as [[a b u v] p q]. cbn [e_talk e_cl e_sv t_cl t_sv t_up t_dn] in *.
  destruct Pr as [[t' S]|(C1 & C2 & Up & Dn & Rv & _)]; [left; eexists; apply D_lib; exact S|]. cbn [t_cl t_sv t_up t_dn] in *.
  pose proof So1 as (Cra & _). pose proof So2 as (Crb & _).
  destruct (g_at p) as [| |j|j|] eqn:Ap; try contradiction.
  - left. eexists. replace KStep with (client_kind p) by (unfold client_kind; now rewrite Ap). apply D_client with (rnd := 0%N).
    { unfold drawn. lia. }
    unfold client_step. rewrite Cra, Ap, (ce_dial _ _ C1). reflexivity.
  - destruct (g_at q) as [| |j|j|] eqn:Aq; try contradiction.
    + left. eexists. apply D_server. unfold serve_step. rewrite Crb, Aq, (ce_dial _ _ C2). reflexivity.
    + left. destruct (step b (LCall (OpRead (g_buf q)))) as [b'|] eqn:St.
      * eexists. apply D_server. unfold serve_step. rewrite Crb, Aq, St. reflexivity.
      * exfalso. unfold step in St. rewrite Crb, (ce_dial _ _ C2) in St. discriminate.
    + destruct Sv as (Lbuf & Sv). rewrite Aq in Sv. destruct Sv as (_ & us0 & u0 & E & Lj & Fr & An).
      assert (Nu : nth_error (us b) j = Some u0) by (rewrite E, <- Lj; apply nth_last).
      destruct (Forall2_nth _ _ _ (ce_us _ _ C2) _ _ Nu) as (op & No & Aw). rewrite Forall_forall in Fb. destruct (Fb _ (nth_error_In _ _ No)) as [bb ->]. cbn in Aw.
      destruct Aw as [[pd ->]|[-> Dq]].
      * left. destruct (serve_step b q) as [[b' q']|] eqn:Es; [eexists; apply D_server; exact Es|]. exfalso.
        unfold serve_step in Es. rewrite Crb, Aq, Nu in Es. unfold read_result in Es. destruct (_ <=? _) in Es; discriminate.
      * right. cbn [answer] in An. destruct An as [_ O]. unfold caught_up. cbn [e_talk e_cl e_sv t_cl t_sv t_up t_dn].
        destruct Wc as (_ & _ & Op). split; [exact Ap|]. split; [rewrite Op; congruence|]. split.
        { destruct Rv as [Rv|Rv]; [rewrite Dq in Rv; exfalso; cbn in Rv; lia|]. rewrite Dq, app_nil_r, Dl in Rv. apply Permutation_length in Rv.
          rewrite map_length, (written_repeat _ _ Fa), !repeat_length in Rv. rewrite O. unfold told. rewrite Dl, lines_repeat. congruence. }
        repeat (split; [solve [auto; first [apply (ce_inq _ _ C2)|apply (ce_inq _ _ C1)|apply (ce_state _ _ C1)]]|]). apply (ce_state _ _ C2).
  - left. destruct Wc as (_ & us0 & u0 & E & Lj & Fr & O).
    assert (Nu : nth_error (us a) j = Some u0) by (rewrite E, <- Lj; apply nth_last).
    destruct (Forall2_nth _ _ _ (ce_us _ _ C1) _ _ Nu) as (op & No & Aw). rewrite Forall_forall in Fa. destruct (Fa _ (nth_error_In _ _ No)) as [rn ->]. cbn in Aw. destruct Aw as [z ->].
    eexists. replace KStep with (client_kind p) by (unfold client_kind; now rewrite Ap). apply D_client with (rnd := 0%N).
    { unfold drawn. lia. }
    unfold client_step. rewrite Cra, Ap, Nu. reflexivity.
Qed.

Lemma dsteps_app d n i w x y : dsteps d n i w x y -> forall m z, dsteps d m 0 0 y z -> dsteps d (n + m) i w x z.
Proof.
  intros H m z K. remember 0 as i0 eqn:Ei in K at 1. remember 0 as w0 eqn:Ew in K at 1. induction K as [y|m i0 w0 y y1 y2 K IH S|m i0 w0 y y1 y2 K IH S|m i0 w0 y y1 y2 K IH S]; try discriminate.
  - now rewrite Nat.add_0_r.
  - replace (n + Datatypes.S m) with (Datatypes.S (n + m)) by lia. eapply DS_step; eauto.
Qed.
Lemma dsteps_cons d x y : dstep d KStep x y -> forall m z, dsteps d m 0 0 y z -> dsteps d (S m) 0 0 x z.
Proof. intros S m z K. change (Datatypes.S m) with (1 + m). eapply dsteps_app; [|exact K]. eapply DS_step; [apply DS_0|exact S]. Qed.
Theorem demo_settles gc gs oc os d n i w x : fit gc gs -> streams oc -> data_overhead gc + length d <= 1500 -> dsteps d n i w (demo_start gc gs oc os) x ->
  exists m y, n + m <= 152 + 29 * w + 31 * i /\ dsteps d m 0 0 x y /\ caught_up d w y.
Proof.
  intros Ft So Sz. remember (152 + 29 * w + 31 * i - n) as k eqn:Ek. revert n x Ek. induction k as [|k IH]; intros n x Ek T.
  all: destruct (demo_fine _ _ _ _ _ _ _ _ _ Ft So Sz T) as (L & _ & _ & _ & _ & _ & _ & [[y S]|E]); [|exists 0, x; split; [lia|split; [apply DS_0|exact E]]].
  - pose proof (DS_step _ _ _ _ _ _ _ T S) as T'. destruct (demo_fine _ _ _ _ _ _ _ _ _ Ft So Sz T') as (L' & _). lia.
  - destruct (IH (Datatypes.S n) y) as (m & z & Lm & R2 & E2); [lia|eapply DS_step; eauto|]. exists (Datatypes.S m), z. split; [lia|]. split; [eapply dsteps_cons; eauto|exact E2].
Qed.
(** whenever the programs have caught up, the client may call Write again *)
Lemma caught_up_write gc gs oc os d n i w x : fit gc gs -> streams oc -> data_overhead gc + length d <= 1500 -> dsteps d n i w (demo_start gc gs oc os) x ->
  caught_up d w x -> exists y, dstep d KWrite x y.
Proof.
  intros Ft So Sz T (A & _ & _ & _ & _ & _ & _ & _ & St & _). destruct (demo_fine _ _ _ _ _ _ _ _ _ Ft So Sz T) as (_ & (Cr & _) & _).
  destruct (dinv_dsteps _ _ _ _ _ _ _ _ _ Ft So Sz T) as (m & ka & kb & _ & _ & _ & (_ & _ & W) & _). rewrite A in W. destruct W as (Dl & _).
  destruct x as [[a b u v] p q]. cbn [e_talk e_cl e_sv t_cl] in *.
  destruct (client_step d 0 a p) as [[a' p']|] eqn:Es.
  - eexists. replace KWrite with (client_kind p) by (unfold client_kind; now rewrite A). eapply D_client; [|exact Es]. unfold drawn. lia.
  - exfalso. unfold client_step in Es. rewrite Cr, A in Es. unfold step in Es. rewrite Cr, Dl in Es. discriminate.
Qed.
