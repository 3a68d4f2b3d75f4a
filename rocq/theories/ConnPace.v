(** BEATs: what they look like, when they are sent, and which BEAT ACKs are accepted. *)
From Verif Require Import GoBase BaseProofs ParamsModel MessagesModel WireSpec ParamsSpec MsgSpec ParamsProofs AccessorProofs MessagesProofs
  MessagesProofs2 ConfigModel ConnModel ConnSpec ConnBase ConnInv ConnTrace ConnUser ConnMacro ConnMore ConnStable ConnBeat ConfigWire.
From Coq Require Import Arith Lia.
Open Scope nat_scope.
Opaque max_value_len.

(** ** Specification *)
(** a received packet that is a BEAT ACK of protocol version 1 *)
Definition is_ack (raw : list byte) : bool :=
  match Parse raw with
  | Ok (Typed t) => match m_kind t with KHeartbeatAck => (b2n (Version (Typed t)) =? 1)%N | _ => false end
  | _ => false
  end.
(** number of BEAT ACKs received *)
Definition acks (l : list event) : nat := length (filter is_ack (reads l)).
(** each BEAT after the first is preceded by a BEAT ACK of its own, and all by an activation *)
Definition paced (l : list event) : Prop :=
  forall l1 s m b l2, l = l1 ++ ESend OHb s m b :: l2 -> length (beats l1) <= acks l1 /\ In Active (updates l1).

(** ** Proofs *)
Lemma acks_app a b : acks (a ++ b) = acks a + acks b.
Proof. unfold acks. rewrite reads_app, filter_app, app_length. reflexivity. Qed.
Definition not_beat (e : event) : Prop := match e with ESend OHb _ _ _ => False | _ => True end.
Lemma app_split2 {A} (l es l1 l2 : list A) x : l ++ es = l1 ++ x :: l2 ->
  (exists l2', l = l1 ++ x :: l2' /\ l2 = l2' ++ es) \/ (exists e1, l1 = l ++ e1 /\ es = e1 ++ x :: l2).
Proof.
  revert l1. induction l as [|y r IH]; intros l1 H; cbn [app] in H.
  - right. exists l1. auto.
  - destruct l1 as [|z l1]; cbn [app] in H; inversion H; subst.
    + left. exists r. auto.
    + destruct (IH _ H2) as [(l2' & -> & ->)|(e1 & -> & ->)]; [left; exists l2'; auto|right; exists e1; auto].
Qed.
Lemma paced_app l es : paced l -> Forall not_beat es -> paced (l ++ es).
Proof.
  intros P F l1 s m b l2 E. apply app_split2 in E. destruct E as [(l2' & E & _)|(e1 & _ & E)]; [eauto|].
  exfalso. rewrite E in F. apply Forall_app in F. destruct F as [_ F]. now inversion F.
Qed.
Lemma paced_beat l s m b : paced l -> length (beats l) <= acks l -> In Active (updates l) -> paced (l ++ [ESend OHb s m b]).
Proof.
  intros P A U l1 s' m' b' l2 E. apply app_split2 in E. destruct E as [(l2' & E & _)|(e1 & -> & E)]; [eauto|].
  destruct e1 as [|? [|]]; inversion E; subst. rewrite app_nil_r. auto.
Qed.
Lemma not_beats es : Forall not_beat es -> beats es = [].
Proof. induction 1 as [|e l H _ IH]; auto. cbn [beats flat_map]. fold (beats l). rewrite IH. now destruct e as [| |[]| | |]. Qed.

Definition ack_msg (m : m3ua) : bool :=
  match m with Typed t => match m_kind t with KHeartbeatAck => (b2n (Version m) =? 1)%N | _ => false end | Gen _ => false end.
Definition nb (b : bool) : nat := if b then 1 else 0.
(** BEAT ACKs on the way to the heartbeat goroutine *)
Definition iw (x : instr) : nat :=
  match x with IParse raw => nb (is_ack raw) | ISig m => nb (ack_msg m) | IBeatAck => 1 | _ => 0 end.
Definition hw (l : list instr) : nat := list_sum (map iw l).
Definition hsw (l : list (list instr)) : nat := list_sum (map hw l).
(** the heartbeat goroutine is before its next BEAT *)
Definition bw (b : bpc) : nat := match b with BStart | BWait | BRun | BRand | BWrite _ | BSleep => 1 | _ => 0 end.
Definition unwoken (b : bpc) : Prop := b = BStart \/ b = BWait.

Definition pace (c : conn) : Prop :=
  length (beats (log c)) + bw (hb c) + hsw (hs c) <= 1 + acks (log c) /\ paced (log c) /\
  (mon c = MEst -> In Active (updates (log c))) /\
  (unwoken (hb c) \/ In Active (updates (log c)) \/ sopen c = false).

Lemma hsw_upd l i y z : nth_error l i = Some y -> hsw (upd l i z) + hw y = hsw l + hw z.
Proof.
  intros H. destruct (upd_split l i y H) as (l1 & l2 & -> & _ & U). unfold hsw. rewrite U, !map_app, !list_sum_app. cbn [map list_sum fold_right]. 
  fold (list_sum (map hw l2)). lia.
Qed.
Lemma plan_weight m d l : plan m = (d, l) -> b2n (Version m) = 1%N -> hw l = nb (ack_msg m).
Proof.
  intros E V. destruct m as [t|g]; [|cbn in E; injection E as <- <-; reflexivity]. unfold ack_msg. rewrite V.
  unfold plan in E. destruct (m_kind t); injection E as <- <-; reflexivity.
Qed.
Lemma parse_weight raw m : Parse raw = Ok m -> is_ack raw = ack_msg m.
Proof. intros E. unfold is_ack, ack_msg. rewrite E. now destruct m. Qed.

Lemma pace_next c c' es : pace c -> log c' = log c ++ es -> Forall not_beat es ->
  bw (hb c') + hsw (hs c') <= bw (hb c) + hsw (hs c) + acks es ->
  (mon c' = MEst -> mon c = MEst \/ In Active (updates es)) ->
  (unwoken (hb c) -> unwoken (hb c') \/ mon c = MEst \/ sopen c' = false) ->
  (sopen c = false -> sopen c' = false) -> pace c'.
Proof.
  intros (P1 & P2 & P3 & P4) L F W M U So. unfold pace. rewrite L, beats_app, (not_beats es F), app_nil_r, acks_app, updates_app.
  split; [lia|]. split; [now apply paced_app|]. split.
  - intros E. apply in_app_iff. destruct (M E); auto.
  - rewrite in_app_iff. destruct P4 as [P4|[P4|P4]]; auto. destruct (U P4) as [V|[V|V]]; auto.
Qed.
Lemma pace_same c c' : pace c -> log c' = log c -> bw (hb c') + hsw (hs c') <= bw (hb c) + hsw (hs c) ->
  (mon c' = MEst -> mon c = MEst) -> (unwoken (hb c) -> unwoken (hb c') \/ mon c = MEst \/ sopen c' = false) ->
  (sopen c = false -> sopen c' = false) -> pace c'.
Proof. intros P L W M U So. apply (pace_next c c' []); auto; [rewrite app_nil_r; auto|unfold acks; cbn; lia]. Qed.

Lemma pace_step c l c' : pace c -> crash c = None -> stepR c l c' -> pace c'.
Proof.
  intros P C S.
  assert (Hu : forall i x k z, nth_error (hs c) i = Some (x :: k) -> hw z <= iw x + hw k -> hsw (upd (hs c) i z) <= hsw (hs c)).
  { intros i x k z N W. pose proof (hsw_upd _ _ _ z N) as E. cbn [hw map list_sum fold_right] in E. fold (list_sum (map iw k)) in E. fold (hw k) in E. lia. }
  assert (Hc : forall x k, hw (x :: k) = iw x + hw k) by reflexivity.
  destruct S;
    try solve [apply (pace_same c); auto; cb; try congruence; try lia; try (left; congruence); try tauto];
    try solve [apply (pace_same c); auto; cb; try congruence; try tauto;
      match goal with N : nth_error (hs c) ?i = Some (?x :: ?k) |- context [upd (hs c) ?i ?z] =>
        enough (hsw (upd (hs c) i z) <= hsw (hs c)) by lia; eapply (Hu i x k z N); rewrite ?Hc; cbn [iw]; cbn; lia end];
    try solve [eapply (pace_next c); [exact P|cb; rewrite <- ?app_assoc; reflexivity|repeat constructor| | | |]; cb; try congruence; try lia; try tauto];
    try solve [apply (pace_same c); auto; cb; try congruence;
      [repeat match goal with H : hb c = _ |- _ => rewrite H end; cbn [bw]; lia
      |intros [U|U]; first [congruence | left; now right]]].
  - rewrite state_update_eq. eapply (pace_next c); [exact P|cb; reflexivity|repeat constructor| | | |]; cb; try tauto; try lia.
    unfold upd_mon. intros E. right. destruct s, (mode c), (st_eqb (state c) Active); try discriminate E; cbn; auto.
  - bfields (set_dial DOk c). apply (pace_same c); auto; cb; try congruence; try tauto.
    rewrite B11, B13. destruct (hb c); cbn [bw]; lia.
  - eapply (pace_next c); [exact P|cb; reflexivity|repeat constructor| | | |]; cb; try congruence; try tauto.
    unfold hsw, acks. rewrite map_app, list_sum_app. cbn [map list_sum fold_right hw iw reads flat_map filter app].
    destruct (is_ack (firstn bufsize p)); cbn [nb length]; lia.
  - fields c. bfields (closing c). eapply (pace_next c) with (es := [EClosed]); [exact P|cb; congruence|repeat constructor| | | |]; cb; try congruence.
    + rewrite B11, B13, K11, K13. destruct (hb c); cbn [bw]; lia.
    + intros _. right. right. congruence.
  - apply (pace_same c); auto; cb; try tauto. apply Nat.add_le_mono_l. eapply Hu; [exact H|]. cbn [hw map list_sum fold_right iw].
    rewrite (parse_weight _ _ H0). lia.
  - apply (pace_same c); auto; cb; try tauto. apply Nat.add_le_mono_l. eapply Hu; [exact H|]. rewrite (plan_weight _ _ _ H2 H1). cbn [iw]. lia.
  - apply (pace_same c); auto; cb; try tauto. apply Nat.add_le_mono_l. eapply Hu; [exact H|]. rewrite (plan_weight _ _ _ H2 H1). cbn [iw]. lia.
  - eapply (pace_next c); [exact P|cb; reflexivity|repeat constructor| | | |]; cb; try congruence; try tauto.
    enough (hsw (upd (hs c) i k) <= hsw (hs c)) by lia. eapply Hu; [exact H|lia].
  - apply (pace_same c); auto; cb; try congruence.
    + rewrite H1. pose proof (hsw_upd _ _ _ k H) as E. rewrite Hc in E. cbn [iw bw] in *. lia.
    + intros [U|U]; congruence.
  - apply (pace_same c); auto; cb; try congruence; [rewrite H; destruct (hb_on (cfg c)); cbn [bw]; lia|intros [U|U]; congruence].
  - apply (pace_same c); auto; destruct (hba c); cb; auto; try congruence; first [rewrite H; cbn [bw]; lia|intros [U|U]; congruence].
  - (* a BEAT *) destruct P as (P1 & P2 & P3 & P4). rewrite H in P1, P4. cbn [bw] in P1.
    assert (A : In Active (updates (log c))) by (destruct P4 as [[U|U]|[U|U]]; auto; first [discriminate U|congruence]). (* *)
    unfold pace. cb. rewrite beats_app, app_length, acks_app, updates_app. cbn [beats flat_map app length bw].
    split; [unfold acks at 2; cbn; lia|]. split; [apply paced_beat; auto; lia|]. split; [intros; apply in_app_iff; auto|].
    right. left. apply in_app_iff; auto.
  - apply (pace_same c); auto; cb; try congruence; [destruct H as [->| ->]; cbn [bw]; lia|intros [U|U]; destruct H; congruence].
  - fields c. eapply (pace_next c) with (es := [EClosed]); [exact P|cb; congruence|repeat constructor| | | |]; cb; try congruence.
    + rewrite K11, K13. lia.
    + rewrite K10. auto.
    + rewrite K11. auto.
  - assert (F : Forall not_beat es) by (destruct H0 as [->|[->|(o & e & _ & ->)]]; repeat constructor).
    eapply (pace_next c); [exact P|cb; reflexivity|exact F| | | |]; cb; try congruence; try tauto. lia.
Qed.
Lemma pace_reachable c : reachable c -> pace c.
Proof.
  intros (m & g & o & ls & H). refine (run_inv_all pace pace_step ls _ _ _ H). unfold pace, start. cb. split; [cbn; lia|].
  split; [intros [|] ? ? ? ? E; discriminate|]. split; [discriminate|left; left; reflexivity].
Qed.

(** ** The octets of a BEAT *)
Lemma heartbeat_eq p : NewHeartbeat (Some p) =
  mkMsg KHeartbeat (mkHeader x01 x00 x03 x03 (u32 (N.of_nat (8 + MarshalLen (SetLength p)))) []) (fset FHeartbeatData (Some (SetLength p)) no_fields).
Proof. reflexivity. Qed.
Lemma beat_new x : length x = 128 -> beat x = Typed (NewHeartbeat (Some (NewHeartbeatData x))).
Proof.
  intros L. unfold beat. rewrite !heartbeat_eq. cbn [m_kind m_hdr m_f]. unfold MarshalLen, Padding.
  change (p_data (SetLength (NewHeartbeatData x))) with x. rewrite L. reflexivity.
Qed.
Lemma beat_octets128 x bs : length x = 128 -> encodes (beat x) bs <-> bs = packet x01 x00 x03 x03 140 (body_of [(9%N, x)]).
Proof.
  intros L. rewrite (beat_new x L).
  assert (F : Forall2 slot_ok (rfc_params BEAT) [Some (NewHeartbeatData x)]).
  { repeat (apply Forall2_cons || apply Forall2_nil). cbn [slot_ok]. split; [reflexivity|].
    change (p_data (NewHeartbeatData x)) with x. rewrite L. apply max_value_len_spec. lia. }
  rewrite (rt_message BEAT _ _ F (NewHeartbeat_rt _ F)). cbn [map option_map]. change (p_data (NewHeartbeatData x)) with x. unfold message.
  change (zip_slots (rfc_params BEAT) [Some x]) with [(9%N, x)]. change (rfc_class BEAT) with x03. change (rfc_type BEAT) with x03.
  assert (length (body_of [(9%N, x)]) = 132) as ->; [|reflexivity].
  unfold body_of, tlv. cbn [map concat fst snd]. rewrite app_nil_r, !app_length, !be_length, L, repeat_length. reflexivity.
Qed.

Lemma beat_in_history mo g l h : history mo g l h -> forall s m b, In (ESend OHb s m b) l ->
  hb_on g = true /\ s = 0%N /\ exists x, length x = 128 /\ m = beat x /\ encodes (beat x) b.
Proof.
  induction 1 as [|l h e h' H IH N]; intros s m b I; [contradiction|]. apply in_app_iff in I. destruct I as [I|[->|[]]]; [eauto|].
  inversion N; subst. split; auto. split; auto. eauto.
Qed.
Lemma beat_form c s m b : reachable c -> In (ESend OHb s m b) (log c) ->
  hb_on (cfg c) = true /\ s = 0%N /\ exists x, length x = 128 /\ m = beat x /\ b = packet x01 x00 x03 x03 140 (body_of [(9%N, x)]).
Proof.
  intros R I. destruct (trace_reachable c R) as [h H]. destruct (beat_in_history _ _ _ _ H _ _ _ I) as (A & B & x & L & E & F).
  split; auto. split; auto. exists x. split; auto. split; auto. now apply beat_octets128.
Qed.
Lemma beat_paced c l1 s m b l2 : reachable c -> log c = l1 ++ ESend OHb s m b :: l2 ->
  length (beats l1) <= acks l1 /\ In Active (updates l1).
Proof. intros R E. destruct (pace_reachable c R) as (_ & P & _). eapply P; eauto. Qed.

(** ** Which BEAT ACKs are accepted *)
Definition sound (c : conn) : Prop :=
  (hba c = true -> match hb c with BWrite d | BStore d => hbd c = d | _ => True end) /\
  (hba c = true -> last_beat (log c) (hbd c) \/ length (beats (log c)) + hsw (hs c) <= acks (log c)) /\
  (beats (log c) = [] \/ hba c = true \/ (length (beats (log c)) = 1 /\ exists d, hb c = BStore d)).

Lemma nb_beats l es : Forall not_beat es -> beats (l ++ es) = beats l.
Proof. intros F. now rewrite beats_app, (not_beats es F), app_nil_r. Qed.
Lemma sound_next c c' es : sound c -> log c' = log c ++ es -> Forall not_beat es -> hbd c' = hbd c -> hba c' = hba c ->
  (forall d, hb c' = BWrite d -> hb c = BWrite d) -> (forall d, hb c' = BStore d <-> hb c = BStore d) ->
  hsw (hs c') <= hsw (hs c) + acks es -> sound c'.
Proof.
  intros (S1 & S2 & S3) L F Hd Ha Hw Hs W. unfold sound. rewrite L, Hd, Ha, (nb_beats _ _ F), acks_app. split; [|split].
  - intros E. specialize (S1 E). destruct (hb c') eqn:B; auto.
    + specialize (Hw _ eq_refl). now rewrite Hw in S1.
    + destruct (Hs d) as [Q _]. rewrite (Q eq_refl) in S1. exact S1.
  - intros E. destruct (S2 E) as [X|X]; [left; now apply last_beat_app|right; lia].
  - destruct S3 as [X|[X|(X & d & Y)]]; auto. right. right. split; auto. exists d. now apply Hs.
Qed.
Lemma sound_step c l c' : ConnStable.beats c -> pace c -> sound c -> no_other l -> crash c = None -> stepR c l c' -> sound c'.
Proof.
  intros Lb P So O C S.
  assert (Hu : forall i x k z, nth_error (hs c) i = Some (x :: k) -> hw z <= iw x + hw k -> hsw (upd (hs c) i z) <= hsw (hs c)).
  { intros i x k z N W. pose proof (hsw_upd _ _ _ z N) as E. cbn [hw map list_sum fold_right] in E. fold (list_sum (map iw k)) in E. fold (hw k) in E. lia. }
  assert (Hc : forall x k, hw (x :: k) = iw x + hw k) by reflexivity.
  assert (Same : forall c2, log c2 = log c -> hbd c2 = hbd c -> hba c2 = hba c ->
    (forall d, hb c2 = BWrite d -> hb c = BWrite d) -> (forall d, hb c2 = BStore d <-> hb c = BStore d) ->
    hsw (hs c2) <= hsw (hs c) -> sound c2).
  { intros c2 E1 E2 E3 E4 E5 E6. apply (sound_next c c2 []); auto; [now rewrite app_nil_r|lia]. }
  destruct S; try contradiction;
    try solve [apply Same; cb; auto; try reflexivity; try lia; intros; split; congruence];
    try solve [apply Same; cb; auto; try reflexivity;
      match goal with N : nth_error (hs c) ?i = Some (?x :: ?k) |- context [upd (hs c) ?i ?z] =>
        eapply (Hu i x k z N); rewrite ?Hc; cbn [iw]; cbn; lia end];
    try solve [eapply (sound_next c); [exact So|cb; rewrite <- ?app_assoc; reflexivity|repeat constructor| | | | |]; cb; auto; try reflexivity; try lia];
    try solve [apply Same; cb; auto; try lia; try congruence; intros; split; intros; try congruence; try (destruct H; congruence)].
  - rewrite state_update_eq. eapply (sound_next c); [exact So|cb; reflexivity|repeat constructor| | | | |]; cb; auto; try reflexivity; try lia.
  - bfields (set_dial DOk c). apply Same; cb; try congruence; auto.
    + rewrite B11. destruct (hb c); congruence.
    + intros d. rewrite B11. destruct (hb c); split; congruence.
    + rewrite B13. auto.
  - eapply (sound_next c); [exact So|cb; reflexivity|repeat constructor| | | | |]; cb; auto; try reflexivity.
    unfold hsw, acks. rewrite map_app, list_sum_app. cbn [map list_sum fold_right hw iw reads flat_map filter app].
    destruct (is_ack (firstn bufsize p)); cbn [nb length]; lia.
  - fields c. bfields (closing c). eapply (sound_next c) with (es := [EClosed]); [exact So|cb; congruence|repeat constructor| | | | |]; cb; try congruence.
    + rewrite B11, K11. destruct (hb c); congruence.
    + intros d. rewrite B11, K11. destruct (hb c); split; congruence.
    + rewrite B13, K13. lia.
  - apply Same; cb; auto; try reflexivity. eapply Hu; [exact H|]. cbn [hw map list_sum fold_right iw]. rewrite (parse_weight _ _ H0). lia.
  - apply Same; cb; auto; try reflexivity. eapply Hu; [exact H|]. rewrite (plan_weight _ _ _ H2 H1). cbn [iw]. lia.
  - apply Same; cb; auto; try reflexivity. eapply Hu; [exact H|]. rewrite (plan_weight _ _ _ H2 H1). cbn [iw]. lia.
  - eapply (sound_next c); [exact So|cb; reflexivity|repeat constructor| | | | |]; cb; auto; try reflexivity.
    enough (hsw (upd (hs c) i k) <= hsw (hs c)) by lia. eapply Hu; [exact H|lia].
  - apply Same; cb; auto; try congruence; [intros; split; congruence|]. eapply Hu; [exact H|lia].
  - apply Same; cb; auto; try (intros; destruct (hb_on (cfg c))); try split; congruence.
  - (* new random data *)
    destruct P as (P1 & _). rewrite H in P1. cbn [bw] in P1. destruct So as (S1 & S2 & S3). unfold sound.
    destruct (hba c) eqn:Ha; cb; (split; [|split]); try congruence; auto.
    + intros _. right. lia.
    + destruct S3 as [X|[X|(_ & d' & X)]]; auto; congruence.
  - (* a BEAT *)
    destruct So as (S1 & S2 & S3). rewrite H in S1. unfold sound. cb. rewrite beats_app, app_length. cbn [beats flat_map app length]. split; [|split].
    + exact S1.
    + intros E. left. rewrite (S1 E). exists (log c), b, []. auto.
    + destruct S3 as [X|[X|(_ & d' & X)]]; [|auto|congruence]. right. right. rewrite X. split; [reflexivity|eauto].
  - (* its data is stored *)
    destruct So as (S1 & S2 & S3). unfold sound. cb. split; [auto|]. split; [|auto]. intros _. left. unfold ConnStable.beats in Lb. now rewrite H in Lb.
  - fields c. eapply (sound_next c) with (es := [EClosed]); [exact So|cb; congruence|repeat constructor| | | | |]; cb; try congruence. all: rewrite ?K11, ?K13; auto; try lia; try (intros; reflexivity).
  - assert (F : Forall not_beat es) by (destruct H0 as [->|[->|(o & e & _ & ->)]]; repeat constructor).
    eapply (sound_next c); [exact So|cb; reflexivity|exact F| | | | |]; cb; auto; try reflexivity. lia.
Qed.
Lemma sound_run m g o ls c : run (start m g o) ls = Some c -> Forall no_other ls -> pace c /\ sound c.
Proof.
  intros R F. enough (ConnStable.beats c /\ pace c /\ sound c) by tauto.
  refine (run_inv no_other (fun c => ConnStable.beats c /\ pace c /\ sound c) _ ls (start m g o) c _ F R).
  - intros a l b (A1 & A2 & A3) O C S. split; [eapply beats_step; eauto|]. split; [eapply pace_step; eauto|eapply sound_step; eauto].
  - split; [exact Logic.I|]. split; [apply pace_reachable, reachable_start|]. unfold sound, start. cb. split; [discriminate|]. split; [discriminate|left; reflexivity].
Qed.
Lemma beat_inj x y : beat x = beat y -> x = y.
Proof. unfold beat. intros E. injection E as _ E. exact E. Qed.
Lemma last_unique {A} (P : A -> Prop) l1 l1' x y l2 l2' : l1 ++ x :: l2 = l1' ++ y :: l2' -> Forall P l2 -> Forall P l2' -> ~ P x -> ~ P y -> x = y.
Proof.
  revert l1'. induction l1 as [|a l1 IH]; intros [|a' l1'] E F F' Nx Ny; cbn [app] in E; injection E as E1 E2.
  - auto.
  - exfalso. apply Ny. subst l2. apply Forall_app in F. destruct F as [_ F]. now inversion F.
  - exfalso. apply Nx. subst l2'. apply Forall_app in F'. destruct F' as [_ F']. now inversion F'.
  - eapply IH; eauto.
Qed.
Lemma last_beat_fun l x y : last_beat l x -> last_beat l y -> x = y.
Proof.
  intros (l1 & b & l2 & -> & F) (l1' & b' & l2' & E & F'). pose proof (last_unique _ _ _ _ _ _ _ E F F' (fun z => z) (fun z => z)) as H.
  apply beat_inj. congruence.
Qed.
(** the BEAT ACK of the last BEAT, from the second BEAT on *)
Lemma good_ack m g o ls c i ok t p k d : run (start m g o) ls = Some c -> Forall no_other ls -> crash c = None ->
  nth_error (hs c) i = Some (IHandle t :: k) -> m_kind t = KHeartbeatAck -> fget FHeartbeatData (m_f t) = Some p -> HeartbeatData p = d ->
  last_beat (log c) d -> 2 <= length (beats (log c)) -> acks (log c) <= length (beats (log c)) ->
  state c = Active -> unlocked c = true -> step c (LHand i ok) = Some (hgo i k c).
Proof.
  intros R F C N K Fp Hp Lb B2 Ab St U. destruct (sound_run m g o ls c R F) as [P (_ & S2 & S3)].
  assert (Rc : reachable c) by (exists m, g, o, ls; exact R).
  assert (Ha : hba c = true) by (destruct S3 as [X|[X|(X & _)]]; auto; [rewrite X in B2; cbn in B2; lia|lia]).
  assert (W : 1 <= hsw (hs c)).
  { destruct (Inv_reachable c Rc C) as (_ & _ & h & _ & _ & _ & _ & _ & T).
    destruct (token_hand _ _ _ _ _ T N) as (pre & raw & _ & _ & _ & _ & _ & _ & Fp'). apply for_packet_inv in Fp' as (_ & Pl & _).
    assert (k = [IBeatAck; ICur]) as -> by (unfold plan in Pl; rewrite K in Pl; cbn [snd] in Pl; congruence).
    destruct (upd_split _ _ _ N) as (l1 & l2 & E & _). rewrite E. unfold hsw. rewrite map_app, list_sum_app. cbn. lia. }
  assert (hbd c = d) as Hd.
  { destruct (S2 Ha) as [X|X]; [eapply last_beat_fun; eauto|lia]. }
  unfold step, step_hand. rewrite C, N, U. unfold handle. rewrite K, St, Fp, Hp, Hd. cbn [negb st_eqb].
  destruct (list_eq_dec _ _ _); [reflexivity|contradiction].
Qed.
