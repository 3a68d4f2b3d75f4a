(** How often a client sends its handshake messages. *)
From Verif Require Import GoBase BaseProofs ParamsModel MessagesModel MessagesProofs MessagesProofs2 AccessorProofs ConfigModel
  ConnModel ConnSpec ConnBase ConnInv ConnTrace ConnUser ConnMacro ConnMore ConnStable.
From Coq Require Import Arith Lia.
Open Scope nat_scope.

(** the event is the sending, by the monitor, of the handshake message that belongs to state s *)
Definition handshake (s : st) (e : event) : bool :=
  match e with
  | ESend OMon _ (Typed t) _ => match s, m_kind t with Down, KAspUp => true | Inactive, KAspActive => true | _, _ => false end
  | _ => false
  end.
Definition sent (s : st) (l : list event) : nat := length (filter (handshake s) l).
Definition updated (s : st) (l : list event) : nat := length (filter (st_eqb s) (updates l)).
(** the monitor is about to send it *)
Definition pending (s : st) (m : mpc) : nat :=
  match m with
  | MInit (Typed t) => match s, m_kind t with Down, KAspUp => 1 | Inactive, KAspActive => 1 | _, _ => 0 end
  | _ => 0
  end.
Lemma sent_app s a b : sent s (a ++ b) = sent s a + sent s b.
Proof. unfold sent. now rewrite filter_app, app_length. Qed.
Lemma updated_app s a b : updated s (a ++ b) = updated s a + updated s b.
Proof. unfold updated, updates. now rewrite flat_map_app, filter_app, app_length. Qed.

Lemma reply_kind g e m : error_reply g e = Ok (Some m) -> exists t, m = Typed t /\ m_kind t = KError.
Proof.
  destruct e; cbn [error_reply]; intros E; try discriminate; try (injection E as <-; eexists; split; reflexivity);
    destruct (first40 m0); cbn in E; try discriminate; injection E as <-; eexists; split; reflexivity.
Qed.
Lemma reply_no_handshake g e m s n b : error_reply g e = Ok (Some m) -> handshake s (ESend OMon n m b) = false.
Proof. intros E. destruct (reply_kind _ _ _ E) as (t & -> & K). cbn. rewrite K. now destruct s. Qed.
Definition work (l : label) : Prop := l <> LMon false.

(** the count of one step: what is added to the sends and to the updates; [lost] if a send fails *)
Lemma count_step s c l c' : s = Down \/ s = Inactive -> crash c' = None -> stepR c l c' -> mode c' = mode c /\
  (sopen c' = true -> sopen c = true) /\
  (mode c = Client -> exists lost, sent s (log c') + pending s (mon c') + lost + updated s (log c) = sent s (log c) + pending s (mon c) + updated s (log c') /\
     (work l -> sopen c' = true -> lost = 0)) /\
  (mode c = Server -> pending s (mon c) = 0 -> pending s (mon c') = 0 /\ sent s (log c') = sent s (log c)).
Proof.
  intros Hs C' S.
  assert (Z : forall a b, a = b -> exists lost, a + lost = b /\ (work l -> sopen c' = true -> lost = 0)) by (intros a b ->; exists 0; split; auto; lia).
  destruct S; cb; try discriminate;
    try (rewrite state_update_eq in * ); cb;
    rewrite ?sent_app, ?updated_app;
    try solve [split; [auto|split; [auto; try congruence|split; [intros _; exists 0; split; [try rewrite H; try rewrite H0; cbn; try lia|reflexivity]|intros _ P; try rewrite H in *; cbn in *; split; [auto|lia]]]]].
  - (* an error reply *)
    assert (E : sent s [ESend OMon 0 m b] = 0) by (unfold sent; cbn [filter]; now rewrite (reply_no_handshake _ _ _ _ _ _ H0)).
    rewrite E, H. split; [auto|]. split; [auto|]. split.
    + intros _. exists 0. split; [cbn; lia|auto].
    + intros _ _. split; [reflexivity|cbn; lia].
  - (* an update *)
    rewrite H. split; [auto|]. split; [auto|]. split.
    + intros Mo. exists 0. split; [|auto]. unfold upd_mon. rewrite Mo. destruct Hs as [-> | ->], s0, (st_eqb (state c) Active); cbn; lia.
    + intros Mo _. unfold upd_mon. rewrite Mo. split; [|cbn; lia]. destruct s0, (st_eqb (state c) Active); reflexivity.
  - (* a handshake message is sent *)
    rewrite H. assert (E : sent s [ESend OMon 0 m b] = pending s (MInit m)).
    { unfold sent, pending. cbn. destruct m as [t|]; [|reflexivity]. destruct s, (m_kind t); reflexivity. }
    rewrite E. split; [auto|]. split; [auto|]. split.
    + intros _. exists 0. split; [cbn [pending]; cbn; lia|auto].
    + intros _ P. split; [reflexivity|lia].
  - (* sending it fails *)
    split; [auto|]. split; [auto|]. split.
    + intros _. exists (pending s (mon c)). split; [cbn; lia|]. intros W So. exfalso. destruct ok; [|now apply W].
      destruct (wire_total m) as [b Wb]. specialize (H0 b Wb). rewrite So in H0. discriminate.
    + intros _ _. split; reflexivity.
  - bfields (set_dial DOk c). cb. rewrite B1, B6, B20, H. split; [auto|]. split; [auto|]. split; [intros _; exists 0; split; [cbn; lia|auto]|intros _ _; split; reflexivity].
  - fields c. bfields (closing c). rewrite B1, B6, B20, K1, K6, K20, sent_app, updated_app, H.
    split; [auto|]. split; [discriminate|]. split; [intros _; exists 0; split; [cbn; lia|discriminate]|intros _ _; split; [reflexivity|cbn; lia]].
  - assert (E : forall T (f : conn -> T), f (set_hbd d c) = f c -> f (if hba c then set_hbd d c else c) = f c) by (intros; destruct (hba c); auto).
    rewrite (E _ mode), (E _ log), (E _ mon), (E _ sopen) by reflexivity.
    split; [auto|]. split; [auto|]. split; [intros _; exists 0; split; [lia|auto]|intros _ P; split; [auto|lia]].
  - fields c. cb. rewrite K1, K6, K10, K20, sent_app, updated_app.
    split; [auto|]. split; [discriminate|]. split; [intros _; exists 0; split; [cbn; lia|discriminate]|intros _ P; split; [auto|cbn; lia]].
Qed.

Lemma count_run g o s ls c : s = Down \/ s = Inactive -> run (start Client g o) ls = Some c -> crash c = None ->
  exists lost, sent s (log c) + pending s (mon c) + lost = updated s (log c) /\ (Forall work ls -> sopen c = true -> lost = 0).
Proof.
  intros Hs. revert c. induction ls as [|l ls IH] using rev_ind; intros c R C.
  - inversion R. exists 0. split; [destruct Hs as [-> | ->]; reflexivity|auto].
  - rewrite run_app in R. destruct (run (start Client g o) ls) as [a|] eqn:Ra; [|discriminate].
    cbn [run] in R. destruct (step a l) as [b|] eqn:S; [|discriminate]. inversion R; subst b.
    destruct (step_stepR _ _ _ S) as [Ca S']. destruct (IH a eq_refl Ca) as (n & E & F).
    destruct (count_step s a l c Hs C S') as (Mo & So & Cl & _).
    assert (Ma : mode a = Client) by (apply (static_run _ _ _ Ra)).
    destruct (Cl Ma) as (n2 & E2 & F2). exists (n + n2). split; [lia|].
    intros W So'. apply Forall_app in W as [W1 W2]. inversion W2; subst. rewrite F, F2; auto.
Qed.
Lemma count_server g o s ls c : s = Down \/ s = Inactive -> run (start Server g o) ls = Some c -> crash c = None ->
  sent s (log c) = 0.
Proof.
  intros Hs R C. enough (pending s (mon c) = 0 /\ sent s (log c) = 0) by tauto. revert c R C.
  induction ls as [|l ls IH] using rev_ind; intros c R C.
  - inversion R. split; reflexivity.
  - rewrite run_app in R. destruct (run (start Server g o) ls) as [a|] eqn:Ra; [|discriminate].
    cbn [run] in R. destruct (step a l) as [b|] eqn:S; [|discriminate]. inversion R; subst b.
    destruct (step_stepR _ _ _ S) as [Ca S']. destruct (IH a eq_refl Ca) as [P E].
    destruct (count_step s a l c Hs C S') as (Mo & So & _ & Sv).
    assert (Ma : mode a = Server) by (apply (static_run _ _ _ Ra)).
    destruct (Sv Ma P). split; congruence.
Qed.

(** a packet that keeps the state makes a client send its handshake message again *)
Lemma resend c raw q m s hm : reachable c -> crash c = None -> mon c = MRead -> sopen c = true -> ctxd c = false -> mode c = Client ->
  inq c = raw :: q -> length raw <= bufsize -> valid raw m -> (forall t, m = Typed t -> m_kind t <> KHeartbeatAck) ->
  next_state m (state c) = s -> initial Client (cfg c) s = Some hm ->
  exists ls c' evs b, run c ls = Some c' /\ Forall smooth ls /\ crash c' = None /\ mon c' = MRead /\ state c' = s /\
    encodes hm b /\ log c' = log c ++ ERead raw :: evs ++ [EUpd s; ESend OMon 0 hm b].
Proof.
  intros R C M So Cx Mo Q Ln V NB Ns Im.
  destruct (process c raw q m R C M So Cx Q Ln V NB) as (rc & ls & c1 & evs & _ & _ & R1 & F1 & K & L1 & S1 & M1 & Q1 & _).
  destruct K as (K1 & K2 & _ & _ & K5 & _ & _ & _ & _ & _ & _ & _ & _ & K14). destruct (wire_total hm) as [b W].
  assert (M2 : mon c1 = MInit hm).
  { rewrite M1, Ns. unfold upd_mon. rewrite Mo. destruct s; cbn in Im; try discriminate; injection Im as <-; reflexivity. }
  eexists (ls ++ [LMon true]), _, evs, b. split.
  - eapply run_trans; [exact R1|]. eapply go; [congruence|eapply S_init_send; eauto; congruence| |reflexivity]. cb. congruence.
  - cb. split; [apply Forall_app; split; [exact F1|repeat constructor]|]. split; [congruence|]. split; [auto|]. split; [congruence|].
    split; [now apply wire_encodes|]. rewrite L1, Ns, <- !app_assoc. cbn [app]. now rewrite <- app_assoc.
Qed.
