(** An endpoint that only answers is the function of ExactSpec, in every interleaving. *)
From Verif Require Import GoBase BaseProofs ParamsModel MessagesModel MessagesProofs MessagesProofs2 ConfigModel
  ConnModel ConnSpec ConnBase ConnInv ConnTrace ConnUser ConnCodec ConnMacro ConnMore ConnStable ProcSpec ProcProofs ConnPair ConnPieces ConnDialog ConnDuo ConnPeer ExactSpec.
From Coq Require Import Arith Lia.
Open Scope nat_scope.

(** ** The rest of a packet goroutine in state s *)
Inductive dest := Go (s : st) | Never | Boom.
Inductive tail (s : st) : list instr -> dest -> nat -> Prop :=
| Ta_end : tail s [] Never 0
| Ta_st s' : live s' -> tail s [ISt s'] (Go s') 1
| Ta_cur : tail s [ICur] (Go s) 2
| Ta_ack k : tail s (IBeatAck :: k) Never 0.
Inductive doing (g : config) (d : list byte) (s : st) : list instr -> list (list byte) -> dest -> nat -> Prop :=
| Do_tail k x w : tail s k x w -> doing g d s k [] x w
| Do_write m b k x w : wire m = Ok b -> tail s k x w -> doing g d s (IWrite m :: k) [b] x (2 + w)
| Do_err e r b k x w : error_reply g e = Ok (Some r) -> wire r = Ok b -> tail s k x w -> doing g d s (IErr e :: k) [b] x (3 + w)
| Do_nil t k o x w : handle g d s t = HNil -> doing g d s k o x w -> doing g d s (IHandle t :: k) o x (1 + w)
| Do_herr t e k o x w : handle g d s t = HErr e -> doing g d s (IErr e :: k) o x w -> doing g d s (IHandle t :: k) o x (1 + w)
| Do_reply t r k o x w : handle g d s t = HReply r -> doing g d s (IWrite r :: k) o x w -> doing g d s (IHandle t :: k) o x (1 + w)
| Do_panic t k : handle g d s t = HPanic PNil -> doing g d s (IHandle t :: k) [] Boom 1
| Do_version m o x w : b2n (Version m) <> 1%N -> doing g d s [IErr (EInvalidVersion (Version m))] o x w -> doing g d s [ISig m] o x (1 + w)
| Do_sig m l o x w : b2n (Version m) = 1%N -> plan m = (None, l) -> doing g d s l o x w -> doing g d s [ISig m] o x (1 + w)
| Do_garbage raw e : Parse raw = Err e -> doing g d s [IParse raw] [] Never 1
| Do_parse raw m o x w : Parse raw = Ok m -> doing g d s [ISig m] o x w -> doing g d s [IParse raw] o x (1 + w).

Inductive greets (mo : cmode) (g : config) (s : st) : list (list byte) -> Prop :=
| Gr_none : initial mo g s = None -> greets mo g s []
| Gr_some m b : initial mo g s = Some m -> wire m = Ok b -> greets mo g s [b].
Inductive leads (mo : cmode) (g : config) (s : st) (told : bool) : dest -> list (list byte) -> fin -> Prop :=
| Le_go s' gs : greets mo g s' gs -> live s' -> leads mo g s told (Go s') gs (entering s s' told)
| Le_never : leads mo g s told Never [] (Deaf s told)
| Le_boom : leads mo g s told Boom [] Panicked.

Inductive phase (mo : cmode) (g : config) (d : list byte) (s : st) : bool -> dialst -> mpc -> list (list instr) -> list (list byte) -> fin -> nat -> Prop :=
| Ph_ini gs : s = Down -> greets mo g Down gs -> phase mo g d s true DWait MSelect [] gs (Waits Down false) 5
| Ph_upd t s' l gs : idle l -> live s' -> greets mo g s' gs -> phase mo g d s false (dial_of t) (MUpd s') l gs (entering s s' t) 4
| Ph_init t m b l : idle l -> wire m = Ok b -> phase mo g d s false (dial_of t) (MInit m) l [b] (Waits s t) 2
| Ph_est l : idle l -> s = Active -> phase mo g d s false DWait MEst l [] (Waits Active true) 1
| Ph_hung l : idle l -> s = Active -> phase mo g d s false DOk MEst l [] Blocked 0
| Ph_read t l : idle l -> phase mo g d s false (dial_of t) MRead l [] (Waits s t) 0
| Ph_work t l il o x w gs f : idle l -> doing g d s il o x w -> leads mo g s t x gs f ->
    phase mo g d s false (dial_of t) MSelect (l ++ [il]) (o ++ gs) f (4 + w)
| Ph_err t l il x w gs f orig e r b : idle l -> error_reply g e = Ok (Some r) -> wire r = Ok b -> tail s il x w -> leads mo g s t x gs f ->
    phase mo g d s false (dial_of t) (MErr orig e) (l ++ [il]) (b :: gs) f (6 + w).
Definition at_phase (mo : cmode) (g : config) (c : conn) : list (list byte) -> fin -> nat -> Prop :=
  fun o f w => live (state c) /\ phase mo g (hbd c) (state c) (ini c) (dial c) (mon c) (hs c) o f w.

Definition crashed (c : conn) (o : list (list byte)) (f : fin) : Prop := crash c = Some PNil /\ o = [] /\ f = Panicked.
Definition silent mo g c c' o f w : Prop :=
  inq c' = inq c /\ packets (log c') = packets (log c) /\ ((calm mo g c' /\ exists w', at_phase mo g c' o f w' /\ w' + hw (hb c') < w + hw (hb c)) \/ crashed c' o f).
Definition sends mo g c c' o f w : Prop :=
  inq c' = inq c /\ exists b o' w', o = b :: o' /\ packets (log c') = packets (log c) ++ [b] /\
    calm mo g c' /\ at_phase mo g c' o' f w' /\ w' + hw (hb c') < w + hw (hb c).
Definition takes mo g c c' (o : list (list byte)) f : Prop :=
  exists p q s t, inq c = p :: q /\ o = [] /\ f = Waits s t /\ packets (log c') = packets (log c) /\ hw (hb c') = hw (hb c) /\
    inq c' = (match skipn 1500 p with [] => q | _ => skipn 1500 p :: q end) /\ live s /\ calm mo g c' /\ hbd c' = hbd c /\
    forall os x w gs f', doing g (hbd c) s [IParse (firstn 1500 p)] os x w -> leads mo g s t x gs f' -> at_phase mo g c' (os ++ gs) f' (4 + w).

Lemma entering_live s s' t gs mo g : live s' -> greets mo g s' gs -> leads mo g s t (Go s') gs (entering s s' t).
Proof. intros. now constructor. Qed.
Lemma upd_phase mo g c s' t gs : mode c = mo -> cfg c = g -> idle (hs c) -> ini c = false -> dial c = dial_of t -> live s' -> greets mo g s' gs ->
  exists w, w < 4 /\ at_phase mo g (state_update s' c) gs (entering (state c) s' t) w.
Proof.
  intros M G I Ni D Lv Gr. unfold at_phase, state_update. destruct s'; try contradiction; unfold entering; cb; rewrite ?M, ?G.
  - destruct mo; cb; rewrite Ni, D; inversion Gr as [E|m b E W]; cbn in E; try discriminate.
    + injection E as <-. exists 2. split; [lia|]. split; [exact Lv|]. now apply Ph_init.
    + exists 0. split; [lia|]. split; [exact Lv|]. now apply Ph_read.
  - destruct mo; cb; rewrite Ni, D; inversion Gr as [E|m b E W]; cbn in E; try discriminate.
    + injection E as <-. exists 2. split; [lia|]. split; [exact Lv|]. now apply Ph_init.
    + exists 0. split; [lia|]. split; [exact Lv|]. now apply Ph_read.
  - assert (gs = []) by (inversion Gr as [E|m b E W]; destruct mo; cbn in E; congruence). subst gs.
    destruct (state c) eqn:Sa; cbn [st_eqb]; cb; rewrite Ni, D;
      try (destruct t; [exists 0|exists 1]; (split; [lia|]); (split; [exact Lv|]); [now apply Ph_hung|now apply Ph_est]).
    exists 0. split; [lia|]. split; [exact Lv|]. now apply Ph_read.
Qed.

Lemma calm_step mo g c l c' o f w : hb_on g = false -> calm mo g c -> at_phase mo g c o f w -> benign l -> step c l = Some c' ->
  silent mo g c c' o f w \/ sends mo g c c' o f w \/ takes mo g c c' o f.
Proof.
  intros Ho C [Lv Ph] B S. destruct (calm_labels _ _ _ _ _ C Ho B S) as [(h & -> & H1 & H2)|Lb].
  { left. unfold silent. cb. split; [reflexivity|]. split; [reflexivity|]. left. split; [now apply calm_set_hb|]. exists w.
    split; [split; [exact Lv|exact Ph]|cb; lia]. }
  pose proof C as [Mo G X K So Cr D U H]. unfold step in S. rewrite Cr in S.
  remember (state c) as s eqn:Es in Ph, Lv. remember (ini c) as ii eqn:Ei in Ph. remember (dial c) as dl eqn:Ed in Ph. remember (mon c) as mn eqn:Em in Ph. remember (hs c) as hh eqn:Eh in Ph.
  destruct Ph as [gs Hs Gr|t s' l0 gs I Lv' Gr|t m b l0 I W|l0 I Hs|l0 I Hs|t l0 I|t l0 il o x w gs f I Do Le|t l0 il x w gs f orig e r b I Er W Ta Le].
  - (* the initial state *)
    destruct Lb as [->|[->|[i ->]]].
    + rewrite <- Ei, <- Em in S. injection S as <-. left. split; [reflexivity|]. split; [reflexivity|]. left. split; [same C|]. exists 4. split; [|cb; lia].
      split; [cb; now rewrite <- Es|]. cb. rewrite <- Ed, <- Eh, <- Es. change DWait with (dial_of false).
      change (Waits Down false) with (entering s Down false). apply Ph_upd; [constructor|exact Logic.I|exact Gr].
    + unfold step_mon in S. rewrite <- Em in S. discriminate.
    + unfold step_hand in S. rewrite <- Eh in S. destruct i; discriminate.
  - (* a state update *)
    destruct Lb as [->|[->|[i ->]]].
    + rewrite <- Ei in S. discriminate.
    + unfold step_mon in S. rewrite <- Em in S. injection S as <-.
      destruct (state_update_same s' c) as (E1 & E2 & E3 & E4 & E5 & E6 & E7 & E8 & E9 & E10 & E11).
      left. split; [exact E10|]. split; [exact E11|]. left. split; [eapply calm_same; eauto|].
      destruct (upd_phase mo g c s' t gs Mo G ltac:(now rewrite <- Eh) ltac:(auto) ltac:(auto) Lv' Gr) as (w' & Lw & P). rewrite Es.
      exists w'. split; [exact P|]. rewrite E9. lia.
    + unfold step_hand in S. rewrite <- Eh in S. destruct (nth_error l0 i) as [z|] eqn:N; [|discriminate]. rewrite (idle_nth _ _ _ I N) in S. discriminate.
  - (* the first message after an update *)
    destruct Lb as [->|[->|[i ->]]].
    + rewrite <- Ei in S. discriminate.
    + unfold step_mon in S. rewrite <- Em in S. rewrite (signal_wire _ _ _ _ W So) in S. injection S as <-.
      right. left. split; [reflexivity|]. exists b, [], 0. split; [reflexivity|]. split; [cb; now rewrite packets_app|].
      split; [same C|]. split; [|cb; lia]. split; [cb; now rewrite <- Es|]. cb. rewrite <- ?Es, <- ?Ei, <- ?Ed, <- ?Eh. now apply Ph_read.
    + unfold step_hand in S. rewrite <- Eh in S. destruct (nth_error l0 i) as [z|] eqn:N; [|discriminate]. rewrite (idle_nth _ _ _ I N) in S. discriminate.
  - (* reporting the establishment *)
    destruct Lb as [->|[->|[i ->]]].
    + rewrite <- Ei in S. discriminate.
    + unfold step_mon in S. rewrite <- Em, K, <- Ed in S. injection S as <-.
      rewrite broadcast_eq. assert (Hw : hq (woken (hb c)) /\ hw (woken (hb c)) <= hw (hb c)) by (destruct (hb c); cbn in H; try contradiction; cbn; auto).
      left. split; [reflexivity|]. split; [reflexivity|]. left. split; [constructor; cb; auto; apply Hw|]. exists 0. split; [|cb; lia].
      split; [cb; now rewrite <- Es|]. cb. rewrite <- Es, <- Ei, <- Eh, Hs. change DOk with (dial_of true). now apply Ph_read.
    + unfold step_hand in S. rewrite <- Eh in S. destruct (nth_error l0 i) as [z|] eqn:N; [|discriminate]. rewrite (idle_nth _ _ _ I N) in S. discriminate.
  - (* hung *)
    destruct Lb as [->|[->|[i ->]]].
    + rewrite <- Ei in S. discriminate.
    + unfold step_mon in S. rewrite <- Em, K, <- Ed in S. discriminate.
    + unfold step_hand in S. rewrite <- Eh in S. destruct (nth_error l0 i) as [z|] eqn:N; [|discriminate]. rewrite (idle_nth _ _ _ I N) in S. discriminate.
  - (* reading *)
    destruct Lb as [->|[->|[i ->]]].
    + rewrite <- Ei in S. discriminate.
    + unfold step_mon in S. rewrite <- Em, So in S. cbn [andb] in S. destruct (inq c) as [|raw q] eqn:Q; [discriminate|]. apply some_inj in S. subst c'.
      right. right. exists raw, q, s, t. split; [exact Q|]. split; [reflexivity|]. split; [reflexivity|]. split; [cb; rewrite packets_app; cbn; apply app_nil_r|].
      split; [reflexivity|]. split; [reflexivity|]. split; [exact Lv|]. split; [same C|]. split; [reflexivity|]. intros os x w gs f' Do Le. split; [cb; now rewrite <- Es|]. cb. rewrite <- ?Es, <- ?Ei, <- ?Ed, <- ?Eh.
      eapply Ph_work; eauto.
    + unfold step_hand in S. rewrite <- Eh in S. destruct (nth_error l0 i) as [z|] eqn:N; [|discriminate]. rewrite (idle_nth _ _ _ I N) in S. discriminate.
  - (* a packet goroutine *)
    destruct Lb as [->|[->|[i ->]]].
    + rewrite <- Ei in S. discriminate.
    + unfold step_mon in S. rewrite <- Em in S. discriminate.
    + unfold step_hand in S. rewrite <- Eh in S. destruct (idle_last l0 il i I) as [N|[N|[-> N]]]; rewrite N in S; try discriminate.
      assert (Un : unlocked c = true) by (unfold unlocked; now rewrite <- Em).
      assert (Gn : forall il' o' w' c1, state c1 = s -> ini c1 = false -> dial c1 = dial_of t -> mon c1 = MSelect -> hs c1 = l0 ++ [il'] -> hbd c1 = hbd c ->
        doing g (hbd c) s il' o' x w' -> at_phase mo g c1 (o' ++ gs) f (4 + w')).
      { intros il' o' w' c1 E1 E2 E3 E4 E5 E6 Do'. split; [now rewrite E1|]. rewrite E1, E2, E3, E4, E5, E6. eapply Ph_work; eauto. }
      destruct Do as [k x w Ta|m b k x w W Ta|e r b k x w Er W Ta|t0 k o x w Hn Do|t0 e k o x w Hn Do|t0 r k o x w Hn Do|t0 k Hn|m o x w V Do|m l1 o x w V P Do|raw e P|raw m o x w P Do];
        cbv beta iota in S.
      * destruct Ta as [|s' Lv'| |k].
        -- discriminate.
        -- inversion Le as [s1 gs1 Gr Lv1| |]; subst. rewrite <- Em in S. injection S as <-. left. split; [reflexivity|]. split; [reflexivity|]. left. split; [same C|]. exists 4. split; [|cb; lia].
           split; [exact Lv|]. cb. rewrite <- ?Es, <- ?Ei, <- ?Ed, <- ?Eh, upd_last. cbn [app]. apply Ph_upd; [now apply idle_snoc|assumption|assumption].
        -- rewrite Un in S. injection S as <-. left. split; [reflexivity|]. split; [reflexivity|]. left. split; [same C|]. exists (4 + 1). split; [|cb; lia].
           apply (Gn [ISt (state c)] []); cb; auto; [now rewrite <- ?Eh, upd_last|]. rewrite <- Es. apply Do_tail. now apply Ta_st.
        -- rewrite K in S. destruct (hb c); cbn in H; try contradiction; discriminate.
      * rewrite (signal_wire _ _ _ _ W So) in S. injection S as <-.
        right. left. split; [reflexivity|]. exists b, gs, (4 + w). split; [reflexivity|]. split; [cb; now rewrite packets_app|]. split; [same C|].
        split; [|cb; lia]. apply (Gn k []); cb; auto; [now rewrite <- ?Eh, upd_last|now apply Do_tail].
      * unfold recv_err in S. cb. rewrite <- Em in S. injection S as <-. left. split; [reflexivity|]. split; [reflexivity|]. left. split; [same C|]. exists (6 + w).
        split; [|cb; lia]. split; [cb; now rewrite <- Es|]. cb. rewrite <- ?Es, <- ?Ei, <- ?Ed, <- ?Eh, upd_last. cbn [app]. eapply Ph_err; eauto.
      * rewrite Un, G, <- Es, Hn in S. injection S as <-. left. split; [reflexivity|]. split; [reflexivity|]. left. split; [same C|].
        exists (4 + w). split; [|cb; lia]. apply (Gn k o); cb; auto. now rewrite <- ?Eh, upd_last.
      * rewrite Un, G, <- Es, Hn in S. injection S as <-. left. split; [reflexivity|]. split; [reflexivity|]. left. split; [same C|].
        exists (4 + w). split; [|cb; lia]. apply (Gn (IErr e :: k) o); cb; auto. now rewrite <- ?Eh, upd_last.
      * rewrite Un, G, <- Es, Hn in S. injection S as <-. left. split; [reflexivity|]. split; [reflexivity|]. left. split; [same C|].
        exists (4 + w). split; [|cb; lia]. apply (Gn (IWrite r :: k) o); cb; auto. now rewrite <- ?Eh, upd_last.
      * rewrite Un, G, <- Es, Hn in S. injection S as <-. inversion Le; subst. left. split; [reflexivity|]. split; [reflexivity|]. right. repeat split.
      * rewrite X in S. apply N.eqb_neq in V. rewrite V in S. cbn [negb] in S. injection S as <-. left. split; [reflexivity|]. split; [reflexivity|]. left. split; [same C|].
        exists (4 + w). split; [|cb; lia]. apply (Gn [IErr (EInvalidVersion (Version m))] o); cb; auto. now rewrite <- ?Eh, upd_last.
      * rewrite X, V in S. cbn [negb N.eqb Pos.eqb] in S. rewrite P in S. injection S as <-. left. split; [reflexivity|]. split; [reflexivity|]. left. split; [same C|].
        exists (4 + w). split; [|cb; lia]. apply (Gn l1 o); cb; auto. now rewrite <- ?Eh, upd_last.
      * rewrite P in S. injection S as <-. left. split; [reflexivity|]. split; [reflexivity|]. left. split; [same C|]. exists (4 + 0). split; [|cb; lia].
        apply (Gn [] []); cb; auto; [now rewrite <- ?Eh, upd_last|]. apply Do_tail. apply Ta_end.
      * rewrite P in S. injection S as <-. left. split; [reflexivity|]. split; [reflexivity|]. left. split; [same C|]. exists (4 + w). split; [|cb; lia].
        apply (Gn [ISig m] o); cb; auto. now rewrite <- ?Eh, upd_last.
  - (* an error *)
    destruct Lb as [->|[->|[i ->]]].
    + rewrite <- Ei in S. discriminate.
    + unfold step_mon in S. rewrite <- Em in S. change (cfg (emit (ERefused orig e) c)) with (cfg c) in S. rewrite G, Er, (signal_wire _ _ _ _ W) in S by exact So. injection S as <-.
      right. left. split; [reflexivity|]. exists b, gs, (4 + w). split; [reflexivity|]. split; [cb; rewrite !packets_app; cbn; now rewrite app_nil_r|].
      split; [same C|]. split; [|cb; lia]. split; [cb; now rewrite <- Es|]. cb. rewrite <- ?Es, <- ?Ei, <- ?Ed, <- ?Eh. eapply (Ph_work mo g _ s t l0 il []); eauto. now apply Do_tail.
    + unfold step_hand in S. rewrite <- Eh in S. destruct (idle_last l0 il i I) as [N|[N|[-> N]]]; rewrite N in S; try discriminate.
      assert (Un : unlocked c = true) by (unfold unlocked; now rewrite <- Em).
      destruct Ta as [|s' Lv'| |k]; cbv beta iota in S.
      * discriminate.
      * rewrite <- Em in S. discriminate.
      * rewrite Un in S. injection S as <-. left. split; [reflexivity|]. split; [reflexivity|]. left. split; [same C|]. exists (6 + 1). split; [|cb; lia].
        split; [cb; now rewrite <- Es|]. cb. rewrite <- ?Es, <- ?Ei, <- ?Ed, <- ?Em, <- ?Eh, upd_last. eapply Ph_err; eauto. now apply Ta_st.
      * rewrite K in S. destruct (hb c); cbn in H; try contradiction; discriminate.
Qed.

(** ** An endpoint that cannot move *)
Lemma calm_stuck mo g c o f w : calm mo g c -> at_phase mo g c o f w -> (forall l c', benign l -> step c l <> Some c') -> o = [] /\ became c f.
Proof.
  intros C [Lv Ph] St. pose proof C as [Mo G X K So Cr D U H].
  remember (state c) as s eqn:Es in Ph, Lv. remember (ini c) as ii eqn:Ei in Ph. remember (dial c) as dl eqn:Ed in Ph. remember (mon c) as mn eqn:Em in Ph. remember (hs c) as hh eqn:Eh in Ph.
  assert (Bad : forall l, benign l -> (exists c', step c l = Some c') -> False) by (intros l B [c' S]; exact (St l c' B S)).
  destruct Ph as [gs Hs Gr|t s' l0 gs I Lv' Gr|t m b l0 I W|l0 I Hs|l0 I Hs|t l0 I|t l0 il o x w gs f I Do Le|t l0 il x w gs f orig e r b I Er W Ta Le].
  - exfalso. apply (Bad LInit); [exact Logic.I|]. unfold step. rewrite Cr, <- Ei, <- Em. eauto.
  - exfalso. apply (Bad (LMon true)); [exact Logic.I|]. unfold step, step_mon. rewrite Cr, <- Em. eauto.
  - exfalso. apply (Bad (LMon true)); [exact Logic.I|]. unfold step, step_mon. rewrite Cr, <- Em, (signal_wire _ _ _ _ W So). eauto.
  - exfalso. apply (Bad (LMon true)); [exact Logic.I|]. unfold step, step_mon. rewrite Cr, <- Em, K, <- Ed. eauto.
  - split; [reflexivity|]. cbn. rewrite <- Es. auto.
  - split; [reflexivity|]. cbn. split; [auto|]. split; [auto|]. split; [|auto].
    destruct (inq c) as [|raw q] eqn:Q; [reflexivity|exfalso]. apply (Bad (LMon true)); [exact Logic.I|]. unfold step, step_mon. rewrite Cr, <- Em, So, Q. cbn [andb]. eauto.
  - assert (Un : unlocked c = true) by (unfold unlocked; now rewrite <- Em).
    assert (E : (exists k, o = [] /\ tail s il x w /\ x = Never /\ (il = [] \/ il = IBeatAck :: k)) \/ exists c', step c (LHand (length l0) true) = Some c').
    { unfold step, step_hand. rewrite Cr, <- Eh, nth_last.
      destruct Do as [k x w Ta|m b k x w W Ta|e r b k x w Er W Ta|t0 k o x w Hn Do|t0 e k o x w Hn Do|t0 r k o x w Hn Do|t0 k Hn|m o x w V Do|m l1 o x w V P Do|raw e P|raw m o x w P Do]; cbv beta iota.
      - destruct Ta as [|s' Lv'| |k]; [left; exists []; repeat split; auto; constructor|right; rewrite <- Em; eauto|right; rewrite Un; eauto|left; exists k; repeat split; auto; constructor].
      - right. rewrite (signal_wire _ _ _ _ W So). eauto.
      - right. unfold recv_err. cb. rewrite <- Em. eauto.
      - right. rewrite Un, G, <- Es, Hn. eauto.
      - right. rewrite Un, G, <- Es, Hn. eauto.
      - right. rewrite Un, G, <- Es, Hn. eauto.
      - right. rewrite Un, G, <- Es, Hn. eauto.
      - right. rewrite X. apply N.eqb_neq in V. rewrite V. cbn [negb]. eauto.
      - right. rewrite X, V. cbn [negb N.eqb Pos.eqb]. rewrite P. eauto.
      - right. rewrite P. eauto.
      - right. rewrite P. eauto. }
    destruct E as [(k & -> & _ & -> & _)|E]; [|exfalso; apply (Bad (LHand (length l0) true)); [exact Logic.I|exact E]].
    inversion Le; subst. split; [reflexivity|]. cbn. auto.
  - exfalso. apply (Bad (LMon true)); [exact Logic.I|]. unfold step, step_mon. rewrite Cr, <- Em. cb.
    change (cfg (emit (ERefused orig e) c)) with (cfg c). rewrite G, Er, (signal_wire _ _ _ _ W) by exact So. eauto.
Qed.

(** ** The specification is a function, and the goroutines follow it *)
Lemma encodes_total m : exists b, encodes m b.
Proof. destruct (wire_total m) as [b W]. exists b. now apply wire_encodes. Qed.
Lemma encodes_wire m b : encodes m b -> wire m = Ok b.
Proof. intros E. destruct (wire_total m) as [b' W]. rewrite W. f_equal. eapply encodes_fun; [|exact E]. now apply wire_encodes. Qed.
Lemma answers_reply g e r : answers g e r -> error_reply g e = Ok (Some r).
Proof.
  intros A. destruct A as [v|m b E|m]; try reflexivity. cbn [error_reply]. destruct (first40_total m) as (b' & E' & F). rewrite F. cbn [bind].
  now rewrite (encodes_fun _ _ _ E E').
Qed.
Lemma answers_det g e r r' : answers g e r -> answers g e r' -> r = r'.
Proof. intros A A'. apply answers_reply in A, A'. congruence. Qed.
Lemma because_det g x bs bs' : because g x bs -> because g x bs' -> bs = bs'.
Proof.
  intros A B. inversion A; subst; inversion B; subst; auto; f_equal.
  - eapply encodes_fun; eauto.
  - match goal with E1 : answers g e ?r1, E2 : answers g e ?r2 |- _ => rewrite (answers_det _ _ _ _ E1 E2) in * end. eapply encodes_fun; eauto.
Qed.
Lemma greeting_det mo g s bs bs' : greeting mo g s bs -> greeting mo g s bs' -> bs = bs'.
Proof. intros A B. inversion A as [E|m b E W]; subst; inversion B as [E'|m' b' E' W']; subst; try congruence. f_equal. rewrite E in E'. injection E' as <-. eapply encodes_fun; eauto. Qed.
Lemma greeting_total mo g s : exists gs, greeting mo g s gs.
Proof. destruct (initial mo g s) as [m|] eqn:E; [destruct (encodes_total m) as [b W]; eexists; now apply (GR_some _ _ _ m b)|eexists; now apply GR_none]. Qed.
Lemma unexpected_total g m : exists bs, because g (Refuse (EUnexpected m)) bs.
Proof. destruct (encodes_total (Typed (NewError (Some (NewErrorCode 6)) (cf_rc g) (cf_na g) (Some (NewAffectedPointCode [cf_opc g])) None))) as [b E]. exists [b]. eapply BC_refuse; [constructor|exact E]. Qed.
Lemma because_total g s m x : reacts g s m x -> exists bs, because g x bs.
Proof.
  intros R. destruct x as [|r|e].
  - exists []. constructor.
  - destruct (encodes_total r) as [b E]. exists [b]. now constructor.
  - inversion R; subst; try apply unexpected_total. destruct (encodes_total m) as [b E].
    destruct (encodes_total (Typed (NewError (Some (NewErrorCode 4)) None None None (Some (NewDiagnosticInformation (firstn 40 b)))))) as [b' E'].
    exists [b']. eapply BC_refuse; [apply AN_unsupported; exact E|exact E'].
Qed.
Lemma valid_det raw m m' : valid raw m -> valid raw m' -> m = m'.
Proof. intros [P _] [P' _]. congruence. Qed.

Lemma responds_det mo g d f raw bs f1 bs' f2 : responds mo g d f raw bs f1 -> responds mo g d f raw bs' f2 -> bs = bs' /\ f1 = f2.
Proof.
  assert (Na : forall m t, ~ is_beat_ack m -> m = Typed t -> m_kind t <> KHeartbeatAck) by (intros m t N -> K; apply N; exists t; auto).
  intros A B. inversion A; subst; inversion B; subst; try congruence;
    try (match goal with N : forall s told, Waits _ _ <> Waits s told |- _ => destruct (N _ _ eq_refl) end);
    try (match goal with V : valid raw ?m, E : Parse raw = _ |- _ => destruct V; congruence end);
    try (match goal with V : valid raw ?m, V' : valid raw ?m' |- _ => pose proof (valid_det _ _ _ V V') as Em; first [injection Em as <-|subst m'] end);
    try congruence;
    try (exfalso; match goal with N : ~ is_beat_ack (Typed ?t), K : m_kind ?t = KHeartbeatAck |- _ => apply N; exists t; auto end).
  all: try (split; reflexivity).
  all: try (match goal with E1 : Parse ?w = Ok ?m, E2 : Parse ?w = Ok ?m' |- _ => assert (m' = m) by congruence; subst m' end).
  all: try (match goal with E1 : reacts ?g0 ?s0 ?m ?x, E2 : reacts ?g0 ?s0 ?m ?x' |- _ => assert (x' = x) by (eapply reacts_det; eauto); subst x' end).
  all: split; [|reflexivity].
  all: try f_equal; first [eapply because_det; eauto; fail|eapply greeting_det; eauto; fail|idtac].
Qed.
Lemma responds_total mo g d f raw : (forall s t, f = Waits s t -> ranged s) -> ~ is_data raw -> exists bs f', responds mo g d f raw bs f'.
Proof.
  intros R Nd. destruct f as [s t| |s t|]; try (do 2 eexists; apply RS_lost; intros; discriminate). specialize (R _ _ eq_refl).
  destruct (Parse raw) as [m|e|p] eqn:P; [|do 2 eexists; eapply RS_undecodable; eauto|exfalso; exact (Parse_no_panic _ _ P)].
  destruct (N.eq_dec (b2n (Version m)) 1) as [V|V].
  2:{ destruct (encodes_total (Typed (NewError (Some (NewErrorCode 1)) None None None None))) as [b E]. do 2 eexists. eapply RS_version; eauto. eapply BC_refuse; [constructor|exact E]. }
  assert (Va : valid raw m) by (split; assumption).
  assert (Ndm : ~ is_data_msg m) by (intros (x & -> & K); apply Nd; exists x; auto).
  assert (Da : is_beat_ack m \/ ~ is_beat_ack m).
  { destruct m as [x|x]; [|right; intros (? & E & _); discriminate]. destruct (m_kind x) eqn:K; try (right; intros (y & E & K'); injection E as <-; congruence). left. exists x. auto. }
  destruct Da as [(x & -> & K)|Na].
  - destruct (st_dec s Active) as [->|Ns].
    + destruct (fget FHeartbeatData (m_f x)) as [p|] eqn:F; [|do 2 eexists; eapply RS_ack_empty; eauto].
      destruct (list_eq_dec Byte.byte_eq_dec (HeartbeatData p) d) as [E|E]; [do 2 eexists; eapply RS_ack_same; eauto|].
      destruct (unexpected_total g (Typed x)) as [bs B]. do 2 eexists. eapply RS_ack_other; eauto.
    + destruct (unexpected_total g (Typed x)) as [bs B]. do 2 eexists. eapply RS_ack_early; eauto.
  - destruct (reacts_total g s m R) as [x Rx]. destruct (because_total _ _ _ _ Rx) as [bs B]. destruct (greeting_total mo g (asked s m)) as [gs G].
    do 2 eexists. eapply RS_message; eauto.
Qed.

Lemma plan_shape m : ~ is_beat_ack m -> ~ is_data_msg m ->
  (supported m = false /\ plan m = (None, [IErr (EUnsupportedMessage m); ICur]) /\ names m = None) \/
  (exists t k, m = Typed t /\ supported m = true /\ m_kind t <> KData /\ m_kind t <> KHeartbeatAck /\ plan m = (None, IHandle t :: k) /\
     ((k = [ICur] /\ names m = None) \/ (exists s', k = [ISt s'] /\ names m = Some s' /\ live s'))).
Proof.
  intros Na Nd. destruct m as [t|x]; [|left; repeat split].
  destruct (m_kind t) eqn:K; try (exfalso; apply Nd; exists t; auto; fail); try (exfalso; apply Na; exists t; auto; fail);
    try (left; unfold supported, plan, names; rewrite K; repeat split; fail);
    right; exists t; unfold supported, plan, names; rewrite K; eexists; repeat (split; [first [reflexivity|discriminate]|]);
    first [left; split; reflexivity|right; eexists; repeat split].
Qed.
Lemma greeting_greets mo g s gs : greeting mo g s gs -> greets mo g s gs.
Proof. intros [E|m b E W]; [now apply Gr_none|apply (Gr_some _ _ _ m); [exact E|now apply encodes_wire]]. Qed.
Lemma ranged_live s : ranged s -> live s.
Proof. intros [->|[->| ->]]; exact Logic.I. Qed.
Lemma asked_ranged s m : ranged s -> ranged (asked s m).
Proof.
  intros R. unfold asked. destruct m as [t|x]; cbn [names]; [|exact R]. destruct (m_kind t); auto; unfold ranged; auto.
Qed.
Lemma resp_doing mo g d s t raw bs f' : ranged s -> responds mo g d (Waits s t) raw bs f' ->
  exists os x w gs, doing g d s [IParse raw] os x w /\ leads mo g s t x gs f' /\ bs = os ++ gs /\ w <= 8.
Proof.
  intros Rs R. inversion R as [? ? ? e P|? ? ? m bs0 P V B|? ? ? m x bs0 gs Va Na Nd Rx B Gr|? ? ? t0 bs0 [P V] K Ns B|? ? t0 [P V] K F|? ? t0 p [P V] K F E|? ? t0 p bs0 [P V] K F E B|? ? N]; subst.
  - exists [], Never, 1, []. repeat split; [now apply (Do_garbage g d s raw e)|constructor|lia].
  - inversion B as [| |e r b A En]; subst. exists [b], Never, (1 + (1 + (3 + 0))), []. repeat split; [|constructor|lia].
    eapply Do_parse; [exact P|]. apply Do_version; [exact V|]. eapply Do_err; [eapply answers_reply; exact A|now apply encodes_wire|constructor].
  - destruct Va as [P V]. pose proof (ranged_live _ (asked_ranged s m Rs)) as Lv. apply greeting_greets in Gr.
    destruct (plan_shape m Na Nd) as [(Su & Pl & Nm)|(t0 & k & -> & Su & K1 & K2 & Pl & Hk)].
    + assert (x = Refuse (EUnsupportedMessage m)).
      { eapply reacts_det; [exact Rx|now apply RC_unsupported|]. intros t0 -> K. apply Na. exists t0. auto. }
      subst x. inversion B as [| |e r b A En]; subst. exists [b], (Go s), (1 + (1 + (3 + 2))), gs. unfold asked in *. rewrite Nm in *.
      split; [|split; [now constructor|split; [reflexivity|lia]]].
      eapply Do_parse; [exact P|]. eapply Do_sig; [exact V|exact Pl|]. eapply Do_err; [eapply answers_reply; exact A|now apply encodes_wire|constructor].
    + assert (Ht : exists w, tail s k (Go (asked s (Typed t0))) w /\ w <= 2).
      { unfold asked in *. destruct Hk as [(-> & Nm)|(s' & -> & Nm & Ls)]; rewrite Nm in *; [exists 2|exists 1]; (split; [constructor; auto|lia]). }
      destruct Ht as (w & Ta & Lw). pose proof (handle_reacts g d s t0 Rs K1 Su) as HR.
      assert (Dt : forall y, reacts g s (Typed t0) y -> y = x) by (intros y Ry; eapply reacts_det; [exact Ry|exact Rx|]; intros t1 E; injection E as <-; exact K2).
      exists bs0, (Go (asked s (Typed t0))). destruct (handle g d s t0) as [|e|r|p] eqn:H.
      * rewrite <- (Dt _ HR) in B. inversion B; subst. exists (1 + (1 + (1 + w))), gs. split; [|split; [now constructor|split; [reflexivity|lia]]].
        eapply Do_parse; [exact P|]. eapply Do_sig; [exact V|exact Pl|]. eapply Do_nil; [exact H|]. now apply Do_tail.
      * rewrite <- (Dt _ HR) in B. inversion B as [| |e' r b A En]; subst. exists (1 + (1 + (1 + (3 + w)))), gs. split; [|split; [now constructor|split; [reflexivity|lia]]].
        eapply Do_parse; [exact P|]. eapply Do_sig; [exact V|exact Pl|]. eapply Do_herr; [exact H|]. eapply Do_err; [eapply answers_reply; exact A|now apply encodes_wire|exact Ta].
      * rewrite <- (Dt _ HR) in B. inversion B as [|r' b En|]; subst. exists (1 + (1 + (1 + (2 + w)))), gs. split; [|split; [now constructor|split; [reflexivity|lia]]].
        eapply Do_parse; [exact P|]. eapply Do_sig; [exact V|exact Pl|]. eapply Do_reply; [exact H|]. eapply Do_write; [now apply encodes_wire|exact Ta].
      * destruct HR as [HR _]. contradiction.
  - inversion B as [| |e r b A En]; subst. exists [b], Never, (1 + (1 + (1 + (3 + 0)))), []. repeat split; [|constructor|lia].
    eapply Do_parse; [exact P|]. eapply Do_sig; [exact V|unfold plan; rewrite K; reflexivity|]. eapply Do_herr.
    + unfold handle. rewrite K. destruct s; try reflexivity. contradiction.
    + eapply Do_err; [eapply answers_reply; exact A|now apply encodes_wire|constructor].
  - exists [], Boom, (1 + (1 + 1)), []. repeat split; [|constructor|lia].
    eapply Do_parse; [exact P|]. eapply Do_sig; [exact V|unfold plan; rewrite K; reflexivity|]. eapply Do_panic. unfold handle. rewrite K, F. reflexivity.
  - exists [], Never, (1 + (1 + (1 + 0))), []. repeat split; [|constructor|lia].
    eapply Do_parse; [exact P|]. eapply Do_sig; [exact V|unfold plan; rewrite K; reflexivity|]. eapply Do_nil; [|apply Do_tail; constructor].
    unfold handle. rewrite K, F. cbn [st_eqb negb]. destruct (list_eq_dec _ _ _); [reflexivity|congruence].
  - inversion B as [| |e r b A En]; subst. exists [b], Never, (1 + (1 + (1 + (3 + 0)))), []. repeat split; [|constructor|lia].
    eapply Do_parse; [exact P|]. eapply Do_sig; [exact V|unfold plan; rewrite K; reflexivity|]. eapply Do_herr.
    + unfold handle. rewrite K, F. cbn [st_eqb negb]. destruct (list_eq_dec _ _ _); [congruence|reflexivity].
    + eapply Do_err; [eapply answers_reply; exact A|now apply encodes_wire|constructor].
  - destruct (N _ _ eq_refl).
Qed.

(** ** Transcripts *)
Lemma responds_ranged mo g d f raw bs f' : (forall s t, f = Waits s t -> ranged s) -> responds mo g d f raw bs f' -> forall s t, f' = Waits s t -> ranged s.
Proof.
  intros R X s t E. destruct X; try discriminate; subst; eauto.
  pose proof (asked_ranged s0 m (R _ _ eq_refl)) as A. unfold entering in E. destruct (asked s0 m), s0, told; try discriminate; injection E as <- <-; auto; unfold ranged; auto.
Qed.
Lemma transcript_ranged mo g d rs bs f : transcript mo g d rs bs f -> forall s t, f = Waits s t -> ranged s.
Proof.
  intros T. induction T as [gs G|rs bs f raw os f' T IH R]; intros s t E; [injection E as <- <-; left; reflexivity|]. eapply responds_ranged; eauto.
Qed.
Lemma transcript_det mo g d rs : forall bs f bs' f', transcript mo g d rs bs f -> transcript mo g d rs bs' f' -> bs = bs' /\ f = f'.
Proof.
  induction rs as [|raw rs IH] using rev_ind; intros bs f bs' f' A B.
  - inversion A as [gs G|rs0 b0 f0 raw0 o0 f1 T R E]; [|destruct rs0; discriminate]. inversion B as [gs' G'|rs0 b0 f0 raw0 o0 f1 T R E]; [|destruct rs0; discriminate].
    split; [eapply greeting_det; eauto|reflexivity].
  - inversion A as [gs G E|rs0 b0 f0 raw0 o0 f1 T R E]; [destruct rs; discriminate|]. inversion B as [gs G E'|rs1 b1 f2 raw1 o1 f3 T' R' E']; [destruct rs; discriminate|].
    apply app_inj_tail in E as [-> ->], E' as [-> ->]. destruct (IH _ _ _ _ T T') as [-> ->]. destruct (responds_det _ _ _ _ _ _ _ _ _ R R') as [-> ->]. auto.
Qed.
Lemma transcript_total mo g d rs : Forall (fun raw => ~ is_data raw) rs -> exists bs f, transcript mo g d rs bs f.
Proof.
  induction rs as [|raw rs IH] using rev_ind; intros F.
  - destruct (greeting_total mo g Down) as [gs G]. do 2 eexists. eapply TR_new; eauto.
  - apply Forall_app in F as [F Fr]. inversion Fr as [|? ? Nd _]; subst. destruct (IH F) as (bs & f & T).
    destruct (responds_total mo g d f raw (transcript_ranged _ _ _ _ _ _ T) Nd) as (os & f' & R). do 2 eexists. eapply TR_packet; eauto.
Qed.
Lemma transcript_more mo g d rs1 rs2 : forall bs f, Forall (fun raw => ~ is_data raw) rs2 -> transcript mo g d rs1 bs f ->
  exists zs f', transcript mo g d (rs1 ++ rs2) (bs ++ zs) f' /\ ((forall s t, f <> Waits s t) -> zs = [] /\ f' = f).
Proof.
  induction rs2 as [|raw rs2 IH] using rev_ind; intros bs f F T.
  - exists [], f. rewrite !app_nil_r. auto.
  - apply Forall_app in F as [F Fr]. inversion Fr as [|? ? Nd _]; subst. destruct (IH bs f F T) as (zs & f' & T' & L).
    destruct (responds_total mo g d f' raw (transcript_ranged _ _ _ _ _ _ T') Nd) as (os & f2 & R). exists (zs ++ os), f2. rewrite !app_assoc. split; [eapply TR_packet; eauto|].
    intros N. destruct (L N) as [-> ->]. destruct (responds_det _ _ _ _ _ _ _ _ _ R (RS_lost mo g d f raw N)) as [-> ->]. auto.
Qed.

(** ** The endpoint *)
Definition pieces (l : list (list byte)) : list (list byte) := flat_map chunks l.
Record alive (mo : cmode) (g : config) (d : list byte) (c : conn) (o : list (list byte)) (f : fin) (xs2 : list (list byte)) (w : nat) : Prop := {
  al_calm : calm mo g c; al_data : hbd c = d; al_queue : pieces (inq c) = xs2; al_phase : at_phase mo g c o f w }.
Definition exact (mo : cmode) (g : config) (d : list byte) (xs : list (list byte)) (n k : nat) (c : conn) : Prop :=
  exists xs1 xs2 ys f o, xs = xs1 ++ xs2 /\ transcript mo g d xs1 ys f /\ ys = packets (log c) ++ o /\
    ((exists w, alive mo g d c o f xs2 w /\ n + w + hw (hb c) + 13 * length xs2 <= 8 + 13 * length xs + k) \/
     (crashed c o f /\ n <= 9 + 13 * length xs + k)).
Lemma pieces_take p q : pieces (p :: q) = firstn 1500 p :: pieces (match skipn 1500 p with [] => q | _ => skipn 1500 p :: q end).
Proof. unfold pieces. cbn [flat_map]. rewrite chunks_eq. destruct (skipn 1500 p); reflexivity. Qed.
Lemma exact_step mo g d xs n k c l c' : hb_on g = false -> reachable c -> Forall (fun raw => ~ is_data raw) xs -> exact mo g d xs n k c -> benign l -> step c l = Some c' ->
  exact mo g d xs (S n) k c'.
Proof.
  intros Ho Re Nd (xs1 & xs2 & ys & f & o & -> & T & Ey & [(w & [C Hd Q Ph] & L)|[(Cr & _) _]]) B S.
  2: { unfold step in S. rewrite Cr in S. discriminate. }
  assert (Hd' : hbd c' = d).
  { destruct (hb_quiet c l c' Re) as [E _]; [rewrite (ca_cfg _ _ _ C); exact Ho|destruct l; try reflexivity; contradiction|exact S|congruence]. }
  destruct (calm_step _ _ _ _ _ _ _ _ Ho C Ph B S) as [(Qe & Pe & [(C' & w' & Ph' & Lw)|Cr])|[(Qe & b & o' & w' & -> & Pe & C' & Ph' & Lw)|
    (p & q & s & t & Qe & -> & -> & Pe & Hw & Qe' & Lv & C' & He & Hx)]].
  - exists xs1, xs2, ys, f, o. rewrite Pe. do 3 (split; [auto|]). left. exists w'. split; [split; auto; now rewrite Qe|lia].
  - exists xs1, xs2, ys, f, o. rewrite Pe. do 3 (split; [auto|]). right. split; [exact Cr|lia].
  - exists xs1, xs2, ys, f, o'. rewrite Pe, <- app_assoc. do 3 (split; [auto|]). left. exists w'. split; [split; auto; now rewrite Qe|lia].
  - rewrite Qe, pieces_take in Q. rewrite <- Qe' in Q. subst xs2. apply Forall_app in Nd as [_ Nd]. inversion Nd as [|? ? Np _]; subst.
    pose proof (transcript_ranged _ _ _ _ _ _ T) as Rs.
    destruct (responds_total mo g (hbd c) (Waits s t) (firstn 1500 p) Rs Np) as (bs & f' & R).
    destruct (resp_doing _ _ _ _ _ _ _ _ (Rs _ _ eq_refl) R) as (os & x & w' & gs & Do & Le & -> & Lw).
    exists (xs1 ++ [firstn 1500 p]), (pieces (inq c')), ((packets (log c) ++ []) ++ (os ++ gs)), f', (os ++ gs).
    split; [now rewrite <- app_assoc|]. split; [eapply TR_packet; eauto|]. split; [rewrite Pe; now rewrite app_nil_r|]. left. exists (4 + w').
    split; [split; [exact C'|exact He|reflexivity|eapply Hx; eauto]|]. rewrite Hw. rewrite app_length in *. cbn [length] in *. lia.
Qed.
Lemma exact_arrive mo g d xs n k c raw c' : exact mo g d xs n k c -> step c (LArrive raw) = Some c' -> exact mo g d (xs ++ chunks raw) (S n) (S k) c'.
Proof.
  intros (xs1 & xs2 & ys & f & o & -> & T & Ey & [(w & [C Hd Q Ph] & L)|[(Cr & _) _]]) S; unfold step in S; [rewrite (ca_crash _ _ _ C) in S|rewrite Cr in S; discriminate].
  apply some_inj in S. subst c'. exists xs1, (xs2 ++ chunks raw), ys, f, o. cb. split; [now rewrite app_assoc|]. do 2 (split; [auto|]). left. exists w.
  split; [split; [same C|exact Hd|cb; unfold pieces in *; rewrite flat_map_app, Q; cbn; now rewrite app_nil_r|exact Ph]|]. rewrite !app_length in *. lia.
Qed.
Lemma exact_run mo g o ls : forall c, hb_on g = false -> run (start mo g o) ls = Some c -> Forall outside ls -> Forall (fun raw => ~ is_data raw) (pieces (arrivals ls)) ->
  exact mo g (hbd (start mo g o)) (pieces (arrivals ls)) (length ls) (length (arrivals ls)) c.
Proof.
  induction ls as [|l ls IH] using rev_ind; intros c Ho R F Nd.
  - cbn in R. apply some_inj in R. subst c. destruct (calm_start mo g o Ho) as [C _]. destruct (greeting_total mo g Down) as [gs G].
    exists [], [], gs, (Waits Down false), gs. split; [reflexivity|]. split; [now apply TR_new|]. split; [reflexivity|]. left. exists 5.
    split; [split; [exact C|reflexivity|reflexivity|]|cbn; lia]. split; [exact Logic.I|]. apply Ph_ini; [reflexivity|now apply greeting_greets].
  - apply Forall_app in F as [F Fl]. inversion Fl as [|? ? Ol _]; subst. rewrite run_app in R. destruct (run (start mo g o) ls) as [c1|] eqn:R1; [|discriminate].
    cbn [run] in R. destruct (step c1 l) as [c2|] eqn:S; [|discriminate]. apply some_inj in R. subst c2. rewrite app_length, Nat.add_1_r.
    unfold arrivals in *. rewrite flat_map_app in *. fold (arrivals ls) in *. fold (arrivals [l]) in *. unfold pieces in *. rewrite flat_map_app in *.
    apply Forall_app in Nd as [Nd Nl]. specialize (IH c1 Ho eq_refl F Nd). destruct Ol as [B|[raw ->]].
    + rewrite (outside_arrivals l B), app_nil_r in *. cbn [flat_map]. rewrite app_nil_r. eapply exact_step; eauto. exists mo, g, o, ls. exact R1.
    + cbn [arrivals flat_map app] in *. rewrite app_nil_r in *. rewrite app_length. cbn [length]. rewrite Nat.add_1_r. eapply exact_arrive; eauto.
Qed.
Theorem endpoint_exact mo g o ls c : hb_on g = false -> run (start mo g o) ls = Some c -> Forall outside ls -> Forall (fun raw => ~ is_data raw) (pieces (arrivals ls)) ->
  exists bs f, transcript mo g (hbd (start mo g o)) (pieces (arrivals ls)) bs f /\ length ls <= 9 + 13 * length (pieces (arrivals ls)) + length (arrivals ls) /\
    (exists zs, bs = packets (log c) ++ zs) /\ ((exists l c', benign l /\ step c l = Some c') \/ (packets (log c) = bs /\ became c f)).
Proof.
  intros Ho R F Nd. destruct (exact_run mo g o ls c Ho R F Nd) as (xs1 & xs2 & ys & f & o1 & Ex & T & -> & H).
  assert (Nd2 : Forall (fun raw => ~ is_data raw) xs2) by (rewrite Ex in Nd; now apply Forall_app in Nd as [_ ?]).
  destruct (transcript_more _ _ _ _ _ _ _ Nd2 T) as (zs & f' & T' & Lost). rewrite <- Ex in T'.
  exists ((packets (log c) ++ o1) ++ zs), f'. split; [exact T'|]. split; [destruct H as [(w & _ & L)|[_ L]]; lia|]. split; [exists (o1 ++ zs); now rewrite app_assoc|].
  destruct H as [(w & [C Hd Q Ph] & L)|[(Cr & -> & ->) L]].
  - destruct (calm_dec _ _ _ C Ho) as [E|N]; [now left|]. right. destruct (calm_stuck _ _ _ _ _ _ C Ph N) as [-> Be].
    destruct f as [s t| |s t|].
    + destruct Be as (B1 & B2 & B3 & B4). rewrite B3 in Q. cbn in Q. subst xs2. rewrite !app_nil_r in *. rewrite Ex in T'.
      destruct (transcript_det _ _ _ _ _ _ _ _ T T') as [E <-]. split; [exact E|]. cbn. auto.
    + destruct Lost as [-> ->]; [discriminate|]. rewrite !app_nil_r. auto.
    + destruct Lost as [-> ->]; [discriminate|]. rewrite !app_nil_r. auto.
    + destruct Lost as [-> ->]; [discriminate|]. rewrite !app_nil_r. auto.
  - right. destruct Lost as [-> ->]; [discriminate|]. rewrite !app_nil_r. split; [reflexivity|exact Cr].
Qed.
