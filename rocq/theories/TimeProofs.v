(** Proofs about the clock of TimeModel. *)
From Verif Require Import GoBase MessagesModel ConfigModel ConnModel ConnSpec ConnBase ConnInv ConnUser ConnStable ConnBeat ConnPace TimeModel TimeSpec.
From Coq Require Import Arith ZArith Lia.
Open Scope nat_scope.

Definition last_of (l : list Z) : option Z := match rev l with a :: _ => Some a | [] => None end.
Lemma last_of_snoc l a : last_of (l ++ [a]) = Some a.
Proof. unfold last_of. now rewrite rev_app_distr. Qed.
Lemma last_of_split l a : last_of l = Some a -> exists r, l = r ++ [a].
Proof.
  unfold last_of. intros H. destruct (rev l) as [|z r] eqn:E; [discriminate|]. injection H as ->.
  exists (rev r). rewrite <- (rev_involutive l), E. reflexivity.
Qed.

(** ** What a step does to the heartbeat goroutine *)
Inductive beat_move (c : conn) (l : label) (c' : conn) : list event -> Prop :=
| BM_none es : Forall not_beat es -> hb c' = hb c -> beat_move c l c' es
| BM_end es : Forall not_beat es -> hb c' = BDone -> beat_move c l c' es
| BM_wait : hb c = BStart -> hb c' = BWait -> beat_move c l c' []
| BM_wake es : Forall not_beat es -> hb c = BWait -> hb c' = BRun -> beat_move c l c' es
| BM_run : hb c = BRun -> hb c' = BRand -> beat_move c l c' []
| BM_rand d : hb c = BRand -> hb c' = BWrite d -> beat_move c l c' []
| BM_fail e : hb c' = BErr e -> e <> EHeartbeatExpired -> beat_move c l c' []
| BM_beat d s m b : hb c = BWrite d -> hb c' = BStore d -> beat_move c l c' [ESend OHb s m b]
| BM_store d : hb c = BStore d -> hb c' = BAck -> beat_move c l c' []
| BM_ack : hb c = BAck -> hb c' = BSleep -> beat_move c l c' []
| BM_expire : l = LHbTimer -> hb c = BAck -> hb c' = BErr EHeartbeatExpired -> beat_move c l c' []
| BM_again : l = LHbTimer -> hb c = BSleep -> hb c' = BRand -> beat_move c l c' [].

Definition blames_beat (e : event) : Prop := match e with ERefused OHb EHeartbeatExpired => True | _ => False end.

(** ... and to the report of an expiry *)
Definition report (c c' : conn) (es : list event) : Prop :=
  (mon c' = MErr OHb EHeartbeatExpired -> mon c = MErr OHb EHeartbeatExpired \/ (hb c = BErr EHeartbeatExpired /\ hb c' = BDone)) /\
  (Exists blames_beat es -> mon c = MErr OHb EHeartbeatExpired) /\
  (hb c = BDone -> hb c' = BDone).

Ltac bm_none := apply BM_none; [repeat constructor|cb; congruence].
Lemma step_beat c l c' : stepR c l c' -> exists es, log c' = log c ++ es /\ beat_move c l c' es /\ report c c' es.
Proof.
  assert (X0 : forall P, ~ Exists P (@nil event)) by (intros P H; inversion H).
  intros S. destruct S;
    try solve [exists []; cb; rewrite app_nil_r; split; [reflexivity|]; split; [apply BM_none; [constructor|reflexivity]|
      split; [cb; intros; solve [left; congruence|discriminate|congruence]|split; [intros X; now apply X0 in X|cb; congruence]]]];
    try solve [eexists; cb; rewrite <- ?app_assoc; split; [reflexivity|]; split; [bm_none|
      split; [cb; intros; solve [left; congruence|discriminate]|split; [intros X; inversion X as [? ? Y|? ? Y]; [destruct Y|now apply X0 in Y]|cb; congruence]]]].

  - eexists. cb. rewrite <- ?app_assoc. split; [reflexivity|]. split; [bm_none|]. split; [cb; discriminate|]. split; [|cb; congruence].
    intros X. inversion X as [? ? Y|? ? Y]; subst; [destruct o, e; cbn in Y; try contradiction; assumption|].
    inversion Y as [? ? Z|? ? Z]; [destruct Z|now apply X0 in Z].
  - eexists. cb. rewrite <- ?app_assoc. split; [reflexivity|]. split; [bm_none|]. split; [cb; discriminate|]. split; [|cb; congruence].
    intros X. inversion X as [? ? Y|? ? Y]; subst; [destruct o, e; cbn in Y; try contradiction; assumption|now apply X0 in Y].
  - rewrite state_update_eq. eexists. cb. split; [reflexivity|]. split; [bm_none|]. split; [|split; [|cb; congruence]].
    + cb. unfold upd_mon. destruct s, (mode c), (st_eqb (state c) Active); discriminate.
    + intros X. inversion X as [? ? Y|? ? Y]; [destruct Y|now apply X0 in Y].
  - bfields (set_dial DOk c). cb. exists []. rewrite app_nil_r. split; [assumption|]. clear - X0.
    unfold broadcast. cb. split; [|split; [cb; discriminate|split; [intros X; now apply X0 in X|cb; destruct (hb c) eqn:?; cb; congruence]]].
    destruct (hb c) eqn:E; cb; try (apply BM_none; [constructor|cb; congruence]). apply BM_wake; [constructor|assumption|reflexivity].
  - fields c. bfields (closing c). cb. exists [EClosed]. split; [congruence|]. unfold broadcast. rewrite K11.
    split; [|split; [cb; discriminate|split; [intros X; inversion X as [? ? Y|? ? Y]; [destruct Y|now apply X0 in Y]|cb; destruct (hb c) eqn:?; cb; congruence]]].
    destruct (hb c) eqn:E; cb; try (apply BM_none; [repeat constructor|cb; congruence]). apply BM_wake; [repeat constructor|assumption|reflexivity].
  - exists []. cb. rewrite app_nil_r. split; [reflexivity|]. split; [apply BM_ack; [assumption|reflexivity]|].
    split; [cb; auto|split; [intros X; now apply X0 in X|cb; congruence]].
  - exists []. cb. rewrite app_nil_r. split; [reflexivity|]. split; [apply BM_wait; [assumption|reflexivity]|].
    split; [cb; auto|split; [intros X; now apply X0 in X|cb; congruence]].
  - exists []. cb. rewrite app_nil_r. split; [reflexivity|]. split; [|split; [cb; auto|split; [intros X; now apply X0 in X|cb; congruence]]].
    destruct (hb_on (cfg c)); [apply BM_run; [assumption|reflexivity]|apply BM_end; [constructor|reflexivity]].
  - exists []. cb. rewrite app_nil_r. split; [reflexivity|]. split; [eapply BM_fail; [reflexivity|discriminate]|].
    split; [cb; auto|split; [intros X; now apply X0 in X|cb; congruence]].
  - exists []. destruct (hba c); cb; rewrite app_nil_r; (split; [reflexivity|]; split; [eapply BM_rand; [assumption|reflexivity]|];
    split; [cb; auto|split; [intros X; now apply X0 in X|cb; congruence]]).
  - eexists. cb. split; [reflexivity|]. split; [eapply BM_beat; [eassumption|reflexivity]|].
    split; [cb; auto|split; [intros X; inversion X as [? ? Y|? ? Y]; [destruct Y|now apply X0 in Y]|cb; congruence]].
  - exists []. cb. rewrite app_nil_r. split; [reflexivity|]. split; [eapply BM_fail; [reflexivity|discriminate]|].
    split; [cb; auto|split; [intros X; now apply X0 in X|cb; congruence]].
  - exists []. cb. rewrite app_nil_r. split; [reflexivity|]. split; [eapply BM_store; [eassumption|reflexivity]|].
    split; [cb; auto|split; [intros X; now apply X0 in X|cb; congruence]].
  - exists []. cb. rewrite app_nil_r. split; [reflexivity|]. split; [eapply BM_end; [constructor|reflexivity]|].
    split; [cb; auto|split; [intros X; now apply X0 in X|cb; congruence]].
  - exists []. cb. rewrite app_nil_r. split; [reflexivity|]. split; [eapply BM_end; [constructor|reflexivity]|].
    split; [cb; intros X; injection X as ->; auto|split; [intros X; now apply X0 in X|cb; congruence]].
  - exists []. cb. rewrite app_nil_r. split; [reflexivity|]. split; [eapply BM_expire; [reflexivity|assumption|reflexivity]|].
    split; [cb; auto|split; [intros X; now apply X0 in X|cb; congruence]].
  - exists []. cb. rewrite app_nil_r. split; [reflexivity|]. split; [eapply BM_again; [reflexivity|assumption|reflexivity]|].
    split; [cb; auto|split; [intros X; now apply X0 in X|cb; congruence]].
  - exists []. cb. rewrite app_nil_r. split; [reflexivity|]. split; [eapply BM_end; [constructor|reflexivity]|].
    split; [cb; auto|split; [intros X; now apply X0 in X|cb; congruence]].
  - fields c. exists [EClosed]. cb. split; [congruence|]. split; [apply BM_none; [repeat constructor|cb; congruence]|].
    split; [cb; rewrite K10; auto|split; [intros X; inversion X as [? ? Y|? ? Y]; [destruct Y|now apply X0 in Y]|cb; congruence]].
  - exists es. cb. split; [reflexivity|]. assert (F : Forall not_beat es) by (destruct H0 as [->|[->|(o & e & _ & ->)]]; repeat constructor).
    split; [apply BM_none; [exact F|reflexivity]|]. split; [cb; auto|]. split; [|cb; auto].
    intros X. destruct H0 as [->|[->|(o & e & M & ->)]]; inversion X as [? ? Y|? ? Y]; subst; try (now apply X0 in Y); try contradiction.
    destruct o, e; cbn in Y; try contradiction; assumption.
Qed.

(** ** Times *)
Open Scope Z_scope.
Lemma beat_times_app a b : beat_times (a ++ b) = beat_times a ++ beat_times b.
Proof. apply flat_map_app. Qed.
Lemma beat_times_none t es : Forall not_beat es -> beat_times (map (pair t) es) = [].
Proof. induction 1 as [|e l H _ IH]; auto. cbn [map beat_times flat_map]. fold (beat_times (map (pair t) l)). rewrite IH. now destruct e as [| |[]| | |]. Qed.
Lemma spaced_nil d : spaced d [].
Proof. intros [|? l1] a b l2 H; discriminate. Qed.
Lemma spaced_snoc d l t : spaced d l -> (forall a, last_of l = Some a -> a + d <= t) -> spaced d (l ++ [t]).
Proof.
  intros S L l1 a b l2 E. destruct l2 as [|z l2] using rev_ind.
  - replace (l1 ++ [a; b]) with ((l1 ++ [a]) ++ [b]) in E by now rewrite <- app_assoc. apply app_inj_tail in E as [-> ->].
    apply L. apply last_of_snoc.
  - replace (l1 ++ a :: b :: l2 ++ [z]) with ((l1 ++ a :: b :: l2) ++ [z]) in E by now rewrite <- app_assoc.
    apply app_inj_tail in E as [-> ->]. eapply S. reflexivity.
Qed.

Definition past (g : config) (l : list (Z * event)) (d t : Z) : Prop := exists a, last_of (beat_times l) = Some a /\ a + d <= t.
Definition at_stage (x : tconn) : Prop :=
  let g := cfg (tc x) in
  match hb (tc x) with
  | BStart | BWait | BRun => beat_times (tlog x) = []
  | BRand | BWrite _ => forall a, last_of (beat_times (tlog x)) = Some a -> a + interval g <= now x
  | BStore _ => past g (tlog x) 0 (now x)
  | BAck | BSleep => past g (tlog x) 0 (since x) /\ since x <= now x
  | BErr EHeartbeatExpired => past g (tlog x) (patience g) (now x)
  | _ => True
  end.
Definition tinv (x : tconn) : Prop :=
  let g := cfg (tc x) in
  log (tc x) = map snd (tlog x) /\ Forall (fun e => fst e <= now x) (tlog x) /\
  spaced (interval g) (beat_times (tlog x)) /\ at_stage x /\
  (mon (tc x) = MErr OHb EHeartbeatExpired -> hb (tc x) = BDone /\ past g (tlog x) (patience g) (now x)) /\
  (forall l1 t l2, tlog x = l1 ++ (t, ERefused OHb EHeartbeatExpired) :: l2 -> past g l1 (patience g) t) /\
  born x <= now x /\ (dial (tc x) = DTimeout -> born x + dial_limit <= now x).

Lemma past_later g l d t t' : past g l d t -> t <= t' -> past g l d t'.
Proof. intros (a & L & A) H. exists a. split; [exact L|lia]. Qed.

Lemma dial_kept c l c' : stepR c l c' -> dial c' = DTimeout -> dial c = DTimeout \/ l = LDialTimeout.
Proof.
  intros S. destruct S; cb; auto; try congruence.
  - rewrite state_update_eq. cb. auto.
  - bfields (set_dial DOk c). cb. congruence.
  - fields c. bfields (closing c). intros. left. congruence.
  - destruct (hba c); cb; auto.
  - fields c. intros. left. congruence.
Qed.
Lemma cfg_kept c l c' : step c l = Some c' -> cfg c' = cfg c.
Proof. intros S. pose proof (static_step _ _ _ S) as (_ & E & _). congruence. Qed.
Lemma skipn_exact {A} (a b : list A) : skipn (length a) (a ++ b) = b.
Proof. induction a; auto. Qed.

Lemma tinv_step x t l x' : tinv x -> tstep x t l = Some x' -> tinv x' /\ now x <= now x' /\ now x' = t /\ born x' = born x /\ step (tc x) l = Some (tc x').
Proof.
  intros (I1 & I2 & I3 & I4 & I5 & I6 & I7 & I8) S. unfold tstep in S.
  destruct (now x <=? t) eqn:T; [|discriminate]. apply Z.leb_le in T. cbn [andb] in S.
  destruct (due x l t) eqn:D; [|discriminate]. destruct (step (tc x) l) as [c|] eqn:E; [|discriminate]. injection S as <-.
  split; [|cbn [now tc born]; auto].
  pose proof (cfg_kept _ _ _ E) as G. pose proof E as E'. apply step_stepR in E' as [C S].
  destruct (step_beat _ _ _ S) as (es & L & B & R1 & R2 & R3).
  assert (Hn : forall es, Forall not_beat es -> beat_times (tlog x ++ map (pair t) es) = beat_times (tlog x)).
  { intros es0 F. rewrite beat_times_app, (beat_times_none t es0 F). apply app_nil_r. }
  assert (Hn0 : beat_times (tlog x ++ map (pair t) []) = beat_times (tlog x)) by (apply Hn; constructor).
  unfold tinv, at_stage. cbn [tc now since born tlog]. rewrite L, skipn_exact, G.
  split. { rewrite map_app, map_map. cbn [snd]. rewrite map_id, I1. reflexivity. }
  split. { apply Forall_app. split; [eapply Forall_impl; [|exact I2]; cbn; intros; lia|]. apply Forall_map. apply Forall_forall. cbn. intros; lia. }
  assert (Hlast : forall a, last_of (beat_times (tlog x)) = Some a -> a <= now x).
  { intros a La. destruct (last_of_split _ _ La) as [r Er]. assert (In a (beat_times (tlog x))) by (rewrite Er; apply in_or_app; right; left; reflexivity).
    apply in_flat_map in H as ([u e] & Hin & He). rewrite Forall_forall in I2. specialize (I2 _ Hin). cbn in I2.
    destruct e as [| |[]| | |]; destruct He; subst; auto; contradiction. }
  unfold at_stage in I4.
  split; [|split; [|split; [|split; [|split]]]].
  - (* spaced *) destruct B as [es F H|es F H|H H'|es F H H'|H H'|d H H'|e H H'|d s m b H H'|d H H'|H H'|H H' H''|H H' H''];
      try (rewrite Hn by (assumption || constructor); exact I3).
    rewrite beat_times_app. cbn [map beat_times flat_map app]. apply spaced_snoc; [exact I3|]. rewrite H in I4. intros a La. specialize (I4 a La). lia.
  - (* stage *)
    assert (Now : now x <= t) by exact T.
    destruct B as [es F H|es F H|H H'|es F H H'|H H'|d H H'|e H H'|d s m b H H'|d H H'|H H'|H H' H''|H H' H''].
    + rewrite H. unfold past in *. rewrite (Hn _ F). destruct (hb (tc x)) as [| | | | | | | |e|] eqn:Hb; cbn [enters]; auto.
      * intros a La. specialize (I4 a La). lia.
      * intros a La. specialize (I4 a La). lia.
      * destruct I4 as (a & La & A). exists a. split; [exact La|lia].
      * destruct I4 as [I4 I4']. split; [exact I4|lia].
      * destruct I4 as [I4 I4']. split; [exact I4|lia].
      * destruct e; auto. destruct I4 as (a & La & A). exists a. split; [exact La|lia].
    + now rewrite H.
    + rewrite H'. rewrite H in I4. now rewrite Hn0.
    + rewrite H'. rewrite H in I4. now rewrite (Hn _ F).
    + rewrite H'. rewrite H in I4. rewrite Hn0, I4. discriminate.
    + rewrite H'. rewrite H in I4. rewrite Hn0. intros a La. specialize (I4 a La). lia.
    + rewrite H. destruct e; auto. congruence.
    + rewrite H'. unfold past. rewrite beat_times_app. cbn [map beat_times flat_map app]. exists t. split; [apply last_of_snoc|lia].
    + rewrite H', H. rewrite H in I4. cbn [enters]. unfold past in *. rewrite Hn0. destruct I4 as (a & La & A). split; [exists a; split; [exact La|lia]|lia].
    + rewrite H', H. rewrite H in I4. cbn [enters]. unfold past in *. rewrite Hn0. destruct I4 as ((a & La & A) & A'). split; [exists a; split; [exact La|lia]|lia].
    + rewrite H''. rewrite H' in I4. unfold past in *. rewrite Hn0. destruct I4 as ((a & La & A) & A'). exists a. split; [exact La|].
      subst l. cbn [due] in D. apply Z.leb_le in D. unfold wait_of in D. rewrite H' in D. unfold patience. destruct (cf_hb (cfg (tc x))); lia.
    + rewrite H''. rewrite H' in I4. rewrite Hn0. destruct I4 as ((a & La & A) & A'). intros a' La'. rewrite La in La'. injection La' as <-.
      subst l. cbn [due] in D. apply Z.leb_le in D. unfold wait_of in D. rewrite H' in D. unfold interval. destruct (cf_hb (cfg (tc x))); lia.
  - (* the monitor *) intros M. assert (F : past (cfg (tc x)) (tlog x) (patience (cfg (tc x))) (now x) /\ hb c = BDone).
    { destruct (R1 M) as [M'|[M' M'']]; [destruct (I5 M'); auto|]. rewrite M' in I4. auto. }
    destruct F as [F H]. split; [exact H|]. assert (F' : Forall not_beat es) by (destruct B; auto; try constructor; congruence).
    unfold past in *. rewrite (Hn _ F'). destruct F as (a & La & A). exists a. split; [exact La|lia].
  - (* the report *) intros l1 u l2 E1. apply app_split2 in E1 as [(l2' & E1 & _)|(e1 & -> & E1)]; [exact (I6 _ _ _ E1)|].
    assert (Ex : Exists blames_beat es).
    { apply Exists_exists. exists (ERefused OHb EHeartbeatExpired). split; [|exact Logic.I].
      assert (Hin : In (u, ERefused OHb EHeartbeatExpired) (map (pair t) es)) by (rewrite E1; apply in_or_app; right; left; reflexivity).
      apply in_map_iff in Hin as (e & Ee & Hin). injection Ee as _ ->. exact Hin. }
    destruct (I5 (R2 Ex)) as [Hd P].
    assert (u = t). { assert (Hin : In (u, ERefused OHb EHeartbeatExpired) (map (pair t) es)) by (rewrite E1; apply in_or_app; right; left; reflexivity).
      apply in_map_iff in Hin as (e & Ee & Hin). congruence. }
    subst u. assert (F' : Forall not_beat es) by (pose proof (R3 Hd) as Hd'; destruct B; auto; try constructor; congruence).
    assert (F1 : beat_times e1 = []).
    { pose proof (beat_times_none t es F') as F1. rewrite E1, beat_times_app in F1. apply app_eq_nil in F1. tauto. }
    unfold past in *. rewrite beat_times_app, F1, app_nil_r. destruct P as (a & La & A). exists a. split; [exact La|lia].
  - lia.
  - intros Dt. destruct (dial_kept _ _ _ S Dt) as [H| ->]; [specialize (I8 H); lia|]. cbn [due] in D. apply Z.leb_le in D. lia.
Qed.

Lemma tinv_start m g o t : tinv (tstart m g o t).
Proof.
  unfold tinv, at_stage, tstart, start. cbn [tc now since born tlog log hb mon dial map beat_times flat_map].
  repeat split; auto; try discriminate; try lia; try apply spaced_nil.
  all: intros [|? l1] ? ? E; discriminate E.
Qed.
Lemma tinv_run ls : forall x x', tinv x -> trun x ls = Some x' -> tinv x' /\ now x <= now x' /\ born x' = born x /\
  run (tc x) (map snd ls) = Some (tc x').
Proof.
  induction ls as [|[t l] r IH]; intros x x' I H; cbn [trun] in H.
  - injection H as <-. split; [exact I|]. split; [lia|]. split; reflexivity.
  - destruct (tstep x t l) as [y|] eqn:E; [|discriminate]. destruct (tinv_step _ _ _ _ I E) as (I' & N & _ & B & S).
    destruct (IH _ _ I' H) as (J & N' & B' & R). split; [exact J|]. split; [lia|]. split; [congruence|].
    cbn [map snd run]. rewrite S. exact R.
Qed.

(** ** The theorems *)
Lemma beats_spaced m g o t ls x : trun (tstart m g o t) ls = Some x -> spaced (interval g) (beat_times (tlog x)).
Proof.
  intros H. destruct (tinv_run _ _ _ (tinv_start m g o t) H) as ((_ & _ & I & _) & _ & _ & R).
  apply static_run in R as (_ & E & _). cbn [tc tstart] in E. rewrite E in I. exact I.
Qed.

(** counting: n BEATs span n-1 intervals *)
Lemma spaced_tail d a l : spaced d (a :: l) -> spaced d l.
Proof. intros S l1 u v l2 ->. exact (S (a :: l1) u v l2 eq_refl). Qed.
Lemma spaced_within d a b l : spaced d l -> 0 <= d -> spaced d (within a b l).
Proof.
  intros S D. induction l as [|z l IH]; [apply spaced_nil|]. cbn [within filter]. fold (within a b l). specialize (IH (spaced_tail _ _ _ S)).
  destruct ((a <=? z) && (z <=? b))%bool; [|exact IH].
  intros [|y l1] u v l2 E.
  - injection E as -> E. clear IH. revert u S. induction l as [|w l IH']; intros u S; [discriminate E|].
    cbn [within filter] in E. fold (within a b l) in E. pose proof (S [] u w l eq_refl) as U.
    destruct ((a <=? w) && (w <=? b))%bool; [injection E as -> _; lia|].
    apply (IH' E). intros l1' u' v' l2' E'. destruct l1' as [|y l1'].
    + injection E' as -> E'. pose proof (S [u'] w v' l2'). rewrite E' in H. specialize (H eq_refl). lia.
    + injection E' as -> E'. apply (S (y :: w :: l1') u' v' l2'). now rewrite E'.
  - injection E as -> E. exact (IH l1 u v l2 E).
Qed.
Lemma spaced_count d l : forall a, spaced d (a :: l) -> forall b, last_of (a :: l) = Some b -> a + d * Z.of_nat (length l) <= b.
Proof.
  induction l as [|z l IH]; intros a S b L.
  - cbn in L. injection L as ->. cbn [length]. lia.
  - pose proof (S [] a z l eq_refl). assert (L' : last_of (z :: l) = Some b).
    { unfold last_of in *. cbn [rev] in L. destruct (rev l ++ [z]) as [|? ?] eqn:Q; [destruct (rev l); discriminate|]. cbn [rev]. rewrite Q. exact L. }
    specialize (IH z (spaced_tail _ _ _ S) b L'). cbn [length]. lia.
Qed.
Lemma within_bound d a b l : spaced d l -> 0 <= d -> a <= b -> d * (Z.of_nat (length (within a b l)) - 1) <= b - a.
Proof.
  intros S D AB. pose proof (spaced_within d a b l S D) as W.
  assert (F : Forall (fun t => a <= t <= b) (within a b l)).
  { apply Forall_forall. intros t H. apply filter_In in H as [_ H]. apply andb_prop in H as [H H']. apply Z.leb_le in H, H'. lia. }
  destruct (within a b l) as [|z r] eqn:E; [cbn [length]; lia|].
  destruct (last_of (z :: r)) as [e|] eqn:L; [|unfold last_of in L; destruct (rev (z :: r)) eqn:Q; [apply (f_equal (@length Z)) in Q; rewrite rev_length in Q; discriminate|discriminate]].
  pose proof (spaced_count _ _ _ W _ L). destruct (last_of_split _ _ L) as [q Q]. rewrite Forall_forall in F.
  assert (In e (z :: r)) by (rewrite Q; apply in_or_app; right; left; reflexivity). apply F in H0. assert (In z (z :: r)) by (left; reflexivity). apply F in H1.
  cbn [length]. lia.
Qed.
Lemma beats_rate m g o t ls x a b : trun (tstart m g o t) ls = Some x -> a <= b ->
  interval g * (Z.of_nat (length (within a b (beat_times (tlog x)))) - 1) <= b - a.
Proof.
  intros H AB. apply within_bound; [eapply beats_spaced; exact H| |exact AB]. unfold interval. destruct (cf_hb g); lia.
Qed.

Lemma expiry_late m g o t ls x l1 u l2 : trun (tstart m g o t) ls = Some x -> tlog x = l1 ++ (u, ERefused OHb EHeartbeatExpired) :: l2 ->
  exists r a, beat_times l1 = r ++ [a] /\ a + patience g <= u.
Proof.
  intros H L. destruct (tinv_run _ _ _ (tinv_start m g o t) H) as ((_ & _ & _ & _ & _ & I & _) & _ & _ & R).
  apply static_run in R as (_ & E & _). cbn [tc tstart] in E. rewrite E in I. destruct (I _ _ _ L) as (a & La & A).
  destruct (last_of_split _ _ La) as [r Er]. exists r, a. auto.
Qed.
Lemma timed_log m g o t ls x : trun (tstart m g o t) ls = Some x ->
  map snd (tlog x) = log (tc x) /\ run (start m g o) (map snd ls) = Some (tc x) /\ Forall (fun e => t <= fst e <= now x) (tlog x).
Proof.
  intros H. destruct (tinv_run _ _ _ (tinv_start m g o t) H) as ((I & F & _) & _ & _ & R). split; [now rewrite I|]. split; [exact R|].
  enough (G : Forall (fun e => t <= fst e) (tlog x)).
  { apply Forall_forall. intros e Hin. rewrite Forall_forall in F, G. split; auto. }
  assert (Q : Forall (fun e => t <= fst e) (tlog (tstart m g o t)) /\ t <= now (tstart m g o t)) by (split; [constructor|cbn; lia]).
  clear I F R. revert H Q. generalize (tstart m g o t) as y. induction ls as [|[u l] r IH]; intros y H [Q N]; cbn [trun] in H; [injection H as <-; exact Q|].
  destruct (tstep y u l) as [z|] eqn:E; [|discriminate]. apply (IH z H). unfold tstep in E.
  destruct (now y <=? u) eqn:T; [|discriminate]. apply Z.leb_le in T. cbn [andb] in E. destruct (due y l u); [|discriminate].
  destruct (step (tc y) l); [|discriminate]. injection E as <-. cbn [tlog now]. split; [|lia].
  apply Forall_app. split; [exact Q|]. apply Forall_map. apply Forall_forall. cbn. intros; lia.
Qed.

(** ** Dial and Accept *)
Lemma timeout_late m g o t ls x : trun (tstart m g o t) ls = Some x -> dial (tc x) = DTimeout -> t + dial_limit <= now x.
Proof.
  intros H D. destruct (tinv_run _ _ _ (tinv_start m g o t) H) as ((_ & _ & _ & _ & _ & _ & _ & I) & _ & B & _).
  rewrite B in I. exact (I D).
Qed.
Lemma timeout_there m g o t ls x u : trun (tstart m g o t) ls = Some x -> crash (tc x) = None -> dial (tc x) = DWait ->
  now x <= u -> t + dial_limit <= u -> exists x', tstep x u LDialTimeout = Some x' /\ dial (tc x') = DTimeout /\ now x' = u.
Proof.
  intros H C D N L. destruct (tinv_run _ _ _ (tinv_start m g o t) H) as (_ & _ & B & _). cbn [born tstart] in B.
  eexists. unfold tstep. rewrite (proj2 (Z.leb_le _ _) N). cbn [due]. rewrite B, (proj2 (Z.leb_le _ _) L). cbn [andb].
  unfold step. rewrite C, D. split; [reflexivity|]. split; reflexivity.
Qed.

(** an endpoint that hears nothing *)
Definition lonely (c : conn) : Prop :=
  crash c = None /\ dial c = DWait /\ state c = Down /\ closed c = false /\ sopen c = true /\ ctxd c = false /\
  inq c = [] /\ hs c = [] /\ ds c = [] /\ us c = [] /\ (hb c = BStart \/ hb c = BWait) /\
  (mon c = MSelect \/ mon c = MUpd Down \/ (exists m, mon c = MInit m) \/ mon c = MRead).
Lemma lonely_start m g o : lonely (start m g o).
Proof. unfold lonely, start. cb. repeat split; auto. Qed.
Lemma lonely_step c l c' : lonely c -> hears_nothing l -> step c l = Some c' -> lonely c' \/ (l = LDialTimeout /\ dial c' = DTimeout).
Proof.
  intros (C & D & St & Cl & So & Cx & Iq & Hs & Ds & Us & Hb & Mo) Q S. apply step_stepR in S as [_ S].
  assert (Nn : forall {A} i, nth_error (@nil A) i = None) by (intros A [|i]; reflexivity).
  destruct S; cbn [hears_nothing] in Q; try contradiction; try congruence;
    try (rewrite Hs, Nn in *; discriminate); try (rewrite Ds, Nn in *; discriminate); try (rewrite Us, Nn in *; discriminate);
    try (destruct Hb; congruence); try (destruct Mo as [M|[M|[(? & M)|M]]]; congruence);
    try (left; unfold lonely; cb; repeat split; auto; fail).

  - left. rewrite state_update_eq. assert (s = Down) as -> by (destruct Mo as [M|[M|[(? & M)|M]]]; congruence).
    unfold lonely, upd_mon. cb. repeat split; auto. destruct (mode c); [right; right; left; eauto|auto].
  - exfalso. rewrite Q, So in *. discriminate.
  - right. auto.
  - exfalso. destruct H; try congruence; try (rewrite Hs, Nn in *; discriminate); try (rewrite Ds, Nn in *; discriminate); try (rewrite Us, Nn in *; discriminate);
      try (destruct Hb; congruence); try (destruct Mo as [M|[M|[(? & M)|M]]]; congruence).
    destruct (wire_total m) as [b W]. congruence.
Qed.
Lemma dial_final c l c' : stepR c l c' -> dial c <> DWait -> dial c' = dial c.
Proof.
  intros S. destruct S; cb; auto; try congruence.
  - rewrite state_update_eq. reflexivity.
  - fields c. bfields (closing c). intros. congruence.
  - destruct (hba c); reflexivity.
  - fields c. intros. congruence.
Qed.
Lemma lonely_run ls : forall c c', lonely c \/ dial c = DTimeout -> Forall hears_nothing ls -> run c ls = Some c' -> lonely c' \/ dial c' = DTimeout.
Proof.
  induction ls as [|l r IH]; intros c c' L F R; cbn [run] in R; [injection R as <-; exact L|].
  inversion F as [|? ? F1 F2]; subst. destruct (step c l) as [c1|] eqn:S; [|discriminate]. apply (IH c1); auto.
  destruct L as [L|L]; [destruct (lonely_step _ _ _ L F1 S) as [?|[_ ?]]; auto|]. right.
  apply step_stepR in S as [_ S]. rewrite (dial_final _ _ _ S); congruence.
Qed.
Lemma silence m g o t ls x : trun (tstart m g o t) ls = Some x -> Forall (fun e => hears_nothing (snd e)) ls -> dial (tc x) <> DWait ->
  dial (tc x) = DTimeout /\ t + dial_limit <= now x.
Proof.
  intros H F D. assert (E : dial (tc x) = DTimeout).
  { destruct (timed_log _ _ _ _ _ _ H) as (_ & R & _). apply Forall_map in F.
    destruct (lonely_run _ _ _ (or_introl (lonely_start m g o)) F R) as [(_ & L & _)|L]; [contradiction|exact L]. }
  split; [exact E|]. eapply timeout_late; eauto.
Qed.

Lemma queue_waits g : forall calls t ds t', accept_loop g t calls = Some (ds, t') -> Forall silent_call calls ->
  ds = repeat DTimeout (length calls) /\ t + dial_limit * Z.of_nat (length calls) <= t'.
Proof.
  induction calls as [|[o ls] r IH]; intros t ds t' H F; cbn [accept_loop] in H; [injection H as <- <-; cbn [length repeat]; split; [reflexivity|lia]|].
  inversion F as [|? ? F1 F2]; subst. destruct (trun (tstart Server g o t) ls) as [x|] eqn:R; [|discriminate].
  assert (D : dial (tc x) <> DWait) by (intros D; rewrite D in H; discriminate).
  destruct (silence _ _ _ _ _ _ R F1 D) as [D1 D2]. rewrite D1 in H. destruct (accept_loop g (now x) r) as [[ds1 t1]|] eqn:L; [|discriminate].
  injection H as <- <-. destruct (IH _ _ _ L F2) as [-> I]. cbn [length repeat]. split; [reflexivity|lia].
Qed.
Lemma queue_tight g (o : N) n : forall t, exists calls, length calls = n /\ Forall silent_call calls /\
  accept_loop g t calls = Some (repeat DTimeout n, t + dial_limit * Z.of_nat n).
Proof.
  induction n as [|n IH]; intros t.
  - exists []. split; [reflexivity|]. split; [constructor|]. cbn [accept_loop repeat]. do 2 f_equal. lia.
  - destruct (IH (t + dial_limit)) as (cs & L & F & A). exists ((o, [(t + dial_limit, LDialTimeout)]) :: cs).
    split; [cbn [length]; lia|]. split; [constructor; [repeat constructor|exact F]|].
    cbn [accept_loop trun]. unfold tstep. cbn [tstart now due born tc]. rewrite (proj2 (Z.leb_le t (t + dial_limit))) by (unfold dial_limit; lia). rewrite Z.leb_refl. cbn [andb].
    unfold step, start. cb. cbn [tc now dial set_sopen set_dial]. rewrite A. cbn [repeat]. do 2 f_equal. lia.
Qed.

(** ** The timers of the heartbeat goroutine do fire *)
Lemma enters_same b : enters b b = false. Proof. now destruct b. Qed.
Lemma stays_since b ls : forall x x', stays b x ls -> trun x ls = Some x' -> since x' = since x /\ hb (tc x') = b.
Proof.
  induction ls as [|[t l] r IH]; intros x x' [H S] R; cbn [trun] in R; [injection R as <-; auto|].
  destruct (tstep x t l) as [y|] eqn:E; [|discriminate]. destruct (IH y x' S R) as [A B]. split; [|exact B].
  assert (Hy : hb (tc y) = b) by (destruct r as [|[? ?] ?]; apply S).
  rewrite A. unfold tstep in E. destruct (_ && _)%bool; [|discriminate]. destruct (step (tc x) l) as [c|]; [|discriminate]. injection E as <-.
  cbn [tc] in Hy. cbn [since]. now rewrite Hy, H, enters_same.
Qed.
Lemma timer_there m g o t ls1 x1 a l x2 ls2 x3 u d : trun (tstart m g o t) ls1 = Some x1 -> tstep x1 a l = Some x2 -> hb (tc x1) <> hb (tc x2) ->
  (hb (tc x2) = BAck /\ d = patience g) \/ (hb (tc x2) = BSleep /\ d = interval g) ->
  trun x2 ls2 = Some x3 -> stays (hb (tc x2)) x2 ls2 -> crash (tc x3) = None -> now x3 <= u -> a + d <= u ->
  exists x', tstep x3 u LHbTimer = Some x' /\
    hb (tc x') = (match hb (tc x2) with BAck => BErr EHeartbeatExpired | _ => BRand end).
Proof.
  intros R1 S N D R2 St C U A. destruct (stays_since _ _ _ _ St R2) as [Sx Hx].
  destruct (tinv_run _ _ _ (tinv_start m g o t) R1) as (I1 & _ & _ & Q1). destruct (tinv_step _ _ _ _ I1 S) as (I2 & _ & _ & _ & Q2).
  destruct (tinv_run _ _ _ I2 R2) as (_ & _ & _ & Q3).
  assert (G : cfg (tc x3) = g).
  { apply static_run in Q1 as (_ & G1 & _). apply static_run in Q3 as (_ & G3 & _). rewrite G3, (cfg_kept _ _ _ Q2), G1. reflexivity. }
  assert (E : since x2 = a).
  { unfold tstep in S. destruct (_ && _)%bool; [|discriminate]. destruct (step (tc x1) l) as [c|]; [|discriminate]. injection S as <-. cbn [tc since] in *.
    destruct D as [[D _]|[D _]]; rewrite D in *; destruct (hb (tc x1)); cbn [enters]; congruence. }
  assert (W : since x3 + wait_of (tc x3) <= u).
  { rewrite Sx, E. unfold wait_of. rewrite G, Hx. unfold patience, interval in D.
    destruct D as [[H ->]|[H ->]]; rewrite H; destruct (cf_hb g); lia. }
  unfold tstep. rewrite (proj2 (Z.leb_le _ _) U). cbn [due]. rewrite (proj2 (Z.leb_le _ _) W). cbn [andb].
  unfold step. rewrite C, Hx. destruct D as [[H _]|[H _]]; rewrite H; eexists; (split; [reflexivity|reflexivity]).
Qed.
