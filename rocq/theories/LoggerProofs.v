(** Proofs about LoggerModel.v *)
From Verif Require Import GoBase LoggerModel.
From Coq Require Import Arith Lia.
Open Scope nat_scope.

(** ** upd *)
Lemma lupd_split {A} (l : list A) i y : nth_error l i = Some y ->
  exists a b, l = a ++ y :: b /\ length a = i /\ forall x, upd l i x = a ++ x :: b.
Proof.
  intros H. apply nth_error_split in H. destruct H as (a & b & -> & <-). exists a, b. repeat split; auto.
  intros x. unfold upd. rewrite firstn_app, Nat.sub_diag, firstn_all. cbn [firstn]. rewrite app_nil_r.
  f_equal. f_equal. replace (S (length a)) with (length (a ++ [y])) by (rewrite app_length; cbn; lia).
  replace (a ++ y :: b) with ((a ++ [y]) ++ b) by now rewrite <- app_assoc.
  rewrite skipn_app, skipn_all, Nat.sub_diag. reflexivity.
Qed.

(** ** The reachable shapes of a goroutine *)
Definition stage2 (p : list linstr) : Prop := exists l, p = [Lock; Assign l; Unlock; Unlock].
Definition simple_holder (p : list linstr) : Prop :=
  p = [Unlock] \/ (exists l, p = [Assign l; Unlock]) \/ p = [Discard; Unlock] \/ p = [Printf; Unlock].
Inductive pshape : bool -> list linstr -> Prop :=     (* true: it holds the mutex *)
| P_done : pshape false []
| P_call p : is_call p -> pshape false p
| P_simple p : simple_holder p -> pshape true p
| P_stage2 p : stage2 p -> pshape true p.

Inductive shapes : nat -> list (list linstr) -> Prop :=
| SH_nil : shapes 0 []
| SH_cons b p n ps : pshape b p -> shapes n ps -> shapes ((if b then 1 else 0) + n) (p :: ps).
Definition LI (s : lstate) : Prop := shapes (if held s then 1 else 0) (procs s).

Lemma shapes_app n m a b : shapes n a -> shapes m b -> shapes (n + m) (a ++ b).
Proof. intros H. revert m. induction H; intros m Hb; cbn; auto. rewrite <- Nat.add_assoc. constructor; auto. Qed.
Lemma shapes_inv n a p b : shapes n (a ++ p :: b) ->
  exists (x : bool) na nb, n = na + ((if x then 1 else 0) + nb) /\ shapes na a /\ pshape x p /\ shapes nb b.
Proof.
  revert n. induction a as [|q a IH]; intros n H; cbn in H; inversion H; subst.
  - eexists; exists 0; eexists. repeat split; eauto. constructor.
  - destruct (IH _ H4) as (x & na & nb & -> & A & B & C).
    exists x; eexists; exists nb. repeat split; [|econstructor; eauto|auto|auto]. lia.
Qed.
Lemma is_call_lock p : is_call p -> exists r, p = Lock :: r.
Proof. intros [(l & f & ->)|[(l & f & ->)|[->| ->]]]; eexists; reflexivity. Qed.
Lemma call_locked p r : is_call p -> p = Lock :: r -> pshape true r.
Proof.
  intros [(l & f & ->)|[(l & f & ->)|[->| ->]]] E; inversion E; subst.
  - apply P_simple. right; left; eauto.
  - apply P_stage2. eexists. reflexivity.
  - apply P_simple. right; right; left; reflexivity.
  - apply P_simple. right; right; right; reflexivity.
Qed.

Definition calls (l : list lact) : list (list linstr) :=
  flat_map (fun a => match a with Call p => [p] | _ => [] end) l.
Definition good (a : lact) : Prop := match a with Call p => is_call p | _ => True end.

Lemma LI_step s a s' : LI s -> good a -> lact_step s a = Some s' -> LI s'.
Proof.
  intros I G. destruct a as [i|p]; cbn [lact_step].
  2:{ intros H; inversion H; subst. unfold LI in *; cbn [held procs].
      replace (if held s then 1 else 0) with ((if held s then 1 else 0) + 0) by lia.
      apply shapes_app; auto. replace 0 with (0 + 0) by lia. apply (SH_cons false); [now constructor|constructor]. }
  unfold lstep. destruct (nth_error (procs s) i) as [[|x r]|] eqn:E; try discriminate.
  destruct (lupd_split _ _ _ E) as (a & b & P & _ & U). unfold LI in I. rewrite P in I.
  destruct (shapes_inv _ _ _ _ I) as (y & na & nb & Hn & A & B & C).
  assert (K : forall z h cu di pr, pshape z r -> (if h : bool then 1 else 0) = na + ((if z then 1 else 0) + nb) ->
    LI (mkL h cu di pr (upd (procs s) i r))).
  { intros z h cu di pr Hz Hh. unfold LI; cbn [held procs]. rewrite U, Hh. apply shapes_app; auto. now constructor. }
  destruct x.
  - destruct (held s) eqn:Hs; [discriminate|]. intros H; inversion H; subst; clear H.
    apply (K true).
    + inversion B; subst.
      * eapply call_locked; eauto.
      * destruct H as [H|[[? H]|[H|H]]]; discriminate.
      * cbn in Hn. exfalso. lia.
    + destruct y; lia.
  - intros H; inversion H; subst; clear H. inversion B; subst.
    + destruct (is_call_lock _ H) as [? H']. discriminate.
    + destruct H as [H|[[? H]|[H|H]]]; try discriminate. inversion H; subst.
      apply (K false); [constructor|]. destruct (held s); lia.
    + destruct H as [? H]. discriminate.
  - intros H; inversion H; subst; clear H. inversion B; subst.
    + destruct (is_call_lock _ H) as [? H']. discriminate.
    + destruct H as [H|[[? H]|[H|H]]]; try discriminate. inversion H; subst.
      apply (K true); auto. apply P_simple. left; auto.
    + destruct H as [? H]. discriminate.
  - intros H; inversion H; subst; clear H. inversion B; subst.
    + destruct (is_call_lock _ H) as [? H']. discriminate.
    + destruct H as [H|[[? H]|[H|H]]]; try discriminate. inversion H; subst.
      apply (K true); auto. apply P_simple. left; auto.
    + destruct H as [? H]. discriminate.
  - intros H; inversion H; subst; clear H. inversion B; subst.
    + destruct (is_call_lock _ H) as [? H']. discriminate.
    + destruct H as [H|[[? H]|[H|H]]]; try discriminate. inversion H; subst.
      apply (K true); auto. apply P_simple. left; auto.
    + destruct H as [? H]. discriminate.
Qed.
Lemma LI_run l s s' : LI s -> Forall good l -> lrun s l = Some s' -> LI s'.
Proof.
  revert s. induction l as [|a r IH]; intros s I G H; cbn in H.
  - inversion H; subst; auto.
  - inversion G; subst. destruct (lact_step s a) as [s1|] eqn:E; [|discriminate].
    apply (IH s1); auto. eapply LI_step; eauto.
Qed.
Lemma LI_start : LI lstart.
Proof. exact SH_nil. Qed.

(** ** Once EnableLogging has the mutex *)
Definition stuck (s : lstate) : Prop := held s = true /\ exists a p b, procs s = a ++ p :: b /\ stage2 p /\
  Forall (fun q => q = [] \/ exists r, q = Lock :: r) (procs s).
Lemma shapes_0 ps : shapes 0 ps -> Forall (fun q => q = [] \/ exists r, q = Lock :: r) ps.
Proof.
  remember 0 as n. intros H. induction H; constructor.
  - destruct b; [discriminate|]. inversion H; subst; auto. right. now apply is_call_lock.
  - destruct b; [discriminate|]. apply IHshapes. lia.
Qed.
Lemma stage2_stuck s i p : LI s -> nth_error (procs s) i = Some p -> stage2 p -> stuck s.
Proof.
  intros I E S. apply nth_error_split in E. destruct E as (a & b & P & _).
  unfold LI in I. rewrite P in I. destruct (shapes_inv _ _ _ _ I) as (y & na & nb & Hn & A & B & C).
  assert (y = true) as ->.
  { destruct y; auto. inversion B; subst; destruct S as [l S]; try discriminate.
    subst. destruct H as [(? & ? & H)|[(? & ? & H)|[H|H]]]; discriminate. }
  assert (na = 0 /\ nb = 0 /\ held s = true) as (-> & -> & Hh) by (destruct (held s); lia).
  split; auto. exists a, p, b. repeat split; auto. rewrite P. apply Forall_app. split.
  - now apply shapes_0. - constructor; [|now apply shapes_0]. destruct S as [l ->]. eauto.
Qed.
Lemma stuck_step s i : stuck s -> lstep s i = None.
Proof.
  intros (Hh & a & p & b & P & S & F). unfold lstep. destruct (nth_error (procs s) i) as [[|x r]|] eqn:E; auto.
  apply nth_error_In in E. rewrite Forall_forall in F. destruct (F _ E) as [H|[r' H]]; [discriminate|].
  inversion H; subst. now rewrite Hh.
Qed.
Lemma stuck_call s p : stuck s -> is_call p -> stuck (mkL (held s) (cur s) (discarded s) (printed_to s) (procs s ++ [p])).
Proof.
  intros (Hh & a & q & b & P & S & F) C. split; auto. cbn [procs]. exists a, q, (b ++ [p]). repeat split; auto.
  - rewrite P, <- app_assoc. reflexivity.
  - apply Forall_app. split; auto. constructor; auto. right. now apply is_call_lock.
Qed.
Lemma stuck_run l : forall s s', stuck s -> Forall good l -> lrun s l = Some s' ->
  stuck s' /\ procs s' = procs s ++ calls l /\ printed_to s' = printed_to s /\ cur s' = cur s /\ l = map Call (calls l).
Proof.
  induction l as [|a r IH]; intros s s' K G H; cbn in H.
  - inversion H; subst. cbn. rewrite app_nil_r. auto.
  - inversion G; subst. destruct a as [i|p]; cbn [lact_step] in H.
    + rewrite stuck_step in H by auto. discriminate.
    + destruct (IH _ _ (stuck_call s p K H2) H3 H) as (A & B & C & D & E). split; [exact A|split; [|split; [exact C|split; [exact D|]]]].
      * rewrite B. cbn [procs calls flat_map]. now rewrite <- app_assoc.
      * cbn [calls flat_map app map]. now rewrite E at 1.
Qed.

(** ** a call of EnableLogging never returns *)
Lemma enable_step s a s' i l f p : LI s -> good a -> lact_step s a = Some s' -> nth_error (procs s) i = Some p ->
  p = EnableLogging l f \/ stage2 p ->
  exists p', nth_error (procs s') i = Some p' /\ (p' = EnableLogging l f \/ stage2 p').
Proof.
  intros I G H N D. destruct a as [j|q]; cbn [lact_step] in H.
  2:{ inversion H; subst. exists p. cbn [procs]. split; auto. rewrite nth_error_app1; auto. apply nth_error_Some. congruence. }
  destruct D as [D|D].
  2:{ pose proof (stage2_stuck _ _ _ I N D) as K. rewrite stuck_step in H by auto. discriminate. }
  unfold lstep in H. destruct (nth_error (procs s) j) as [[|x r]|] eqn:E; try discriminate.
  destruct (lupd_split _ _ _ E) as (a & b & P & La & U).
  destruct (Nat.eq_dec i j) as [->|Ne].
  - rewrite N in E. inversion E; subst p. cbn in H1. inversion H1; subst. destruct (held s); [discriminate|].
    inversion H; subst. cbn [procs]. eexists. split; [|right; eexists; reflexivity].
    rewrite U, nth_error_app2 by lia. rewrite Nat.sub_diag. reflexivity.
  - assert (X : nth_error (procs s') i = nth_error (procs s) i).
    { assert (procs s' = upd (procs s) j r) as -> by
        (destruct x; [destruct (held s); [discriminate|]|..]; inversion H; reflexivity).
      rewrite U, P. destruct (Nat.lt_trichotomy i (length a)) as [L|[L|L]].
      - now rewrite !nth_error_app1. - congruence.
      - rewrite !nth_error_app2 by lia. destruct (i - length a) eqn:Z; [lia|reflexivity]. }
    rewrite X. eauto.
Qed.
Lemma enable_run ls : forall s s' i l f p, LI s -> Forall good ls -> lrun s ls = Some s' -> nth_error (procs s) i = Some p ->
  p = EnableLogging l f \/ stage2 p ->
  exists p', nth_error (procs s') i = Some p' /\ (p' = EnableLogging l f \/ stage2 p').
Proof.
  induction ls as [|a r IH]; intros s s' i l f p I G H N D; cbn in H.
  - inversion H; subst; eauto.
  - inversion G; subst. destruct (lact_step s a) as [s1|] eqn:E; [|discriminate].
    destruct (enable_step _ _ _ _ _ _ _ I H2 E N D) as (p1 & N1 & D1).
    eapply (IH s1); eauto. eapply LI_step; eauto.
Qed.
Lemma enable_never_returns ls ls' l f s :
  lrun lstart (ls ++ Call (EnableLogging l f) :: ls') = Some s -> Forall good (ls ++ ls') ->
  exists p, nth_error (procs s) (length (calls ls)) = Some p /\ p <> [].
Proof.
  intros H G. apply Forall_app in G. destruct G as [G1 G2].
  assert (A : forall ls s0 s1, lrun s0 ls = Some s1 -> length (procs s1) = length (procs s0) + length (calls ls)).
  { clear. induction ls as [|a r IH]; intros s0 s1 H; cbn in H.
    - inversion H; subst. cbn. lia.
    - destruct (lact_step s0 a) as [s2|] eqn:E; [|discriminate]. rewrite (IH _ _ H).
      destruct a as [i|p]; cbn [lact_step] in E.
      + change (calls (Step i :: r)) with (calls r). unfold lstep in E. destruct (nth_error (procs s0) i) as [[|x k]|] eqn:N; try discriminate.
        destruct (lupd_split _ _ _ N) as (a & b & P & _ & U).
        assert (procs s2 = upd (procs s0) i k) as -> by
          (destruct x; [destruct (held s0); [discriminate|]|..]; inversion E; reflexivity).
        rewrite U, P, !app_length. reflexivity.
      + change (calls (Call p :: r)) with (p :: calls r). inversion E; subst. cbn [procs]. rewrite app_length. cbn [length]. lia. }
  assert (B : forall a b s0, lrun s0 (a ++ b) = match lrun s0 a with Some s1 => lrun s1 b | None => None end).
  { clear. induction a as [|x r IH]; intros b s0; cbn; auto. destruct (lact_step s0 x); auto. }
  rewrite B in H. destruct (lrun lstart ls) as [s1|] eqn:E; [|discriminate].
  cbn [lrun lact_step] in H.
  set (s2 := mkL (held s1) (cur s1) (discarded s1) (printed_to s1) (procs s1 ++ [EnableLogging l f])) in *.
  assert (I1 : LI s1) by (eapply LI_run; [apply LI_start|exact G1|exact E]).
  assert (C : is_call (EnableLogging l f)) by (right; left; eauto).
  assert (I2 : LI s2) by (apply (LI_step s1 (Call (EnableLogging l f))); auto).
  assert (N : nth_error (procs s2) (length (calls ls)) = Some (EnableLogging l f)).
  { pose proof (A _ _ _ E) as L. cbn in L. cbn [procs s2]. rewrite <- L, nth_error_app2, Nat.sub_diag; auto. }
  destruct (enable_run _ _ _ _ l f _ I2 G2 H N (or_introl eq_refl)) as (p & Np & D).
  exists p. split; auto. destruct D as [->|[x ->]]; discriminate.
Qed.

(** ** without EnableLogging every call can finish *)
Definition plain (p : list linstr) : Prop := (exists l f, p = SetLogger l f) \/ p = DisableLogging \/ p = logf.
Lemma plain_call p : plain p -> is_call p.
Proof. intros [?|[?|?]]; unfold is_call; auto. Qed.
Definition pl (p : list linstr) : Prop := p = [] \/ plain p \/ simple_holder p.
Definition goodp (a : lact) : Prop := match a with Call p => plain p | _ => True end.
Lemma goodp_good a : goodp a -> good a.
Proof. destruct a; cbn; auto using plain_call. Qed.

Lemma Forall_lupd {A} (P : A -> Prop) l i x y : Forall P l -> nth_error l i = Some y -> P x -> Forall P (upd l i x).
Proof.
  intros F N Hx. destruct (lupd_split _ _ _ N) as (a & b & E & _ & U). rewrite U. rewrite E in F.
  apply Forall_app in F. destruct F as [F1 F2]. inversion F2; subst. apply Forall_app; auto.
Qed.
Lemma pl_tail x r : pl (x :: r) -> pl r.
Proof.
  intros [H|[[(l & f & H)|[H|H]]|[H|[[l H]|[H|H]]]]]; inversion H; subst; unfold pl, simple_holder; eauto 8.
Qed.
Lemma plain_step s a s' : Forall pl (procs s) -> goodp a -> lact_step s a = Some s' -> Forall pl (procs s').
Proof.
  intros F G H. destruct a as [i|p]; cbn [lact_step] in H.
  - unfold lstep in H. destruct (nth_error (procs s) i) as [[|x r]|] eqn:E; try discriminate.
    assert (procs s' = upd (procs s) i r) as -> by
      (destruct x; [destruct (held s); [discriminate|]|..]; inversion H; reflexivity).
    eapply Forall_lupd; eauto. rewrite Forall_forall in F. eapply pl_tail. eapply F. eapply nth_error_In; eauto.
  - inversion H; subst. cbn [procs]. apply Forall_app. split; auto. constructor; auto. right; left. exact G.
Qed.
Lemma plain_run ls : forall s s', Forall pl (procs s) -> Forall goodp ls -> lrun s ls = Some s' -> Forall pl (procs s').
Proof.
  induction ls as [|a r IH]; intros s s' F G H; cbn in H.
  - inversion H; subst; auto.
  - inversion G; subst. destruct (lact_step s a) as [s1|] eqn:E; [|discriminate]. apply (IH s1); auto. eapply plain_step; eauto.
Qed.
(** total remaining work *)
Definition work (s : lstate) : nat := list_sum (map (@length _) (procs s)).
Lemma lstep_work s i s' : lstep s i = Some s' -> S (work s') = work s.
Proof.
  unfold lstep. destruct (nth_error (procs s) i) as [[|x r]|] eqn:E; try discriminate. intros H.
  assert (procs s' = upd (procs s) i r) as Hp by
    (destruct x; [destruct (held s); [discriminate|]|..]; inversion H; reflexivity).
  unfold work. rewrite Hp. destruct (lupd_split _ _ _ E) as (a & b & P & _ & U). rewrite U, P.
  rewrite !map_app, !list_sum_app. cbn. lia.
Qed.
Lemma shapes_holder n ps : shapes n ps -> 0 < n -> exists i p, nth_error ps i = Some p /\ pshape true p.
Proof.
  intros H. induction H; intros L; [lia|]. destruct b.
  - exists 0, p. auto. - destruct (IHshapes L) as (i & q & A & B). exists (S i), q. auto.
Qed.
Lemma plain_progress s : LI s -> Forall pl (procs s) -> 0 < work s -> exists i s', lstep s i = Some s'.
Proof.
  intros I F W. destruct (held s) eqn:Hh.
  - unfold LI in I. rewrite Hh in I. destruct (shapes_holder _ _ I ltac:(lia)) as (i & p & N & Hp). exists i.
    unfold lstep. rewrite N. inversion Hp; subst.
    + destruct H as [->|[[l ->]|[->| ->]]]; eauto.
    + exfalso. destruct H as [l ->]. rewrite Forall_forall in F. apply nth_error_In in N.
      destruct (F _ N) as [H|[[(? & ? & H)|[H|H]]|[H|[[? H]|[H|H]]]]]; discriminate.
  - assert (exists i x r, nth_error (procs s) i = Some (x :: r)) as (i & x & r & N).
    { unfold work in W. clear - W. induction (procs s) as [|[|x r] ps IH]; cbn in W; [lia| |].
      - destruct (IH W) as (i & y & r & N). exists (S i), y, r. auto.
      - exists 0, x, r. auto. }
    exists i. unfold lstep. rewrite N. destruct x; eauto. rewrite Hh. eauto.
Qed.
Lemma plain_all_finish n : forall s, work s <= n -> LI s -> Forall pl (procs s) ->
  exists is s', lrun s (map Step is) = Some s' /\ Forall (fun p => p = []) (procs s').
Proof.
  induction n as [|n IH]; intros s W I F.
  - exists [], s. split; auto. unfold work in W. clear - W. induction (procs s) as [|[|x r] ps IHp]; cbn in W; constructor; auto; lia.
  - destruct (Nat.eq_dec (work s) 0) as [Z|Z]; [apply IH; auto; lia|].
    destruct (plain_progress s I F ltac:(lia)) as (i & s1 & E).
    pose proof (lstep_work _ _ _ E).
    destruct (IH s1) as (is & s' & A & B); [lia|apply (LI_step s (Step i)); cbn; auto|apply (plain_step s (Step i)); cbn; auto|].
    exists (i :: is), s'. cbn [map lrun lact_step]. rewrite E. auto.
Qed.
(** every schedule is finite: at most [work] steps remain *)
Lemma plain_inevitable s : LI s -> Forall pl (procs s) ->
  forall is s', lrun s (map Step is) = Some s' ->
  length is <= work s /\ (Forall (fun p => p = []) (procs s') \/ exists i s'', lstep s' i = Some s'').
Proof.
  intros I F is. revert s I F. induction is as [|i r IH]; intros s I F s' H; cbn in H.
  - inversion H; subst. split; [cbn; lia|]. destruct (Nat.eq_dec (work s') 0) as [Z|Z].
    + left. unfold work in Z. clear - Z. induction (procs s') as [|[|x r] ps IHp]; cbn in Z; constructor; auto; lia.
    + right. apply plain_progress; auto. lia.
  - destruct (lstep s i) as [s1|] eqn:E; [|discriminate]. pose proof (lstep_work _ _ _ E).
    destruct (IH s1) with (s' := s') as [A B]; auto.
    + apply (LI_step s (Step i)); cbn; auto. + apply (plain_step s (Step i)); cbn; auto.
    + split; [cbn; lia|auto].
Qed.
Lemma plain_reachable ls s : Forall goodp ls -> lrun lstart ls = Some s -> LI s /\ Forall pl (procs s).
Proof.
  intros G H. split.
  - eapply LI_run; [apply LI_start| |exact H]. eapply Forall_impl; [|exact G]. apply goodp_good.
  - eapply plain_run; eauto. constructor.
Qed.

(** ** DisableLogging silences the logger itself *)
Lemma discarded_grows s a s' x : lact_step s a = Some s' -> In x (discarded s) -> In x (discarded s').
Proof.
  destruct a as [i|p]; cbn [lact_step]; [|intros H; now inversion H].
  unfold lstep. destruct (nth_error (procs s) i) as [[|y r]|]; try discriminate.
  destruct y; [destruct (held s); [discriminate|]|..]; intros H; inversion H; subst; cbn; auto.
Qed.
Lemma discarded_forever ls : forall s s' x, lrun s ls = Some s' -> In x (discarded s) -> In x (discarded s').
Proof.
  induction ls as [|a r IH]; intros s s' x H D; cbn in H.
  - now inversion H; subst.
  - destruct (lact_step s a) as [s1|] eqn:E; [|discriminate]. eapply (IH s1); eauto. eapply discarded_grows; eauto.
Qed.
