(** The logging functions behave as if executed one after the other. *)
From Verif Require Import GoBase LoggerModel LoggerProofs.
From Coq Require Import Arith Lia.
Open Scope nat_scope.

(** ** Specification: the functions as atomic operations *)
Inductive lcall := CSet (l : loggerv) | CDisable | CLog.
(** the logger in use, the silenced loggers, the logger used by each message (last first) *)
Record lview := mkV { v_cur : loggerv; v_silent : list loggerv; v_used : list loggerv }.
Definition exec (v : lview) (c : lcall) : lview :=
  match c with
  | CSet l => mkV l (v_silent v) (v_used v)
  | CDisable => mkV (v_cur v) (v_cur v :: v_silent v) (v_used v)
  | CLog => mkV (v_cur v) (v_silent v) (v_cur v :: v_used v)
  end.
(** SetLogger(nil) installs a new logger [f] *)
Inductive denotes : list linstr -> lcall -> Prop :=
| DE_set l f : denotes (SetLogger (Some l) f) (CSet l)
| DE_nil f : denotes (SetLogger None f) (CSet f)
| DE_disable : denotes DisableLogging CDisable
| DE_log : denotes logf CLog.
Definition view (s : lstate) : lview := mkV (cur s) (discarded s) (printed_to s).
(** [o] is a possible order for the calls made in [ls]: whatever has returned before some
    moment comes before whatever is called after it *)
Definition real_time (ls : list lact) (o : list nat) : Prop :=
  forall l1 l2 s1, ls = l1 ++ l2 -> lrun lstart l1 = Some s1 ->
  exists o1 o2, o = o1 ++ o2 /\ (forall i, nth_error (procs s1) i = Some [] -> In i o1) /\
    (forall i, In i o1 -> i < length (calls l1)).

(** ** Proofs *)
Lemma lrun_app a : forall b s, lrun s (a ++ b) = match lrun s a with Some s1 => lrun s1 b | None => None end.
Proof. induction a as [|x r IH]; intros b s; cbn; auto. destruct (lact_step s x); auto. Qed.
Lemma calls_app a b : calls (a ++ b) = calls a ++ calls b.
Proof. apply flat_map_app. Qed.

(** the order in which the mutex is acquired *)
Definition acquired (s : lstate) (a : lact) : list nat :=
  match a with Step i => match nth_error (procs s) i with Some (Lock :: _) => [i] | _ => [] end | Call _ => [] end.
Inductive lexec : list lact -> lstate -> list nat -> Prop :=
| X_nil : lexec [] lstart []
| X_snoc ls s o a s' : lexec ls s o -> lact_step s a = Some s' -> lexec (ls ++ [a]) s' (o ++ acquired s a).
Lemma lexec_of ls : forall s, lrun lstart ls = Some s -> exists o, lexec ls s o.
Proof.
  induction ls as [|a ls IH] using rev_ind; intros s H.
  - injection H as <-. exists []. constructor.
  - rewrite lrun_app in H. destruct (lrun lstart ls) as [s1|] eqn:E; [|discriminate]. destruct (IH _ eq_refl) as [o X].
    cbn in H. destruct (lact_step s1 a) as [s2|] eqn:F; [|discriminate]. injection H as <-. eexists. econstructor; eauto.
Qed.
Lemma lexec_run ls s o : lexec ls s o -> lrun lstart ls = Some s.
Proof. induction 1; [reflexivity|]. rewrite lrun_app, IHlexec. cbn. now rewrite H0. Qed.
Lemma lexec_cut ls s o : lexec ls s o -> forall l1 l2, ls = l1 ++ l2 -> exists s1 o1 o2, lexec l1 s1 o1 /\ o = o1 ++ o2.
Proof.
  induction 1 as [|ls s o a s' X IH S]; intros l1 l2 E.
  - destruct l1; [|discriminate]. exists lstart, [], []. split; [constructor|reflexivity].
  - destruct l2 as [|y l2 _] using rev_ind.
    + rewrite app_nil_r in E. subst l1. exists s', (o ++ acquired s a), []. split; [econstructor; eauto|now rewrite app_nil_r].
    + rewrite app_assoc in E. apply app_inj_tail in E. destruct E as [-> ->].
      destruct (IH l1 l2 eq_refl) as (s1 & o1 & o2 & X1 & ->). exists s1, o1, (o2 ++ acquired s y). split; auto. now rewrite app_assoc.
Qed.

(** what the goroutine holding the mutex will still do *)
Fixpoint finish (k : list linstr) (v : lview) : lview :=
  match k with
  | [] => v
  | Assign l :: k => finish k (exec v (CSet l))
  | Discard :: k => finish k (exec v CDisable)
  | Printf :: k => finish k (exec v CLog)
  | _ :: k => finish k v
  end.
Definition den (ls : list lact) (i : nat) (c : lcall) : Prop := exists p, nth_error (calls ls) i = Some p /\ denotes p c.
Definition v0 : lview := mkV 0 [] [].
(** [h]: the goroutine that holds the mutex *)
Definition settled (ls : list lact) (s : lstate) (o : list nat) (h : option nat) : Prop :=
  length (procs s) = length (calls ls) /\
  forall i, Some i <> h -> forall q, nth_error (procs s) i = Some q ->
    (In i o /\ q = []) \/ (~ In i o /\ nth_error (calls ls) i = Some q).
Definition ordered (ls : list lact) (s : lstate) (o : list nat) : Prop :=
  NoDup o /\ (forall i, In i o -> i < length (calls ls)) /\ exists cs, Forall2 (den ls) o cs /\
  if held s
  then exists h k, In h o /\ nth_error (procs s) h = Some k /\ simple_holder k /\
         finish k (view s) = fold_left exec cs v0 /\ settled ls s o (Some h)
  else view s = fold_left exec cs v0 /\ settled ls s o None.

Lemma den_more ls a i c : den ls i c -> den (ls ++ [a]) i c.
Proof.
  intros (p & N & D). exists p. split; auto. rewrite calls_app, nth_error_app1; auto. apply nth_error_Some. congruence.
Qed.
Lemma dens_more ls a o cs : Forall2 (den ls) o cs -> Forall2 (den (ls ++ [a])) o cs.
Proof. induction 1; constructor; auto using den_more. Qed.
Lemma settled_call ls s o h p : settled ls s o h -> (forall i, In i o -> i < length (calls ls)) ->
  settled (ls ++ [Call p]) (mkL (held s) (cur s) (discarded s) (printed_to s) (procs s ++ [p])) o h.
Proof.
  intros [L S] B. split; [cbn [procs]; rewrite calls_app, !app_length, L; reflexivity|].
  intros i Ni q N. cbn [procs] in N. rewrite calls_app. destruct (Nat.lt_ge_cases i (length (procs s))) as [Lt|Ge].
  - rewrite nth_error_app1 in N by auto. rewrite nth_error_app1 by lia. eauto.
  - right. split; [intros I; apply B in I; lia|]. rewrite nth_error_app2 in * by lia. now rewrite <- L.
Qed.
(** goroutine h makes a step *)
Lemma nth_lupd {A} (l : list A) h x y i : nth_error l h = Some y ->
  nth_error (upd l h x) i = if i =? h then Some x else nth_error l i.
Proof.
  intros N. destruct (lupd_split _ _ _ N) as (a & b & E & L & U). rewrite U, E. destruct (Nat.eqb_spec i h) as [->|Ne].
  - rewrite nth_error_app2, L, Nat.sub_diag by lia. reflexivity.
  - destruct (Nat.lt_ge_cases i (length a)). + now rewrite !nth_error_app1. + rewrite !nth_error_app2 by lia.
      destruct (i - length a) eqn:Z; [lia|reflexivity].
Qed.
Lemma lupd_len {A} (l : list A) h x y : nth_error l h = Some y -> length (upd l h x) = length l.
Proof. intros N. destruct (lupd_split _ _ _ N) as (a & b & E & L & U). rewrite U, E, !app_length. reflexivity. Qed.

Lemma plain_inv p : plain p -> exists r c, p = Lock :: r /\ simple_holder r /\ denotes p c /\ forall v, finish r v = exec v c.
Proof.
  intros [(l & f & ->)|[->| ->]].
  - destruct l as [l|]; eexists _, _; (split; [reflexivity|]); (split; [right; left; eauto|]); (split; [constructor|reflexivity]).
  - eexists _, _. split; [reflexivity|]. split; [right; right; left; reflexivity|]. split; [constructor|reflexivity].
  - eexists _, _. split; [reflexivity|]. split; [right; right; right; reflexivity|]. split; [constructor|reflexivity].
Qed.
Lemma holder_inv x r : simple_holder (x :: r) -> (x = Unlock /\ r = []) \/ (x <> Lock /\ x <> Unlock /\ simple_holder r).
Proof.
  intros [H|[[l H]|[H|H]]]; inversion H; subst; auto; right; split; try discriminate; split; try discriminate; left; reflexivity.
Qed.
Lemma goodp_calls ls i p : Forall goodp ls -> nth_error (calls ls) i = Some p -> plain p.
Proof.
  intros G N. apply nth_error_In in N. unfold calls in N. apply in_flat_map in N. destruct N as (a & I & J).
  rewrite Forall_forall in G. specialize (G a I). destruct a; cbn in J; [contradiction|]. destruct J as [->|[]]. exact G.
Qed.

Lemma ordered_step ls s o a s' : Forall goodp ls -> ordered ls s o -> goodp a -> lact_step s a = Some s' ->
  ordered (ls ++ [a]) s' (o ++ acquired s a).
Proof.
  intros Gl (Nd & Bd & cs & De & H) G S. destruct a as [i|p]; cbn [lact_step acquired] in *.
  2:{ injection S as <-. rewrite app_nil_r. split; [exact Nd|].
      assert (Bd' : forall i, In i o -> i < length (calls (ls ++ [Call p]))) by (intros i I; rewrite calls_app, app_length; apply Bd in I; lia).
      split; [exact Bd'|]. exists cs. split; [now apply dens_more|]. cbn [held]. destruct (held s) eqn:Hh.
      - destruct H as (h & k & I & N & Sh & Fi & Se). exists h, k. split; [exact I|]. split; [cbn [procs]; rewrite nth_error_app1; auto; apply nth_error_Some; congruence|].
        split; [exact Sh|]. split; [exact Fi|]. rewrite <- Hh. now apply settled_call.
      - destruct H as [V Se]. split; [exact V|]. rewrite <- Hh. now apply settled_call. }
  assert (Cl : calls (ls ++ [Step i]) = calls ls) by (rewrite calls_app; apply app_nil_r).
  assert (De' : Forall2 (den (ls ++ [Step i])) o cs) by now apply dens_more.
  unfold lstep in S. destruct (nth_error (procs s) i) as [[|x r]|] eqn:N; try discriminate. cbn zeta in S.
  destruct (held s) eqn:Hh.
  - (* somebody holds the mutex *)
    destruct H as (h & k & I & Nh & Sh & Fi & [Le Se]).
    destruct (Nat.eq_dec i h) as [->|Ne].
    + rewrite N in Nh. injection Nh as <-. destruct (holder_inv _ _ Sh) as [[-> ->]|(X1 & X2 & Sr)].
      * injection S as <-. rewrite app_nil_r. unfold ordered. rewrite Cl. split; [exact Nd|]. split; [exact Bd|].
        exists cs. split; [exact De'|]. cbn [held]. split; [exact Fi|]. split; [cbn [procs]; rewrite Cl; erewrite lupd_len; eauto|].
        intros j _ q Nq. cbn [procs] in Nq. rewrite (nth_lupd _ _ _ _ _ N) in Nq. rewrite Cl. destruct (Nat.eqb_spec j h) as [->|Nj].
        -- injection Nq as <-. auto. -- apply Se; auto. congruence.
      * assert (exists cu di pr, s' = mkL true cu di pr (upd (procs s) h r) /\ finish (x :: r) (view s) = finish r (mkV cu di pr) /\
          match x with Lock => [h] | _ => [] end = []) as (cu & di & pr & -> & Fi' & ->).
        { destruct x; try congruence; injection S as <-; rewrite ?Hh; eexists _, _, _; (split; [reflexivity|split; reflexivity]). }
        rewrite app_nil_r. unfold ordered. rewrite Cl. split; [exact Nd|]. split; [exact Bd|].
        exists cs. split; [exact De'|]. cbn [held]. exists h, r. split; [exact I|]. cbn [procs]. split; [rewrite (nth_lupd _ _ _ _ _ N), Nat.eqb_refl; reflexivity|].
        split; [exact Sr|]. split; [unfold view; cbn [cur discarded printed_to]; congruence|]. split; [cbn [procs]; rewrite Cl; erewrite lupd_len; eauto|].
        intros j Nj q Nq. cbn [procs] in Nq. rewrite (nth_lupd _ _ _ _ _ N) in Nq. rewrite Cl. destruct (Nat.eqb_spec j h) as [->|Nj']; [congruence|]. apply Se; auto.
    + exfalso. destruct (Se i ltac:(congruence) _ N) as [[_ F]|[_ F]]; [discriminate|]. apply goodp_calls in F; auto.
      destruct (plain_inv _ F) as (r' & c & E & _). injection E as -> _. discriminate.
  - destruct H as [V [Le Se]]. destruct (Se i ltac:(discriminate) _ N) as [[_ F]|[Ni F]]; [discriminate|].
    destruct (plain_inv _ (goodp_calls _ _ _ Gl F)) as (r' & c & E & Sr & Dc & Fi). injection E as -> <-. injection S as <-.
    unfold ordered. rewrite Cl. split; [|split].
    + clear - Nd Ni. induction o as [|y o IH]; cbn in *; [repeat constructor; auto|].
      inversion Nd; subst. constructor; [|apply IH; auto]. intros I. apply in_app_iff in I. cbn in I. intuition.
    + intros j I. apply in_app_iff in I. cbn in I. destruct I as [I|[<-|[]]]; [now apply Bd|]. apply nth_error_Some. congruence.
    + exists (cs ++ [c]). split; [apply Forall2_app; auto; repeat constructor; exists (Lock :: r); rewrite Cl; auto|]. cbn [held].
      exists i, r. split; [apply in_app_iff; cbn; auto|]. cbn [procs]. split; [rewrite (nth_lupd _ _ _ _ _ N), Nat.eqb_refl; reflexivity|].
      split; [exact Sr|]. split.
      * rewrite fold_left_app. cbn [fold_left]. rewrite <- V. apply Fi.
      * split; [cbn [procs]; rewrite Cl; erewrite lupd_len; eauto|]. intros j Nj q Nq. cbn [procs] in Nq. rewrite (nth_lupd _ _ _ _ _ N) in Nq.
        rewrite Cl. destruct (Nat.eqb_spec j i) as [->|Nj']; [congruence|]. destruct (Se j ltac:(discriminate) _ Nq) as [[A B]|[A B]].
        -- left. split; auto. apply in_app_iff; auto.
        -- right. split; auto. rewrite in_app_iff. cbn. intuition.
Qed.
Lemma ordered_exec ls s o : lexec ls s o -> Forall goodp ls -> ordered ls s o.
Proof.
  induction 1 as [|ls s o a s' X IH S]; intros G.
  - split; [constructor|]. split; [intros i []|]. exists []. split; [constructor|]. cbn. split; [reflexivity|]. split; [reflexivity|].
    intros [|i] _ q N; discriminate.
  - apply Forall_app in G. destruct G as [G1 G2]. inversion G2; subst. eapply ordered_step; eauto.
Qed.

Lemma linearizable ls s : Forall goodp ls -> lrun lstart ls = Some s -> held s = false ->
  exists o cs, NoDup o /\ (forall i, In i o <-> nth_error (procs s) i = Some []) /\ Forall2 (den ls) o cs /\
    view s = fold_left exec cs v0 /\ real_time ls o.
Proof.
  intros G R Hh. destruct (lexec_of _ _ R) as [o X]. destruct (ordered_exec _ _ _ X G) as (Nd & Bd & cs & De & H).
  rewrite Hh in H. destruct H as [V [Le Se]]. exists o, cs. split; [exact Nd|]. split; [|split; [exact De|split; [exact V|]]].
  - intros i. split.
    + intros I. destruct (nth_error (procs s) i) as [q|] eqn:N.
      * destruct (Se i ltac:(discriminate) _ N) as [[_ ->]|[F _]]; [reflexivity|contradiction].
      * apply nth_error_None in N. apply Bd in I. lia.
    + intros N. destruct (Se i ltac:(discriminate) _ N) as [[I _]|[_ F]]; auto. apply goodp_calls in F; auto.
      destruct (plain_inv _ F) as (r & c & E & _). discriminate.
  - intros l1 l2 s1 E R1. destruct (lexec_cut _ _ _ X _ _ E) as (s1' & o1 & o2 & X1 & ->).
    pose proof (lexec_run _ _ _ X1) as R1'. rewrite R1 in R1'. injection R1' as <-.
    exists o1, o2. split; [reflexivity|]. subst ls. apply Forall_app in G. destruct G as [G1 _].
    destruct (ordered_exec _ _ _ X1 G1) as (_ & Bd1 & cs1 & _ & H1). split; [|exact Bd1].
    intros i N. destruct (held s1).
    + destruct H1 as (h & k & I & Nh & Sh & _ & [_ Se1]). destruct (Nat.eq_dec i h) as [->|Ne]; [exact I|].
      destruct (Se1 i ltac:(congruence) _ N) as [[J _]|[_ F]]; auto. apply goodp_calls in F; auto.
      destruct (plain_inv _ F) as (r & c & E & _). discriminate.
    + destruct H1 as [_ [_ Se1]]. destruct (Se1 i ltac:(discriminate) _ N) as [[J _]|[_ F]]; auto. apply goodp_calls in F; auto.
      destruct (plain_inv _ F) as (r & c & E & _). discriminate.
Qed.
