(** Every execution with comparisons that are not atomic has the effects of one of ConnModel.v, and the other way round. *)
From Verif Require Import GoBase BaseProofs ParamsModel MessagesModel ConfigModel ConnModel ConnSpec ConnBase ConnInv LooseModel ConnUser ProcProofs LooseSpec LooseProofs.
From Coq Require Import Arith Lia.
Open Scope nat_scope.

Lemma nth_upd {A} (l : list A) i j x : nth_error (upd l i x) j = if j =? i then option_map (fun _ => x) (nth_error l i) else nth_error l j.
Proof.
  destruct (j =? i) eqn:E.
  - apply Nat.eqb_eq in E. subst j. destruct (nth_error l i) eqn:N; cbn.
    + apply nth_upd_same. apply nth_error_Some. congruence.
    + apply nth_error_None. rewrite upd_len. now apply nth_error_None.
  - apply nth_upd_other. now apply Nat.eqb_neq.
Qed.
Lemma resolved_upd s f h i l y : resolved s f h -> comparing s i = false -> hs y = upd (hs (l_conn s)) i l -> resolved (mkLoose y (l_cmp s)) f (upd h i l).
Proof.
  intros R C H j. cbn [l_conn]. rewrite H, !nth_upd. change (comparing (mkLoose y (l_cmp s)) j) with (comparing s j). destruct (j =? i) eqn:E.
  - apply Nat.eqb_eq in E. subst j. rewrite C, R, C. now destruct (nth_error (hs (l_conn s)) i).
  - apply R.
Qed.
Lemma resolved_same s f h y : resolved s f h -> hs y = hs (l_conn s) -> resolved (mkLoose y (l_cmp s)) f h.
Proof. intros R H j. cbn [l_conn]. rewrite H. apply R. Qed.
Lemma resolved_app s f h es y : resolved s f h -> pending s -> hs y = hs (l_conn s) ++ es -> resolved (mkLoose y (l_cmp s)) f (h ++ es).
Proof.
  intros R P H j. cbn [l_conn]. rewrite H. change (comparing (mkLoose y (l_cmp s)) j) with (comparing s j). pose proof (length_resolved _ _ _ R) as L.
  destruct (Nat.lt_ge_cases j (length h)) as [G|G].
  - rewrite !nth_error_app1 by lia. apply R.
  - rewrite !nth_error_app2 by lia. rewrite L. destruct (comparing s j) eqn:C.
    + destruct (pending_has s j P C) as (m & k & N & _). assert (j < length (hs (l_conn s))) by (apply nth_error_Some; congruence). lia.
    + now destruct (nth_error es (j - length (hs (l_conn s)))).
Qed.
Lemma pending_same s y : pending s -> hs y = hs (l_conn s) -> pending (mkLoose y (l_cmp s)).
Proof. intros P H i C. unfold at_ack. cbn [l_conn]. rewrite H. apply (P i C). Qed.
Lemma pending_upd s i l y : pending s -> comparing s i = false -> hs y = upd (hs (l_conn s)) i l -> pending (mkLoose y (l_cmp s)).
Proof.
  intros P N H j C. unfold at_ack. cbn [l_conn]. rewrite H, nth_upd. destruct (j =? i) eqn:E; [|apply (P j C)].
  apply Nat.eqb_eq in E. subst j. change (comparing s i = true) in C. congruence.
Qed.
Lemma pending_app s es y : pending s -> hs y = hs (l_conn s) ++ es -> pending (mkLoose y (l_cmp s)).
Proof.
  intros P H j C. destruct (pending_has s j P C) as (m & k & N & K). cbn [l_conn]. unfold at_ack. rewrite H, (nth_app_some _ _ _ _ N), K. discriminate.
Qed.
Lemma resolved_ext s f g h : (forall i, comparing s i = true -> f i = g i) -> resolved s f h -> resolved s g h.
Proof. intros E R i. rewrite R. destruct (comparing s i) eqn:C; [now rewrite (E i C)|reflexivity]. Qed.

(** the comparison of a BEAT ACK without data: a nil dereference — asptm.go:135 *)
Definition nil_compare (s : loose) (x : xlabel) (s' : loose) : Prop :=
  exists i b m k, x = XCompare i b /\ comparing s i = true /\ at_ack (l_conn s) i = Some (m, k) /\ fget FHeartbeatData (m_f m) = None /\
    s' = mkLoose (panicking PNil (l_conn s)) (l_cmp s).

Lemma sim_step s x s' xs c : loose_step s x = Some s' -> pending s -> ahead s (prophecy (x :: xs)) c ->
  (pending s' /\ exists cs c', run c cs = Some c' /\ ahead s' (prophecy xs) c') \/ nil_compare s x s'.
Proof.
  intros S P (h & d & a & -> & R). unfold loose_step in S. destruct x as [l|i|i b].
  - change (prophecy (XStep l :: xs)) with (prophecy xs) in R. left. destruct (hand_of l) as [i|] eqn:Hl.
    + destruct l; try discriminate Hl. injection Hl as ->. destruct (at_ack (l_conn s) i) eqn:A; [discriminate|].
      assert (Ci : comparing s i = false) by (destruct (comparing s i) eqn:C; [|reflexivity]; exfalso; now apply (P i C)).
      destruct (step (l_conn s) (LHand i ok)) as [y|] eqn:St; [|discriminate]. injection S as <-.
      assert (Cr : crash (l_conn s) = None) by (unfold step in St; destruct (crash (l_conn s)); [discriminate|reflexivity]).
      assert (St' : step_hand (l_conn s) i ok = Some y) by (unfold step in St; rewrite Cr in St; exact St).
      assert (Ni : nth_error h i = nth_error (hs (l_conn s)) i) by (rewrite R, Ci; now destruct (nth_error (hs (l_conn s)) i)).
      destruct (hand_moves _ _ _ _ St' A) as [(l & Hy & M)|(Hy & M)].
      * split; [exact (pending_upd s i l y P Ci Hy)|]. exists [LHand i ok], (sh (upd h i l) d a y). split.
        -- cbn [run]. unfold step. change (crash (sh h d a (l_conn s))) with (crash (l_conn s)). rewrite Cr, (M h d a Ni). reflexivity.
        -- exists (upd h i l), d, a. split; [reflexivity|]. exact (resolved_upd s _ h i l y R Ci Hy).
      * split; [exact (pending_same s y P Hy)|]. exists [LHand i ok], (sh h d a y). split.
        -- cbn [run]. unfold step. change (crash (sh h d a (l_conn s))) with (crash (l_conn s)). rewrite Cr, (M h d a Ni). reflexivity.
        -- exists h, d, a. split; [reflexivity|]. exact (resolved_same s _ h y R Hy).
    + destruct (step (l_conn s) l) as [y|] eqn:St; [|discriminate]. injection S as <-.
      destruct (other_sh _ _ _ St Hl) as (es & Hy & M). split; [exact (pending_app s es y P Hy)|].
      destruct (M h d a) as (d' & a' & E). exists [l], (sh (h ++ es) d' a' y). split; [cbn [run]; now rewrite E|].
      exists (h ++ es), d', a'. split; [reflexivity|]. exact (resolved_app s _ h es y R P Hy).
  - change (prophecy (XCheck i :: xs)) with (prophecy xs) in R. left. destruct (crash (l_conn s)) eqn:Cr; [discriminate|].
    destruct (at_ack (l_conn s) i) as [[m k]|] eqn:A; [|discriminate]. destruct (comparing s i) eqn:Ci; [discriminate|]. destruct (unlocked (l_conn s)) eqn:U; [|discriminate].
    destruct (at_ack_nth _ _ _ _ A) as [Ni K]. assert (Nh : nth_error h i = Some (IHandle m :: k)) by (rewrite R, Ci, Ni; reflexivity).
    destruct (st_eqb (state (l_conn s)) Active) eqn:Ac; injection S as <-.
    + split.
      { intros j Cj. rewrite comparing_cons in Cj. cbn [l_conn]. destruct (j =? i) eqn:E; [apply Nat.eqb_eq in E; subst j; congruence|]. apply (P j Cj). }
      destruct (fget FHeartbeatData (m_f m)) as [p|] eqn:D.
      * set (d1 := if prophecy xs i then HeartbeatData p else Byte.x00 :: HeartbeatData p).
        set (l1 := if prophecy xs i then k else IErr (EUnexpected (Typed m)) :: k).
        exists [LOtherBeat d1; LHand i true], (sh (upd h i l1) d1 false (l_conn s)). split.
        { cbn [run]. assert (E1 : step (sh h d a (l_conn s)) (LOtherBeat d1) = Some (sh h d1 false (l_conn s))).
          { unfold step. change (crash (sh h d a (l_conn s))) with (crash (l_conn s)). rewrite Cr. reflexivity. }
          rewrite E1. rewrite (ack_step (sh h d1 false (l_conn s)) i m k Cr (nth_at_ack (sh h d1 false (l_conn s)) i m k Nh K) U true).
          change (state (sh h d1 false (l_conn s))) with (state (l_conn s)). rewrite Ac, D. change (hbd (sh h d1 false (l_conn s))) with d1.
          change (hs (sh h d1 false (l_conn s))) with h. unfold d1, l1. destruct (prophecy xs i).
          - destruct (list_eq_dec Byte.byte_eq_dec (HeartbeatData p) (HeartbeatData p)); [reflexivity|congruence].
          - destruct (list_eq_dec Byte.byte_eq_dec (HeartbeatData p) (Byte.x00 :: HeartbeatData p)) as [X|X]; [|reflexivity].
            exfalso. apply (f_equal (@length _)) in X. cbn [length] in X. lia. }
        exists (upd h i l1), d1, false. split; [reflexivity|]. intros j. rewrite nth_upd, comparing_cons. cbn [l_conn]. destruct (j =? i) eqn:E.
        -- apply Nat.eqb_eq in E. subst j. rewrite Nh, Ni. cbn [option_map orb decide]. rewrite D. reflexivity.
        -- apply R.
      * exists [], (sh h d a (l_conn s)). split; [reflexivity|]. exists h, d, a. split; [reflexivity|]. intros j. rewrite comparing_cons. cbn [l_conn]. destruct (j =? i) eqn:E.
        -- apply Nat.eqb_eq in E. subst j. rewrite Nh, Ni. cbn [option_map orb decide]. rewrite D. reflexivity.
        -- apply R.
    + set (l1 := IErr (EUnexpected (Typed m)) :: k). split; [apply (pending_upd s i l1); [exact P|exact Ci|reflexivity]|].
      exists [LHand i true], (sh (upd h i l1) d a (l_conn s)). split.
      { cbn [run]. rewrite (ack_step (sh h d a (l_conn s)) i m k Cr (nth_at_ack (sh h d a (l_conn s)) i m k Nh K) U true).
        change (state (sh h d a (l_conn s))) with (state (l_conn s)). rewrite Ac. reflexivity. }
      exists (upd h i l1), d, a. split; [reflexivity|]. apply resolved_upd; [exact R|exact Ci|reflexivity].
  - destruct (crash (l_conn s)) eqn:Cr; [discriminate|]. destruct (at_ack (l_conn s) i) as [[m k]|] eqn:A; [|discriminate]. destruct (comparing s i) eqn:Ci; [|discriminate].
    destruct (at_ack_nth _ _ _ _ A) as [Ni K].
    destruct (fget FHeartbeatData (m_f m)) as [p|] eqn:D; injection S as <-.
    2:{ right. exists i, b, m, k. auto. }
    left. set (l1 := if b then k else IErr (EUnexpected (Typed m)) :: k). split.
    { intros j Cj. rewrite comparing_filter in Cj. apply andb_true_iff in Cj as [Nj Cj]. unfold at_ack. cbn [l_conn]. change (hs (set_hs (upd (hs (l_conn s)) i l1) (l_conn s))) with (upd (hs (l_conn s)) i l1).
      rewrite nth_upd. destruct (j =? i) eqn:E; [rewrite Nat.eqb_sym, E in Nj; discriminate|]. apply (P j Cj). }
    exists [], (sh h d a (l_conn s)). split; [reflexivity|]. exists h, d, a. split; [reflexivity|]. intros j. rewrite comparing_filter. cbn [l_conn].
    change (hs (set_hs (upd (hs (l_conn s)) i l1) (l_conn s))) with (upd (hs (l_conn s)) i l1). rewrite nth_upd. destruct (j =? i) eqn:E.
    + apply Nat.eqb_eq in E. subst j. rewrite Nat.eqb_refl. cbn [negb andb]. rewrite (R i), Ni, Ci. cbn [option_map decide prophecy]. rewrite D, Nat.eqb_refl. reflexivity.
    + rewrite Nat.eqb_sym, E. cbn [negb andb]. rewrite (R j). cbn [prophecy]. rewrite E. reflexivity.
Qed.

Lemma nil_panics s f c : ahead s f c -> forall i m k, crash (l_conn s) = None -> comparing s i = false -> at_ack (l_conn s) i = Some (m, k) ->
  unlocked (l_conn s) = true -> st_eqb (state (l_conn s)) Active = true -> fget FHeartbeatData (m_f m) = None ->
  exists c', step c (LHand i true) = Some c' /\ crash c' = Some PNil /\ log c' = log (l_conn s).
Proof.
  intros (h & d & a & -> & R) i m k Cr Ci A U Ac D. destruct (at_ack_nth _ _ _ _ A) as [Ni K].
  assert (Nh : nth_error h i = Some (IHandle m :: k)) by (rewrite R, Ci, Ni; reflexivity).
  exists (panicking PNil (sh h d a (l_conn s))). split; [|split; reflexivity].
  rewrite (ack_step (sh h d a (l_conn s)) i m k Cr (nth_at_ack (sh h d a (l_conn s)) i m k Nh K) U true).
  change (state (sh h d a (l_conn s))) with (state (l_conn s)). rewrite Ac, D. reflexivity.
Qed.
Lemma loose_log s x s' : loose_step s x = Some s' -> exists e, log (l_conn s') = log (l_conn s) ++ e.
Proof.
  unfold loose_step. destruct x as [l|i|i b].
  - assert (G : option_map (fun c' => mkLoose c' (l_cmp s)) (step (l_conn s) l) = Some s' -> exists e, log (l_conn s') = log (l_conn s) ++ e).
    { destruct (step (l_conn s) l) as [y|] eqn:St; [|discriminate]. intros [= <-]. exact (log_grows _ _ _ St). }
    destruct (hand_of l) as [i|]; [destruct (at_ack (l_conn s) i); [discriminate|]|]; exact G.
  - destruct (crash (l_conn s)); [discriminate|]. destruct (at_ack (l_conn s) i) as [[m k]|]; [|discriminate]. destruct (comparing s i); [discriminate|]. destruct (unlocked (l_conn s)); [|discriminate].
    destruct (st_eqb (state (l_conn s)) Active); intros [= <-]; exists []; rewrite app_nil_r; reflexivity.
  - destruct (crash (l_conn s)); [discriminate|]. destruct (at_ack (l_conn s) i) as [[m k]|]; [|discriminate]. destruct (comparing s i); [|discriminate].
    destruct (fget FHeartbeatData (m_f m)); intros [= <-]; exists []; rewrite app_nil_r; reflexivity.
Qed.
(** a goroutine that is comparing was comparing before, at the same place, or has just passed the check in the state Active *)
Lemma compare_from s x s' i m k : loose_step s x = Some s' -> pending s -> comparing s' i = true -> at_ack (l_conn s') i = Some (m, k) ->
  (comparing s i = true /\ at_ack (l_conn s) i = Some (m, k)) \/
  (comparing s i = false /\ at_ack (l_conn s) i = Some (m, k) /\ crash (l_conn s) = None /\ unlocked (l_conn s) = true /\ st_eqb (state (l_conn s)) Active = true /\ s' = mkLoose (l_conn s) (i :: l_cmp s)).
Proof.
  intros S P C A. unfold loose_step in S. destruct x as [l|j|j b].
  - left. assert (E : l_cmp s' = l_cmp s /\ step (l_conn s) l = Some (l_conn s') /\ match hand_of l with Some j => at_ack (l_conn s) j = None | None => True end).
    { destruct (hand_of l) as [j|]; [destruct (at_ack (l_conn s) j) eqn:Aj; [discriminate|]|]; (destruct (step (l_conn s) l) as [y|] eqn:St; [|discriminate]); injection S as <-; auto. }
    destruct E as (E & St & H). assert (Cs : comparing s i = true) by (unfold comparing in *; rewrite E in C; exact C). split; [exact Cs|].
    destruct (pending_has s i P Cs) as (m' & k' & N & K). apply at_ack_nth in A as [N' _].
    destruct (hand_of l) as [j|] eqn:Hl.
    + assert (Nj : i <> j) by (intros ->; now apply (P j Cs)). destruct l; try discriminate Hl. injection Hl as ->.
      assert (Cr : crash (l_conn s) = None) by (unfold step in St; destruct (crash (l_conn s)); [discriminate|reflexivity]).
      assert (St' : step_hand (l_conn s) j ok = Some (l_conn s')) by (unfold step in St; rewrite Cr in St; exact St).
      destruct (hand_moves _ _ _ _ St' H) as [(q & Hy & _)|(Hy & _)]; rewrite Hy in N'; [rewrite nth_upd_other in N' by exact Nj|];
        assert (Q : IHandle m' :: k' = IHandle m :: k) by congruence; injection Q as <- <-; now apply nth_at_ack.
    + destruct (other_sh _ _ _ St Hl) as (es & Hy & _). rewrite Hy, (nth_app_some _ _ _ _ N) in N'. injection N' as <- <-. now apply nth_at_ack.
  - destruct (crash (l_conn s)); [discriminate|]. destruct (at_ack (l_conn s) j) as [[m' k']|] eqn:Aj; [|discriminate]. destruct (comparing s j) eqn:Cj; [discriminate|].
    destruct (unlocked (l_conn s)) eqn:U; [|discriminate]. destruct (st_eqb (state (l_conn s)) Active) eqn:Ac; injection S as <-.
    + rewrite comparing_cons in C. cbn [l_conn] in A. destruct (i =? j) eqn:E.
      * apply Nat.eqb_eq in E. subst j. right. rewrite Cj. repeat split; auto.
      * left. split; [exact C|exact A].
    + left. assert (Nj : i <> j) by (intros ->; change (comparing s j = true) in C; congruence). split; [exact C|].
      apply at_ack_nth in A as [N' K]. cbn [l_conn] in N'.
      change (nth_error (upd (hs (l_conn s)) j (IErr (EUnexpected (Typed m')) :: k')) i = Some (IHandle m :: k)) in N'. rewrite nth_upd_other in N' by exact Nj. now apply nth_at_ack.
  - left. destruct (crash (l_conn s)); [discriminate|]. destruct (at_ack (l_conn s) j) as [[m' k']|] eqn:Aj; [|discriminate]. destruct (comparing s j) eqn:Cj; [|discriminate].
    destruct (fget FHeartbeatData (m_f m')); injection S as <-.
    + rewrite comparing_filter in C. apply andb_true_iff in C as [Nj C]. assert (i <> j) by (intros ->; rewrite Nat.eqb_refl in Nj; discriminate). split; [exact C|].
      apply at_ack_nth in A as [N' K]. cbn [l_conn] in N'.
      change (nth_error (upd (hs (l_conn s)) j (if b then k' else IErr (EUnexpected (Typed m')) :: k')) i = Some (IHandle m :: k)) in N'. rewrite nth_upd_other in N' by assumption. now apply nth_at_ack.
    + split; [exact C|exact A].
Qed.

(** the connection [c0] can panic with a nil dereference having done a part of what [c] did *)
Definition can_panic (c0 c : conn) : Prop := exists cs c', run c0 cs = Some c' /\ crash c' = Some PNil /\ exists e, log c = log c' ++ e.
Definition doomed (c0 : conn) (s : loose) : Prop :=
  forall i m k, comparing s i = true -> at_ack (l_conn s) i = Some (m, k) -> fget FHeartbeatData (m_f m) = None -> can_panic c0 (l_conn s).

Lemma sim_run xs : forall c0 s s' cs c, loose_run s xs = Some s' -> pending s -> doomed c0 s -> run c0 cs = Some c -> ahead s (prophecy xs) c ->
  (exists cs' c' f, run c0 cs' = Some c' /\ ahead s' f c') \/
  (exists sb cs' c' f, run c0 cs' = Some c' /\ ahead sb f c' /\ crash (l_conn sb) = None /\ s' = mkLoose (panicking PNil (l_conn sb)) (l_cmp sb) /\ l_cmp sb <> [] /\ can_panic c0 (l_conn s')).
Proof.
  induction xs as [|x xs IH]; intros c0 s s' cs c Rn P D Rc A; cbn [loose_run] in Rn.
  - injection Rn as <-. left. eauto.
  - destruct (loose_step s x) as [s1|] eqn:S; [|discriminate]. destruct (sim_step s x s1 xs c S P A) as [(P1 & cs1 & c1 & R1 & A1)|(i & b & m & k & -> & Ci & Ai & Dn & ->)].
    + apply (IH c0 s1 s' (cs ++ cs1) c1 Rn P1); [|rewrite run_app, Rc; exact R1|exact A1].
      intros i m k Ci Ai Dn. destruct (loose_log _ _ _ S) as [e Le].
      destruct (compare_from s x s1 i m k S P Ci Ai) as [(C0 & A0)|(C0 & A0 & Cr & U & Ac & E)].
      * destruct (D i m k C0 A0 Dn) as (cs2 & c2 & R2 & K2 & e2 & L2). exists cs2, c2. repeat split; auto. exists (e2 ++ e). rewrite Le, L2, app_assoc. reflexivity.
      * destruct (nil_panics s _ c A i m k Cr C0 A0 U Ac Dn) as (c2 & St & K2 & L2). exists (cs ++ [LHand i true]), c2. split; [rewrite run_app, Rc; cbn [run]; now rewrite St|].
        split; [exact K2|]. exists e. rewrite Le, L2. reflexivity.
    + assert (Cr : crash (l_conn s) = None) by (unfold loose_step in S; destruct (crash (l_conn s)); [discriminate|reflexivity]).
      destruct xs as [|y ys].
      * cbn [loose_run] in Rn. injection Rn as <-. right. exists s, cs, c, (prophecy [XCompare i b]). repeat split; auto; [intros X; unfold comparing in Ci; rewrite X in Ci; discriminate|].
        destruct (D i m k Ci Ai Dn) as (cs2 & c2 & R2 & K2 & e2 & L2). exists cs2, c2. repeat split; auto. exists e2. exact L2.
      * exfalso. cbn [loose_run] in Rn. set (s1 := mkLoose (panicking PNil (l_conn s)) (l_cmp s)) in *.
        assert (X : loose_step s1 y = None).
        { unfold loose_step. change (crash (l_conn s1)) with (Some PNil). destruct y as [l| |]; try reflexivity. unfold step. change (crash (l_conn s1)) with (Some PNil).
          destruct (hand_of l) as [j|]; [destruct (at_ack (l_conn s1) j)|]; reflexivity. }
        rewrite X in Rn. discriminate.
Qed.

(** the other way round *)
Lemma follow_step c l c' : step c l = Some c' -> exists xs s, loose_run (mkLoose c []) xs = Some s /\ l_conn s = c' /\ (crash c' = None -> l_cmp s = []).
Proof.
  intros S.
  assert (Cr : crash c = None) by (unfold step in S; destruct (crash c); [discriminate|reflexivity]).
  assert (Plain : match hand_of l with Some i => at_ack c i = None | None => True end -> exists xs s, loose_run (mkLoose c []) xs = Some s /\ l_conn s = c' /\ (crash c' = None -> l_cmp s = [])).
  { intros H. exists [XStep l], (mkLoose c' []). cbn [loose_run loose_step l_conn]. split; [|auto].
    destruct (hand_of l) as [i|]; [rewrite H|]; rewrite S; reflexivity. }
  destruct (hand_of l) as [i|] eqn:Hl; [|exact (Plain I)]. destruct (at_ack c i) as [[m k]|] eqn:A; [|exact (Plain eq_refl)]. clear Plain.
  destruct l; try discriminate Hl. injection Hl as ->.
  assert (U : unlocked c = true).
  { destruct (at_ack_nth _ _ _ _ A) as [N _]. unfold step, step_hand in S. rewrite Cr, N in S. destruct (unlocked c); [reflexivity|discriminate]. }
  rewrite (ack_step c i m k Cr A U ok) in S.
  assert (Ck : loose_step (mkLoose c []) (XCheck i) =
    if st_eqb (state c) Active then Some (mkLoose c [i]) else Some (mkLoose (set_hs (upd (hs c) i (IErr (EUnexpected (Typed m)) :: k)) c) [])).
  { unfold loose_step. cbn [l_conn l_cmp]. rewrite Cr, A, U. reflexivity. }
  assert (Cm : forall b, loose_step (mkLoose c [i]) (XCompare i b) = match fget FHeartbeatData (m_f m) with
      | None => Some (mkLoose (panicking PNil c) [i])
      | Some _ => Some (mkLoose (set_hs (upd (hs c) i (if b then k else IErr (EUnexpected (Typed m)) :: k)) c) [])
      end).
  { intros b. unfold loose_step. cbn [l_conn l_cmp]. rewrite Cr, A. unfold comparing. cbn [l_cmp existsb filter]. rewrite Nat.eqb_refl. reflexivity. }
  destruct (st_eqb (state c) Active) eqn:Ac.
  - destruct (fget FHeartbeatData (m_f m)) as [p|] eqn:D.
    + destruct (list_eq_dec Byte.byte_eq_dec (HeartbeatData p) (hbd c)); injection S as <-.
      * exists [XCheck i; XCompare i true]. eexists. cbn [loose_run]. rewrite Ck, (Cm true). repeat split.
      * exists [XCheck i; XCompare i false]. eexists. cbn [loose_run]. rewrite Ck, (Cm false). repeat split.
    + injection S as <-. exists [XCheck i; XCompare i true]. eexists. cbn [loose_run]. rewrite Ck, (Cm true). split; [reflexivity|]. split; [reflexivity|]. intros X. discriminate X.
  - injection S as <-. exists [XCheck i]. eexists. cbn [loose_run]. rewrite Ck. repeat split.
Qed.
Lemma loose_app s xs ys : loose_run s (xs ++ ys) = match loose_run s xs with Some s' => loose_run s' ys | None => None end.
Proof. revert s. induction xs as [|x xs IH]; intros s; cbn [loose_run app]; [reflexivity|]. destruct (loose_step s x); auto. Qed.
Lemma follow_run ls : forall c c', run c ls = Some c' -> exists xs s, loose_run (mkLoose c []) xs = Some s /\ l_conn s = c' /\ (crash c' = None -> l_cmp s = []).
Proof.
  induction ls as [|l ls IH]; intros c c' R; cbn [run] in R.
  - injection R as <-. exists [], (mkLoose c []). auto.
  - destruct (step c l) as [c1|] eqn:S; [|discriminate]. destruct (follow_step c l c1 S) as (xs & s & Rx & E & Z).
    destruct (crash c1) eqn:C1.
    + destruct ls as [|l2 ls]; [cbn [run] in R; injection R as <-; rewrite C1; eauto|]. cbn [run] in R. unfold step in R. rewrite C1 in R. discriminate.
    + destruct s as [cs ps]. cbn [l_conn l_cmp] in *. subst cs. rewrite (Z eq_refl) in Rx. destruct (IH c1 c' R) as (xs2 & s2 & R2 & E2 & Z2). exists (xs ++ xs2), s2. rewrite loose_app, Rx. auto.
Qed.

Lemma ahead_shows s f c : ahead s f c -> shows c = shows (l_conn s) /\ crash c = crash (l_conn s).
Proof. intros (h & d & a & -> & _). split; reflexivity. Qed.
Lemma nth_ext_error {A} (l : list A) : forall k, (forall i, nth_error l i = nth_error k i) -> l = k.
Proof.
  induction l as [|x l IH]; intros [|y k] H; auto; try (specialize (H 0); discriminate). f_equal; [specialize (H 0); cbn in H; congruence|]. apply IH. intros i. apply (H (S i)).
Qed.
Lemma ahead_rest s f c : ahead s f c -> l_cmp s = [] -> hs c = hs (l_conn s).
Proof.
  intros (h & d & a & -> & R) E. change (h = hs (l_conn s)). apply nth_ext_error. intros i. rewrite R. unfold comparing. rewrite E. cbn [existsb].
  now destruct (nth_error (hs (l_conn s)) i).
Qed.
Lemma loose_sim m g o xs s : loose_run (loose_start m g o) xs = Some s ->
  (exists cs c f, run (start m g o) cs = Some c /\ ahead s f c) \/
  (exists sb cs c f, run (start m g o) cs = Some c /\ ahead sb f c /\ crash (l_conn sb) = None /\ s = mkLoose (panicking PNil (l_conn sb)) (l_cmp sb) /\ l_cmp sb <> [] /\ can_panic (start m g o) (l_conn s)).
Proof.
  intros R. apply (sim_run xs (start m g o) (loose_start m g o) s [] (start m g o) R); try reflexivity; try (intros i; intros; discriminate).
  exists (hs (start m g o)), (hbd (start m g o)), (hba (start m g o)). split; [symmetry; apply sh_self|]. intros i. cbn [loose_start l_conn]. now destruct (nth_error (hs (start m g o)) i).
Qed.
Lemma loose_shows s : loose_reachable s -> exists c, reachable c /\ shows c = shows (l_conn s) /\
  (crash c = crash (l_conn s) \/ crash c = None /\ crash (l_conn s) = Some PNil) /\ (l_cmp s = [] -> hs c = hs (l_conn s) /\ crash c = crash (l_conn s)).
Proof.
  intros (m & g & o & xs & R). destruct (loose_sim m g o xs s R) as [(cs & c & f & Rc & A)|(sb & cs & c & f & Rc & A & Cr & -> & N & _)].
  - destruct (ahead_shows s f c A) as [Sh Cc]. exists c. split; [exists m, g, o, cs; exact Rc|]. split; [exact Sh|]. split; [auto|]. intros E. split; [exact (ahead_rest s f c A E)|exact Cc].
  - destruct (ahead_shows sb f c A) as [Sh Cc]. exists c. split; [exists m, g, o, cs; exact Rc|]. split; [exact Sh|]. split; [right; split; [congruence|reflexivity]|]. intros E. contradiction.
Qed.
Lemma loose_panic s p : loose_reachable s -> crash (l_conn s) = Some p -> exists c e, reachable c /\ crash c = Some p /\ log (l_conn s) = log c ++ e.
Proof.
  intros (m & g & o & xs & R) K. destruct (loose_sim m g o xs s R) as [(cs & c & f & Rc & A)|(sb & cs & c & f & Rc & A & Cr & -> & N & cs' & c' & Rc' & K' & e & L)].
  - destruct (ahead_shows s f c A) as [Sh Cc]. exists c, []. split; [exists m, g, o, cs; exact Rc|]. split; [congruence|]. rewrite app_nil_r. symmetry. exact (f_equal v_log Sh).
  - injection K as <-. exists c', e. split; [exists m, g, o, cs'; exact Rc'|]. auto.
Qed.
Lemma loose_all (P : shown -> Prop) : (forall c, reachable c -> P (shows c)) <-> (forall s, loose_reachable s -> P (shows (l_conn s))).
Proof.
  split.
  - intros H s R. destruct (loose_shows s R) as (c & Rc & E & _). rewrite <- E. exact (H c Rc).
  - intros H c (m & g & o & ls & R). destruct (follow_run ls _ _ R) as (xs & s & Rs & <- & _). apply H. exists m, g, o, xs. exact Rs.
Qed.
Lemma loose_covers c : reachable c -> exists s, loose_reachable s /\ l_conn s = c.
Proof. intros (m & g & o & ls & R). destruct (follow_run ls _ _ R) as (xs & s & Rs & E & _). exists s. split; [exists m, g, o, xs; exact Rs|exact E]. Qed.
