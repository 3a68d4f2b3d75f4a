(** Proofs about MainModel.v. *)
From Verif Require Import GoBase BaseProofs ParamsModel MessagesModel ConfigModel ConnModel ConnSpec ConnBase ConnInv ConnTrace ConnUser ConnData
  ProcModel ProcSpec ProcProofs DemoModel DemoSpec DemoProofs ConnStable MainModel MainSpec.
From Coq Require Import Arith Lia.
Open Scope nat_scope.

Lemma serve_run_snoc ls : forall s l, serve_run s (ls ++ [l]) = match serve_run s ls with Some s1 => serve_run1 s1 l | None => None end.
Proof.
  induction ls as [|x ls IH]; intros s l.
  - cbn. destruct (serve_run1 s l); reflexivity.
  - cbn [app serve_run]. destruct (serve_run1 s x); [apply IH|reflexivity].
Qed.
Lemma srv_run_snoc xs : forall s x, srv_run s (xs ++ [x]) = match srv_run s xs with Some s1 => srv_step s1 x | None => None end.
Proof.
  induction xs as [|y xs IH]; intros s x.
  - cbn. destruct (srv_step s x); reflexivity.
  - cbn [app srv_run]. destruct (srv_step s y); [apply IH|reflexivity].
Qed.

Definition serving (g : config) (c : conn) (p : prog) : Prop :=
  exists o ls, serve_run (start Server g o, serve_start 1500) ls = Some (c, p).
Lemma serving_lib g c p l c' : serving g c p -> (forall op, l <> LCall op) -> step c l = Some c' -> serving g c' p.
Proof.
  intros (o & ls & R) N S. exists o, (ls ++ [ALib l]). rewrite serve_run_snoc, R. cbn [serve_run1 fst snd]. rewrite S.
  destruct l; try reflexivity. destruct (N op eq_refl).
Qed.
Lemma serving_prog g c p c' p' : serving g c p -> serve_step c p = Some (c', p') -> serving g c' p'.
Proof. intros (o & ls & R) S. exists o, (ls ++ [AProg]). rewrite serve_run_snoc, R. exact S. Qed.
Lemma serving_serves g c p : serving g c p -> reachable c /\ serves 1500 c p.
Proof. intros (o & ls & R). eapply serve_inv; [|exact R]. lia. Qed.
Lemma serving_cfg g c p : serving g c p -> cfg c = g.
Proof.
  intros (o & ls & R). revert c p R. induction ls as [|l ls IH] using rev_ind; intros c p R.
  - injection R as <- <-. reflexivity.
  - rewrite serve_run_snoc in R. destruct (serve_run (start Server g o, serve_start 1500) ls) as [[c1 p1]|] eqn:E; [|discriminate].
    specialize (IH _ _ eq_refl). destruct (serving_serves g c1 p1) as [R1 H1]; [exists o, ls; exact E|].
    destruct l as [l|]; cbn [serve_run1 fst snd] in R.
    + assert (Q : step c1 l = Some c) by (destruct l; try discriminate; (destruct (step c1 _); [|discriminate]); now injection R as <- <-).
      apply run_one in Q. apply static_run in Q as (_ & E1 & _). congruence.
    + destruct (serves_prog 1500 _ _ _ _ R1 ltac:(lia) H1 R) as (_ & _ & [->|[op Q]]); auto.
      apply run_one in Q. apply static_run in Q as (_ & E1 & _). congruence.
Qed.

(** what a change of connection i does *)
Definition changes (c c' : conn) : Prop := c' = c \/ exists l, own l = true /\ step c l = Some c'.
Lemma put_self p i c c' : conn_at p i = Some c -> changes c c' -> conn_at (put p i c') i = Some c'.
Proof.
  intros E [->|(l & O & S)].
  - unfold conn_at, put. cbn [p_conns]. rewrite nth_upd_same by eauto using conn_at_len. cbn [option_map]. f_equal.
    destruct (at_hb p i c E) as [D A]. unfold view, owns. cbn [p_data p_owner].
    destruct (hba c) eqn:B; [rewrite Nat.eqb_refl, <- B; destruct c; reflexivity|]. unfold owns in A. rewrite <- A, <- B. destruct c; reflexivity.
  - eapply do_self; eauto.
Qed.
Lemma put_other p i j c c' : conn_at p i = Some c -> changes c c' -> j <> i ->
  conn_at (put p i c') j = conn_at p j \/
  (exists d, conn_at (put p i c') j = option_map (fun x => set_hba false (set_hbd d x)) (conn_at p j)) /\ (hbd c' <> hbd c \/ hba c' <> hba c).
Proof.
  intros E [->|(l & O & S)] N.
  - left. unfold conn_at, put. cbn [p_conns]. rewrite nth_upd_other by auto. destruct (nth_error (p_conns p) j) as [x|]; [|reflexivity].
    cbn [option_map]. f_equal. destruct (at_hb p i c E) as [D A]. unfold view, owns. cbn [p_data p_owner]. rewrite D.
    destruct (hba c) eqn:B; [|reflexivity]. unfold owns in A. destruct (p_owner p) as [k|]; [|discriminate]. symmetry in A. apply Nat.eqb_eq in A. now subst k.
  - destruct (do_other p i l (put p i c') c c' j E O S eq_refl N) as [(_ & _ & H)|(H1 & H2)]; [now left|].
    destruct (list_eq_dec Byte.byte_eq_dec (hbd c') (hbd c)) as [Ed|Nd]; [|right; split; [eexists; exact H2|left; exact Nd]].
    destruct (hba c) eqn:B; [|right; split; [eexists; exact H2|right; congruence]]. left.
    unfold conn_at, put in *. cbn [p_conns p_data p_owner] in *. rewrite nth_upd_other by auto. destruct (nth_error (p_conns p) j) as [x|] eqn:Nx; [|reflexivity].
    cbn [option_map]. f_equal. destruct (at_hb p i c E) as [D A]. unfold view, owns. cbn [p_data p_owner]. rewrite H1, Ed, D.
    unfold owns in A. destruct (p_owner p) as [k|]; [|congruence]. rewrite B in A. symmetry in A. apply Nat.eqb_eq in A. now subst k.
Qed.
Lemma proc_step_put p i l p' : proc_step p (PDo i l) = Some p' -> exists c c', conn_at p i = Some c /\ own l = true /\ step c l = Some c' /\ p' = put p i c'.
Proof. intros S. apply proc_do in S as (_ & O & c & c' & E & St & ->). exists c, c'. auto. Qed.

(** ** The invariant *)
Record minv (g : config) (s : server) : Prop := {
  mi_len : length (s_progs s) = accepted s;
  mi_owner : forall j, p_owner (s_proc s) = Some j -> j < accepted s;
  mi_cfg : p_cfg (s_proc s) = g;
  mi_at : forall i c p, at_pair s i c p -> serving g c p /\ (g_at p = AEstablish \/ dial c = DOk \/ s_main s = MFatal);
  mi_main : match s_main s with
            | MListen => forall i c p, at_pair s i c p -> g_at p <> AEstablish
            | MHandshake n => Datatypes.S n = accepted s /\ forall i c p, at_pair s i c p -> (g_at p = AEstablish <-> i = n)
            | MFatal => True
            end }.
Lemma other_at p i c c' j x' : alive p = true -> conn_at p i = Some c -> changes c c' -> j <> i -> conn_at (put p i c') j = Some x' ->
  exists x, conn_at p j = Some x /\ (x' = x \/ exists d, step x (LOtherBeat d) = Some x').
Proof.
  intros A E Ch N H. destruct (put_other p i j c c' E Ch N) as [Q|[[d Q] _]]; rewrite Q in H; [eauto|].
  destruct (conn_at p j) as [x|] eqn:Ex; [|discriminate]. injection H as <-. exists x. split; [reflexivity|]. right. exists d.
  apply other_step. eapply alive_at; eauto.
Qed.
Lemma put_len p i c : length (p_conns (put p i c)) = length (p_conns p).
Proof. unfold put. cbn. apply upd_len. Qed.
Lemma establish_keeps c l c' g : serves 1500 c g -> dial c = DOk -> step c l = Some c' -> dial c' = DOk.
Proof. intros _ D S. eapply dial_lasts; eauto. Qed.

(** a change of one pair; main stays where it is *)
Lemma minv_put g s i c c' p p' : minv g s -> alive (s_proc s) = true -> at_pair s i c p -> changes c c' -> serving g c' p' ->
  (g_at p = AEstablish <-> g_at p' = AEstablish) -> (dial c = DOk -> dial c' = DOk) ->
  minv g (mkServer (put (s_proc s) i c') (s_main s) (upd (s_progs s) i p')).
Proof.
  intros [L Ow G At M] A [Ec Ep] Ch Sv Hp Hd.
  assert (X : forall j x q, at_pair (mkServer (put (s_proc s) i c') (s_main s) (upd (s_progs s) i p')) j x q ->
    (j = i /\ x = c' /\ q = p') \/ (j <> i /\ exists x0, at_pair s j x0 q /\ (x = x0 \/ exists d, step x0 (LOtherBeat d) = Some x))).
  { intros j x q [H1 H2]. cbn [s_proc s_progs] in *. destruct (Nat.eq_dec j i) as [->|N].
    - left. rewrite (put_self _ _ _ _ Ec Ch) in H1. rewrite nth_upd_same in H2 by (apply nth_error_Some; congruence). repeat split; congruence.
    - right. split; [exact N|]. rewrite nth_upd_other in H2 by auto. destruct (other_at _ _ _ _ _ _ A Ec Ch N H1) as (x0 & E0 & Q). exists x0. split; [split; auto|exact Q]. }
  constructor; cbn [s_proc s_main s_progs].
  - unfold accepted in *. cbn [s_proc]. now rewrite upd_len, put_len.
  - unfold accepted in *. cbn [s_proc put p_owner p_conns]. rewrite upd_len. intros j. destruct (hba c'); [|apply Ow]. intros [= <-]. eapply conn_at_len; eauto.
  - exact G.
  - intros j x q H. destruct (X j x q H) as [(-> & -> & ->)|(N & x0 & H0 & Q)].
    + split; [exact Sv|]. destruct (At i c p (conj Ec Ep)) as [_ [H1|[H1|H1]]]; tauto.
    + destruct (At j x0 q H0) as [S0 D0]. destruct Q as [->|[d Q]]; [split; auto|]. split.
      * eapply serving_lib; [exact S0| |exact Q]. discriminate.
      * destruct D0 as [D0|[D0|D0]]; auto. right. left. eapply dial_lasts; eauto.
  - destruct (s_main s) as [|n|] eqn:Em; auto.
    + intros j x q H. destruct (X j x q H) as [(-> & -> & ->)|(N & x0 & H0 & Q)]; [|eauto]. pose proof (M i c p (conj Ec Ep)). tauto.
    + destruct M as [M1 M2]. split; [unfold accepted in *; cbn [s_proc]; now rewrite put_len|].
      intros j x q H. destruct (X j x q H) as [(-> & -> & ->)|(N & x0 & H0 & Q)]; [|eauto]. rewrite <- Hp. exact (M2 i c p (conj Ec Ep)).
Qed.
Lemma serve_after c p c' p' : serve_step c p = Some (c', p') -> g_at p <> AEstablish -> g_at p' <> AEstablish.
Proof.
  unfold serve_step. destruct (crash c); [discriminate|]. destruct (g_at p) eqn:A; try congruence; intros S _.
  - destruct (step c _); [|discriminate]. injection S as <- <-. discriminate.
  - destruct (nth_error (us c) i) as [[| | |r]|]; try discriminate. destruct r; try discriminate.
    + destruct (step c _); [|discriminate]. injection S as <- <-. discriminate.
    + match type of S with context [?a <=? ?b] => destruct (a <=? b) end; injection S as <- <-; [discriminate|congruence].
  - destruct (nth_error (us c) i) as [[| | |r]|]; try discriminate. injection S as <- <-. discriminate.
Qed.
Lemma serve_changes g c p c' p' : serving g c p -> serve_step c p = Some (c', p') -> changes c c' /\ crash c' = None /\ (dial c = DOk -> dial c' = DOk).
Proof.
  intros Sv S. destruct (serving_serves _ _ _ Sv) as [R H]. destruct (serves_prog 1500 _ _ _ _ R ltac:(lia) H S) as (_ & Cr & [->|[op Q]]).
  - split; [now left|auto].
  - split; [right; exists (LCall op); auto|]. split; [exact Cr|]. intros D. eapply dial_lasts; eauto.
Qed.
Lemma minv_start g : minv g (server_start g).
Proof.
  assert (N : forall i c p, ~ at_pair (server_start g) i c p) by (intros i c p [H _]; unfold conn_at in H; cbn in H; destruct i; discriminate).
  constructor; try reflexivity; [discriminate|intros i c p H; destruct (N _ _ _ H)|cbn; intros i c p H; destruct (N _ _ _ H)].
Qed.
Lemma upd_id {A} (l : list A) i x : nth_error l i = Some x -> upd l i x = l.
Proof. revert i. induction l as [|y l IH]; intros [|i]; cbn; try discriminate; [now intros [= ->]|]. intros H. f_equal. auto. Qed.
(** a step of the library *)
Lemma lib_step s i l s' : srv_step s (VLib i l) = Some s' -> alive (s_proc s) = true /\ s_main s <> MFatal /\ (forall op, l <> LCall op) /\
  exists c c', conn_at (s_proc s) i = Some c /\ own l = true /\ step c l = Some c' /\ s' = mkServer (put (s_proc s) i c') (s_main s) (s_progs s).
Proof.
  unfold srv_step. destruct (alive (s_proc s)) eqn:A; [|discriminate]. intros S. split; [reflexivity|].
  assert (Q : s_main s <> MFatal /\ (forall op, l <> LCall op) /\ exists p', proc_step (s_proc s) (PDo i l) = Some p' /\ s' = mkServer p' (s_main s) (s_progs s)).
  { destruct (s_main s); [| |discriminate]; (split; [discriminate|]); 
    (destruct l; try discriminate; (split; [discriminate|]); (destruct (proc_step (s_proc s) _); [|discriminate]); injection S as <-; eauto). }
  destruct Q as (Q1 & Q2 & p' & S1 & ->). split; [exact Q1|]. split; [exact Q2|]. apply proc_step_put in S1 as (c & c' & E & O & St & ->). exists c, c'. auto.
Qed.
Lemma pair_at g s i c : minv g s -> conn_at (s_proc s) i = Some c -> exists p, at_pair s i c p.
Proof.
  intros I E. destruct (nth_error (s_progs s) i) as [p|] eqn:N; [exists p; split; auto|]. apply nth_error_None in N. rewrite (mi_len _ _ I) in N.
  apply conn_at_len in E. unfold accepted in N. lia.
Qed.
Lemma conn_at_open p g' o j : conn_at (mkProc g' (p_data p) (p_owner p) (p_conns p ++ [start Server g' o])) j =
  if j <? length (p_conns p) then conn_at p j else if j =? length (p_conns p) then Some (view p j (start Server g' o)) else None.
Proof.
  unfold conn_at. cbn [p_conns]. destruct (j <? length (p_conns p)) eqn:L.
  - apply Nat.ltb_lt in L. rewrite nth_error_app1 by exact L. reflexivity.
  - apply Nat.ltb_ge in L. rewrite nth_error_app2 by exact L. destruct (j =? length (p_conns p)) eqn:Q.
    + apply Nat.eqb_eq in Q. subst j. rewrite Nat.sub_diag. reflexivity.
    + apply Nat.eqb_neq in Q. destruct (j - length (p_conns p)) as [|k] eqn:K; [lia|]. destruct k; reflexivity.
Qed.

Lemma view_new p o g : owns p (length (p_conns p)) = false -> step (start Server g o) (LOtherBeat (p_data p)) = Some (view p (length (p_conns p)) (start Server g o)).
Proof. intros H. rewrite other_step by reflexivity. unfold view. now rewrite H. Qed.
Lemma minv_step g s x s' : minv g s -> srv_step s x = Some s' -> minv g s'.
Proof.
  intros I S. destruct x as [o| | |i|i l].
  - pose proof I as [L Ow G At M]. unfold srv_step in S. destruct (alive (s_proc s)) eqn:A; [|discriminate]. destruct (s_main s) eqn:Em; try discriminate.
    unfold proc_step in S. rewrite A in S. injection S as <-.
    assert (X : forall j x q, at_pair (mkServer (mkProc (p_cfg (s_proc s)) (p_data (s_proc s)) (p_owner (s_proc s)) (p_conns (s_proc s) ++ [start Server (p_cfg (s_proc s)) o]))
       (MHandshake (length (p_conns (s_proc s)))) (s_progs s ++ [serve_start 1500])) j x q ->
       (j <> length (p_conns (s_proc s)) /\ at_pair s j x q) \/ (j = length (p_conns (s_proc s)) /\ x = view (s_proc s) j (start Server g o) /\ q = serve_start 1500)).
    { intros j x q [H1 H2]. cbn [s_proc s_progs] in *. rewrite conn_at_open in H1. unfold accepted in L. destruct (j <? length (p_conns (s_proc s))) eqn:Lj.
      - apply Nat.ltb_lt in Lj. left. split; [lia|]. split; [exact H1|]. rewrite nth_error_app1 in H2 by lia. exact H2.
      - apply Nat.ltb_ge in Lj. destruct (j =? length (p_conns (s_proc s))) eqn:Q; [|discriminate]. apply Nat.eqb_eq in Q. right. split; [exact Q|].
        rewrite nth_error_app2 in H2 by lia. replace (j - length (s_progs s)) with 0 in H2 by lia. cbn in H2. split; congruence. }
    constructor; cbn [s_proc s_main s_progs].
    + unfold accepted in *. cbn [s_proc p_conns]. rewrite !app_length. cbn. lia.
    + intros j H. cbn [p_owner] in H. specialize (Ow j H). unfold accepted in *. cbn [s_proc p_conns]. rewrite app_length. cbn. lia.
    + exact G.
    + intros j x q H. destruct (X j x q H) as [[N H0]|(-> & -> & ->)].
      * destruct (At j x q H0) as [S0 D0]. split; [exact S0|]. destruct D0 as [?|[?|?]]; auto. discriminate.
      * split; [|left; reflexivity]. assert (Nw : owns (s_proc s) (length (p_conns (s_proc s))) = false).
        { unfold owns. destruct (p_owner (s_proc s)) as [k|]; [|reflexivity]. specialize (Ow k eq_refl). unfold accepted in Ow. apply Nat.eqb_neq. lia. }
        exists o, [ALib (LOtherBeat (p_data (s_proc s)))]. cbn [serve_run serve_run1 fst snd]. now rewrite view_new.
    + split; [unfold accepted; cbn [s_proc p_conns]; rewrite app_length; cbn; lia|].
      intros j x q H. destruct (X j x q H) as [[N H0]|(-> & -> & ->)]; [|cbn; tauto]. pose proof (M j x q H0). tauto.
  - pose proof I as [L Ow G At M]. unfold srv_step in S. destruct (alive (s_proc s)) eqn:A; [|discriminate]. destruct (s_main s) eqn:Em; try discriminate.
    injection S as <-. constructor; [exact L|exact Ow|exact G| |exact Logic.I]. intros i c p H. split; [apply (At i c p H)|right; right; reflexivity].
  - pose proof I as [L Ow G At M]. unfold srv_step in S. destruct (alive (s_proc s)) eqn:A; [|discriminate]. destruct (s_main s) as [|n|] eqn:Em; try discriminate.
    destruct (conn_at (s_proc s) n) as [c|] eqn:Ec; [|discriminate]. destruct (nth_error (s_progs s) n) as [p|] eqn:Ep; [|discriminate].
    destruct M as [M1 M2]. pose proof (conj Ec Ep : at_pair s n c p) as H0. destruct (At n c p H0) as [Sv _]. assert (Es : g_at p = AEstablish) by (apply (M2 n c p H0); reflexivity).
    pose proof (alive_at _ _ _ A Ec) as Cr.
    assert (Ln : n < length (s_progs s)) by (apply nth_error_Some; congruence).
    assert (X : forall mm q, serving g c q -> (dial c = DOk \/ mm = MFatal) -> (mm = MListen /\ g_at q <> AEstablish) \/ mm = MFatal -> minv g (mkServer (s_proc s) mm (upd (s_progs s) n q))).
    { intros mm q Sq Dq Mq.
      assert (Y : forall j x r, at_pair (mkServer (s_proc s) mm (upd (s_progs s) n q)) j x r -> (j = n /\ x = c /\ r = q) \/ (j <> n /\ at_pair s j x r)).
      { intros j x r [H1 H2]. cbn [s_proc s_progs] in *. destruct (Nat.eq_dec j n) as [->|N].
        - left. rewrite nth_upd_same in H2 by exact Ln. repeat split; congruence.
        - right. split; [exact N|]. split; [exact H1|]. now rewrite nth_upd_other in H2. }
      constructor; cbn [s_proc s_main s_progs].
      - unfold accepted. now rewrite upd_len.
      - exact Ow.
      - exact G.
      - intros j x r H. destruct (Y j x r H) as [(-> & -> & ->)|[N H1]]; [split; [exact Sq|destruct Dq; auto]|].
        destruct (At j x r H1) as [S1 D1]. split; [exact S1|]. destruct D1 as [D1|[D1|D1]]; [|right; left; exact D1|congruence]. apply (M2 j x r H1) in D1. contradiction.
      - destruct Mq as [[-> Nq]| ->]; [|exact Logic.I]. intros j x r H. destruct (Y j x r H) as [(-> & -> & ->)|[N H1]]; [exact Nq|].
        intros D1. apply (M2 j x r H1) in D1. contradiction. }
    assert (Sp : forall c2 q, serve_step c p = Some (c2, q) -> c2 = c -> serving g c q) by (intros c2 q H ->; eapply serving_prog; eauto).
    unfold serve_step in Sp. rewrite Cr, Es in Sp.
    destruct (dial c) eqn:D; try discriminate; injection S as <-.
    + apply X; [eapply Sp; reflexivity|left; reflexivity|left; split; [reflexivity|discriminate]].
    + apply X; [eapply Sp; reflexivity|right; reflexivity|right; reflexivity].
    + apply X; [eapply Sp; reflexivity|right; reflexivity|right; reflexivity].
  - unfold srv_step in S. destruct (alive (s_proc s)) eqn:A; [|discriminate].
    assert (Q : exists c p c' p', at_pair s i c p /\ g_at p <> AEstablish /\ serve_step c p = Some (c', p') /\ s' = mkServer (put (s_proc s) i c') (s_main s) (upd (s_progs s) i p')).
    { destruct (s_main s) eqn:Em; [| |discriminate];
      (destruct (conn_at (s_proc s) i) as [c|] eqn:Ec; [|discriminate]; destruct (nth_error (s_progs s) i) as [p|] eqn:Ep; [|discriminate];
       exists c, p; destruct (g_at p) eqn:Gp; try discriminate; (destruct (serve_step c p) as [[c' p']|] eqn:St; [|discriminate]); injection S as <-;
       exists c', p'; repeat split; auto; discriminate). }
    destruct Q as (c & p & c' & p' & H & Np & St & ->). destruct (mi_at _ _ I i c p H) as [Sv _]. destruct (serve_changes _ _ _ _ _ Sv St) as (Ch & _ & Dk).
    eapply minv_put; eauto; [eapply serving_prog; eauto|]. pose proof (serve_after _ _ _ _ St Np). tauto.
  - apply lib_step in S as (A & Nm & Nc & c & c' & E & O & St & ->). destruct (pair_at _ _ _ _ I E) as [p H]. destruct (mi_at _ _ I i c p H) as [Sv _].
    rewrite <- (upd_id (s_progs s) i p (proj2 H)). eapply minv_put; eauto; [right; eauto|eapply serving_lib; eauto|tauto|]. intros D. eapply dial_lasts; eauto.
Qed.
Lemma minv_reachable g s : srv_reachable g s -> minv g s.
Proof.
  intros [xs R]. revert s R. induction xs as [|x xs IH] using rev_ind; intros s R; [injection R as <-; apply minv_start|].
  rewrite srv_run_snoc in R. destruct (srv_run (server_start g) xs) as [s1|] eqn:E; [|discriminate]. eapply minv_step; eauto.
Qed.
Lemma srv_reachable_run g s xs s' : srv_reachable g s -> srv_run s xs = Some s' -> srv_reachable g s'.
Proof.
  intros [ys R] R'. exists (ys ++ xs). revert R. generalize (server_start g). induction ys as [|y ys IH]; intros a R; [injection R as <-; exact R'|].
  cbn [app srv_run] in *. destruct (srv_step a y); [auto|discriminate].
Qed.

(** ** The pieces of C107 *)
Lemma each_serves g s i c p : srv_reachable g s -> at_pair s i c p -> exists o ls, serve_run (start Server g o, serve_start 1500) ls = Some (c, p).
Proof. intros R H. apply (mi_at _ _ (minv_reachable _ _ R) _ _ _ H). Qed.
Lemma serve_never_panics g s i s' : srv_reachable g s -> srv_step s (VServe i) = Some s' -> alive (s_proc s') = true.
Proof.
  intros R S. pose proof (minv_reachable _ _ R) as I. unfold srv_step in S. destruct (alive (s_proc s)) eqn:A; [|discriminate].
  assert (Q : exists c p c' p', at_pair s i c p /\ serve_step c p = Some (c', p') /\ s' = mkServer (put (s_proc s) i c') (s_main s) (upd (s_progs s) i p')).
  { destruct (s_main s) eqn:Em; [| |discriminate];
    (destruct (conn_at (s_proc s) i) as [c|] eqn:Ec; [|discriminate]; destruct (nth_error (s_progs s) i) as [p|] eqn:Ep; [|discriminate];
     exists c, p; destruct (g_at p) eqn:Gp; try discriminate; (destruct (serve_step c p) as [[c' p']|] eqn:St; [|discriminate]); injection S as <-;
     exists c', p'; repeat split; auto; discriminate). }
  destruct Q as (c & p & c' & p' & H & St & ->). destruct (mi_at _ _ I i c p H) as [Sv _]. destruct (serve_changes _ _ _ _ _ Sv St) as (Ch & Cr & _).
  apply alive_intro. intros j x E. cbn [s_proc] in E. destruct (Nat.eq_dec j i) as [->|N]; [rewrite (put_self _ _ _ _ (proj1 H) Ch) in E; congruence|].
  destruct (other_at _ _ _ _ _ _ A (proj1 H) Ch N E) as (x0 & E0 & Q). pose proof (alive_at _ _ _ A E0) as C0. destruct Q as [->|[d Q]]; [exact C0|].
  rewrite other_step in Q by exact C0. injection Q as <-. destruct x0; exact C0.
Qed.
Lemma one_handshake g s : srv_reachable g s ->
  match s_main s with
  | MListen => forall i c, conn_at (s_proc s) i = Some c -> dial c = DOk
  | MHandshake n => Datatypes.S n = accepted s /\ forall i c, conn_at (s_proc s) i = Some c -> i <> n -> dial c = DOk
  | MFatal => True
  end.
Proof.
  intros R. pose proof (minv_reachable _ _ R) as I. pose proof (mi_main _ _ I) as M. pose proof (mi_at _ _ I) as At. destruct (s_main s) as [|n|] eqn:Em; [| |exact Logic.I].
  - intros i c E. destruct (pair_at _ _ _ _ I E) as [p H]. destruct (At i c p H) as [_ [D|[D|D]]]; [|exact D|discriminate]. destruct (M i c p H D).
  - destruct M as [M1 M2]. split; [exact M1|]. intros i c E N. destruct (pair_at _ _ _ _ I E) as [p H]. destruct (At i c p H) as [_ [D|[D|D]]]; [|exact D|discriminate].
    apply (M2 i c p H) in D. contradiction.
Qed.

(** a peer that sends nothing *)
Lemma quiet_step c l c' : step c l = Some c' -> (forall p, l <> LArrive p) -> inq c = [] -> reads (log c) = [] -> inq c' = [] /\ reads (log c') = [].
Proof.
  intros S N Q Rd. apply step_stepR in S as [C S].
  assert (Ra : forall a b, reads (a ++ b) = reads a ++ reads b) by (intros; unfold reads; apply flat_map_app).
  destruct S; try (split; [exact Q|]; cb; rewrite ?Ra, Rd; reflexivity); try congruence.
  - destruct (N p eq_refl).
  - rewrite state_update_eq. cb. rewrite Ra, Rd. auto.
  - cb. bfields (set_dial DOk c). rewrite B8, B20. cb. auto.
  - cb. bfields (closing c). fields c. rewrite B8, B20, K8, K20. rewrite ?Ra, Rd. split; [exact Q|reflexivity].
  - destruct (hba c); cb; auto.
  - cb. fields c. rewrite K8, K20. rewrite ?Ra, Rd. split; [exact Q|reflexivity].
  - cb. split; [exact Q|]. rewrite Ra, Rd. destruct H0 as [->|[->|(o & e & _ & ->)]]; reflexivity.
Qed.
Lemma over_fatal s : s_main s = MFatal -> over s.
Proof. intros E x. unfold srv_step. rewrite E. destruct (alive (s_proc s)); reflexivity. Qed.
Lemma serve_quiet g c p c' p' : serving g c p -> serve_step c p = Some (c', p') -> inq c = [] -> reads (log c) = [] -> inq c' = [] /\ reads (log c') = [].
Proof.
  intros Sv S Q Rd. destruct (serving_serves _ _ _ Sv) as [R H]. destruct (serves_prog 1500 _ _ _ _ R ltac:(lia) H S) as (_ & Cr & [->|[op St]]); auto.
  eapply quiet_step; eauto. discriminate.
Qed.
Lemma serve_inv_step s i s' : srv_step s (VServe i) = Some s' -> alive (s_proc s) = true /\
  exists c p c' p', at_pair s i c p /\ g_at p <> AEstablish /\ serve_step c p = Some (c', p') /\ s' = mkServer (put (s_proc s) i c') (s_main s) (upd (s_progs s) i p').
Proof.
  unfold srv_step. destruct (alive (s_proc s)) eqn:A; [|discriminate]. intros S. split; [reflexivity|].
  destruct (s_main s) eqn:Em; [| |discriminate];
    (destruct (conn_at (s_proc s) i) as [c|] eqn:Ec; [|discriminate]; destruct (nth_error (s_progs s) i) as [p|] eqn:Ep; [|discriminate];
     exists c, p; destruct (g_at p) eqn:Gp; try discriminate; (destruct (serve_step c p) as [[c' p']|] eqn:St; [|discriminate]); injection S as <-;
     exists c', p'; repeat split; auto; discriminate).
Qed.
Lemma quiet_put s i c c' j d : alive (s_proc s) = true -> conn_at (s_proc s) i = Some c -> changes c c' ->
  (inq c = [] -> reads (log c) = [] -> i = j -> inq c' = [] /\ reads (log c') = []) ->
  nothing_yet s j -> nothing_yet (mkServer (put (s_proc s) i c') (s_main s) d) j.
Proof.
  intros A E Ch H (x & Ex & Qx & Rx). unfold nothing_yet. cbn [s_proc]. destruct (Nat.eq_dec j i) as [->|N].
  - rewrite (put_self _ _ _ _ E Ch). assert (x = c) by congruence. subst x. destruct (H Qx Rx eq_refl). eauto.
  - destruct (put_other _ _ _ _ _ E Ch N) as [Q|[[dd Q] _]]; rewrite Q, Ex; [eauto|]. cbn [option_map]. eexists. split; [reflexivity|]. destruct x; auto.
Qed.
Lemma silent_step g s i x s' : srv_reachable g s -> s_main s = MHandshake i -> nothing_yet s i -> (forall p, x <> VLib i (LArrive p)) -> srv_step s x = Some s' ->
  accepted s' = accepted s /\ ((s_main s' = MHandshake i /\ nothing_yet s' i) \/ s_main s' = MFatal).
Proof.
  intros R Em Ny Nx S. pose proof (minv_reachable _ _ R) as I. destruct x as [o| | |j|j l].
  - unfold srv_step in S. rewrite Em in S. destruct (alive _); discriminate.
  - unfold srv_step in S. rewrite Em in S. destruct (alive _); discriminate.
  - unfold srv_step in S. rewrite Em in S. destruct (alive (s_proc s)); [|discriminate]. destruct Ny as (c & Ec & Q & Rd). rewrite Ec in S.
    destruct (nth_error (s_progs s) i) as [p|] eqn:Ep; [|discriminate]. destruct (dial c) eqn:D; try discriminate; injection S as <-; auto.
    destruct (mi_at _ _ I i c p (conj Ec Ep)) as [Sv _]. destruct (serving_serves _ _ _ Sv) as [Rc _].
    destruct (established_read c Rc D) as (raw & _ & H & _). rewrite Rd in H. destruct H.
  - apply serve_inv_step in S as (A & c & p & c' & p' & H & Np & St & ->). destruct (mi_at _ _ I j c p H) as [Sv _]. destruct (serve_changes _ _ _ _ _ Sv St) as (Ch & _ & _).
    split; [unfold accepted; cbn [s_proc]; apply put_len|]. left. split; [exact Em|]. eapply quiet_put; eauto; [apply H|]. intros Q Rd _. eapply serve_quiet; eauto.
  - apply lib_step in S as (A & Nm & Nc & c & c' & E & O & St & ->). split; [unfold accepted; cbn [s_proc]; apply put_len|]. left. split; [exact Em|].
    eapply quiet_put; eauto; [right; eauto|]. intros Q Rd ->. eapply quiet_step; eauto. intros p ->. destruct (Nx p eq_refl).
Qed.
Lemma silent_run g i xs : forall s s', srv_reachable g s -> s_main s = MHandshake i -> nothing_yet s i -> nothing_arrives i xs -> srv_run s xs = Some s' ->
  accepted s' = accepted s /\ ((s_main s' = MHandshake i /\ nothing_yet s' i) \/ (s_main s' = MFatal /\ over s')).
Proof.
  induction xs as [|x xs IH]; intros s s' R Em Ny Na S.
  - injection S as <-. auto.
  - cbn [srv_run] in S. destruct (srv_step s x) as [s1|] eqn:S1; [|discriminate].
    destruct (silent_step g s i x s1 R Em Ny) as [Ac [[E1 N1]|F]]; [intros p ->; apply (Na p); now left|exact S1| |].
    + destruct (IH s1 s') as [Ac' H]; auto; [apply srv_reachable_run with (s := s) (xs := [x]); [exact R|cbn [srv_run]; now rewrite S1]|intros p Hp; apply (Na p); now right|]. split; [congruence|exact H].
    + destruct xs as [|y ys]; [injection S as <-; split; [exact Ac|right; split; [exact F|now apply over_fatal]]|].
      cbn [srv_run] in S. rewrite (over_fatal _ F) in S. discriminate.
Qed.

(** ** A peer that fails *)
Lemma assoc_step g s o : srv_reachable g s -> alive (s_proc s) = true -> s_main s = MListen -> exists s',
  srv_step s (VAssoc o) = Some s' /\ s_main s' = MHandshake (accepted s) /\ conn_at (s_proc s') (accepted s) = Some (set_hbd (p_data (s_proc s)) (start Server g o)) /\
  (forall j, j < accepted s -> conn_at (s_proc s') j = conn_at (s_proc s) j /\ nth_error (s_progs s') j = nth_error (s_progs s) j) /\
  nth_error (s_progs s') (accepted s) = Some (serve_start 1500) /\ nothing_yet s' (accepted s).
Proof.
  intros R A Em. pose proof (minv_reachable _ _ R) as [L Ow G _ _]. unfold srv_step. rewrite A, Em. unfold proc_step. rewrite A. eexists. split; [reflexivity|].
  cbn [s_main s_proc s_progs]. split; [reflexivity|].
  assert (E : conn_at (mkProc (p_cfg (s_proc s)) (p_data (s_proc s)) (p_owner (s_proc s)) (p_conns (s_proc s) ++ [start Server (p_cfg (s_proc s)) o])) (accepted s) =
    Some (set_hbd (p_data (s_proc s)) (start Server g o))).
  { rewrite conn_at_open. unfold accepted at 1 2. rewrite Nat.ltb_irrefl, Nat.eqb_refl. unfold view.
    assert (Nw : owns (s_proc s) (accepted s) = false).
    { unfold owns. destruct (p_owner (s_proc s)) as [k|]; [|reflexivity]. specialize (Ow k eq_refl). apply Nat.eqb_neq. lia. }
    rewrite Nw, G. reflexivity. }
  split; [exact E|]. split; [|split].
  - intros j Lj. split; [rewrite conn_at_open; unfold accepted in Lj; apply Nat.ltb_lt in Lj; now rewrite Lj|]. apply nth_error_app1. lia.
  - rewrite nth_error_app2, L, Nat.sub_diag by lia. reflexivity.
  - unfold nothing_yet. cbn [s_proc]. rewrite E. eexists. split; [reflexivity|]. split; reflexivity.
Qed.
(** steps of the new association while nothing else happens *)
Lemma lib_run ls : forall s n c c', Forall lib_label ls ->
  alive (s_proc s) = true -> s_main s <> MFatal -> conn_at (s_proc s) n = Some c -> run c ls = Some c' -> crash c' = None ->
  exists p, srv_run s (map (VLib n) ls) = Some (mkServer p (s_main s) (s_progs s)) /\ alive p = true /\ conn_at p n = Some c' /\
    forall j x, j <> n -> conn_at (s_proc s) j = Some x -> exists x', conn_at p j = Some x' /\ dq x' = dq x /\ us x' = us x /\ log x' = log x /\ state x' = state x.
Proof.
  induction ls as [|l ls IH]; intros s n c c' F A Nm E Rn C.
  - injection Rn as <-. exists (s_proc s). destruct s as [p m q]. cbn in *. split; [reflexivity|]. split; [exact A|]. split; [exact E|]. intros j x _ Ex. exists x. auto.
  - inversion F as [|? ? (O & Nl & Nc) F']; subst. cbn [run] in Rn. destruct (step c l) as [c1|] eqn:St; [|discriminate].
    assert (C1 : crash c1 = None) by (destruct (crash c1) eqn:K; [|reflexivity]; destruct ls as [|y ys]; [cbn in Rn; congruence|]; cbn [run] in Rn; unfold step in Rn at 1; rewrite K in Rn; discriminate).
    assert (S1 : srv_step s (VLib n l) = Some (mkServer (put (s_proc s) n c1) (s_main s) (s_progs s))).
    { unfold srv_step. rewrite A. unfold proc_step. rewrite A, O, E. 
      destruct (s_main s); try congruence; (destruct l; try congruence; try (destruct (Nc _ eq_refl); fail); rewrite St; reflexivity). }
    assert (Ch : changes c c1) by (right; eauto).
    assert (A1 : alive (put (s_proc s) n c1) = true).
    { apply alive_intro. intros j x Ex. destruct (Nat.eq_dec j n) as [->|N]; [rewrite (put_self _ _ _ _ E Ch) in Ex; congruence|].
      destruct (other_at _ _ _ _ _ _ A E Ch N Ex) as (x0 & E0 & Q). pose proof (alive_at _ _ _ A E0) as C0. destruct Q as [->|[d Q]]; [exact C0|].
      rewrite other_step in Q by exact C0. injection Q as <-. destruct x0; exact C0. }
    destruct (IH (mkServer (put (s_proc s) n c1) (s_main s) (s_progs s)) n c1 c' F' A1 Nm (put_self _ _ _ _ E Ch) Rn C) as (p & Rp & Ap & Ep & Oth).
    exists p. split; [cbn [map srv_run]; rewrite S1; exact Rp|]. split; [exact Ap|]. split; [exact Ep|].
    intros j x N Ex. cbn [s_proc] in Oth. destruct (put_other _ _ _ _ _ E Ch N) as [Q|[[d Q] _]]; [apply (Oth j x N); congruence|].
    rewrite Ex in Q. cbn [option_map] in Q. destruct (Oth j _ N Q) as (x' & E' & H1 & H2 & H3 & H4). exists x'. rewrite H1, H2, H3, H4. destruct x; auto.
Qed.
Lemma fails_all g s o ls : srv_reachable g s -> alive (s_proc s) = true -> s_main s = MListen -> failing g o ls ->
  Forall lib_label ls ->
  exists s', srv_run s (VAssoc o :: map (VLib (accepted s)) ls ++ [VMain]) = Some s' /\ s_main s' = MFatal /\ over s' /\
    forall j x p, at_pair s j x p -> exists x', at_pair s' j x' p /\ dq x' = dq x /\ us x' = us x /\ log x' = log x /\ state x' = state x.
Proof.
  intros R A Em Fl F. destruct (assoc_step g s o R A Em) as (s1 & S1 & M1 & E1 & Old & P1 & _).
  destruct (Fl (p_data (s_proc s))) as (c & Rc & Cc & Dc).
  assert (A1 : alive (s_proc s1) = true).
  { apply alive_intro. intros j x Ex. destruct (Nat.eq_dec j (accepted s)) as [->|N]; [rewrite E1 in Ex; injection Ex as <-; reflexivity|].
    assert (Rs : srv_reachable g s1) by (apply srv_reachable_run with (s := s) (xs := [VAssoc o]); [exact R|cbn [srv_run]; now rewrite S1]).
    pose proof (mi_main _ _ (minv_reachable _ _ Rs)) as M. rewrite M1 in M. destruct M as [Ml _]. apply conn_at_len in Ex as Lx. unfold accepted in Ml at 2.
    destruct (Old j ltac:(lia)) as [Oj _]. rewrite Oj in Ex. eapply alive_at; eauto. }
  destruct (lib_run ls s1 (accepted s) _ c F A1 ltac:(congruence) E1 Rc Cc) as (p & Rp & Ap & Ep & Oth).
  rewrite M1 in Rp.
  assert (S2 : srv_step (mkServer p (MHandshake (accepted s)) (s_progs s1)) VMain =
    Some (mkServer p MFatal (upd (s_progs s1) (accepted s) (mkProg AEnd (g_buf (serve_start 1500)) (g_out (serve_start 1500) ++ [PFatalEstablish]))))).
  { unfold srv_step. cbn [s_proc s_main s_progs]. rewrite Ap, Ep, P1. destruct Dc as [->| ->]; reflexivity. }
  eexists. split; [|split; [|split]].
  - change (VAssoc o :: map (VLib (accepted s)) ls ++ [VMain]) with ((VAssoc o :: map (VLib (accepted s)) ls) ++ [VMain]). rewrite srv_run_snoc. cbn [srv_run]. rewrite S1, Rp. exact S2.
  - reflexivity.
  - now apply over_fatal.
  - intros j x q [Ex Eq]. pose proof (conn_at_len _ _ _ Ex) as Lj. destruct (Old j Lj) as [O1 O2]. assert (N : j <> accepted s) by (unfold accepted; lia).
    destruct (Oth j x N ltac:(congruence)) as (x' & Ex' & H). exists x'. split; [|exact H]. split; [exact Ex'|]. cbn [s_progs]. rewrite nth_upd_other by exact N. congruence.
Qed.
Lemma failing_timeout g o : failing g o [LDialTimeout].
Proof. intros d. eexists. split; [reflexivity|]. split; [reflexivity|]. right. reflexivity. Qed.

(** ** Without heartbeats the associations do not touch each other *)
Lemma apart_put g p i c c' j : conn_at p i = Some c -> reachable c -> cfg c = g -> hb_on g = false -> changes c c' -> j <> i -> conn_at (put p i c') j = conn_at p j.
Proof.
  intros E R G F Ch N. destruct (put_other _ _ _ _ _ E Ch N) as [Q|[_ D]]; [exact Q|]. exfalso.
  destruct Ch as [->|(l & O & S)]; [destruct D; congruence|]. rewrite <- G in F. destruct (hb_quiet c l c' R F O S). destruct D; congruence.
Qed.
Lemma apart g s i x s' j c p : hb_on g = false -> srv_reachable g s -> (x = VServe i \/ exists l, x = VLib i l) -> srv_step s x = Some s' -> j <> i ->
  at_pair s j c p -> at_pair s' j c p.
Proof.
  intros F R X S N [Ej Pj]. pose proof (minv_reachable _ _ R) as I. destruct X as [->|[l ->]].
  - apply serve_inv_step in S as (A & ci & pi & ci' & pi' & H & Np & St & ->). destruct (mi_at _ _ I i ci pi H) as [Sv _].
    destruct (serve_changes _ _ _ _ _ Sv St) as (Ch & _ & _). destruct (serving_serves _ _ _ Sv) as [Rc _].
    split; cbn [s_proc s_progs]; [|now rewrite nth_upd_other]. rewrite <- Ej. exact (apart_put g _ _ _ _ _ (proj1 H) Rc (serving_cfg _ _ _ Sv) F Ch N).
  - apply lib_step in S as (A & Nm & Nc & ci & ci' & E & O & St & ->). destruct (pair_at _ _ _ _ I E) as [pi H]. destruct (mi_at _ _ I i ci pi H) as [Sv _].
    destruct (serving_serves _ _ _ Sv) as [Rc _]. split; cbn [s_proc s_progs]; [|exact Pj]. rewrite <- Ej. refine (apart_put g _ _ _ _ _ E Rc (serving_cfg _ _ _ Sv) F _ N). right. eauto.
Qed.
