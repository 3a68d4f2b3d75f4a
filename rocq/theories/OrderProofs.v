(** The order in which received data are delivered (C115). *)
From Verif Require Import GoBase BaseProofs ParamsModel MessagesModel ConfigModel ConnModel ConnSpec ConnBase ConnInv ConnTrace ConnUser
  CfgSpec ConnCodec ConnMacro ConnMore ConnStable ConnData ConnPieces ConnLive OrderSpec.
From Coq Require Import Arith Lia Permutation.
Open Scope nat_scope.

(** ** Subsequences *)
Lemma picked_refl {A} (a : list A) : picked a a.
Proof. induction a; constructor; auto. Qed.
Lemma picked_nil {A} (a : list A) : picked [] a.
Proof. induction a; constructor; auto. Qed.
Lemma picked_app {A} (a b c d : list A) : picked a b -> picked c d -> picked (a ++ c) (b ++ d).
Proof. intros H K. induction H; cbn [app]; try constructor; auto. Qed.
Lemma picked_trans {A} (a b c : list A) : picked a b -> picked b c -> picked a c.
Proof.
  intros H K. revert a H. induction K as [|x b c K IH|x b c K IH]; intros a H; auto.
  - inversion H; subst; constructor; auto.
  - constructor. auto.
Qed.
Lemma picked_length {A} (a b : list A) : picked a b -> length a <= length b.
Proof. induction 1; cbn; lia. Qed.
Lemma picked_all {A} (a b : list A) : picked a b -> length b <= length a -> a = b.
Proof.
  induction 1 as [|x a b H IH|x a b H IH]; cbn; intros L; auto.
  - f_equal. apply IH. lia.
  - pose proof (picked_length _ _ H). lia.
Qed.
(** at most one element: counting is enough *)
Lemma one_or_none (a b : list pdpayload) : length b <= 1 -> (forall x, cnt x a <= cnt x b) -> picked a b.
Proof.
  intros L H. destruct b as [|y [|z b]]; [| |cbn in L; lia].
  - destruct a as [|x a]; [constructor|]. specialize (H x). unfold cnt in H. rewrite count_occ_cons_eq in H by reflexivity. cbn in H. lia.
  - destruct a as [|x a]; [apply picked_nil|].
    assert (x = y) as ->.
    { specialize (H x). unfold cnt in H. rewrite count_occ_cons_eq in H by reflexivity. cbn [count_occ] in H. destruct (pd_dec y x); [congruence|lia]. }
    destruct a as [|z a]; [apply picked_refl|]. exfalso.
    assert (z = y) as ->.
    { specialize (H z). unfold cnt in H. cbn [count_occ] in H. destruct (pd_dec y z); [congruence|]. destruct (pd_dec z z); [lia|congruence]. }
    specialize (H y). unfold cnt in H. rewrite !count_occ_cons_eq in H by reflexivity. cbn in H. lia.
Qed.

Lemma flat_map_nil {A B} (f : A -> list B) l : (forall x, In x l -> f x = []) -> flat_map f l = [].
Proof. intros H. induction l as [|x l IH]; [reflexivity|]. cbn [flat_map]. rewrite (H x (or_introl eq_refl)). apply IH. intros y I. apply H. now right. Qed.

(** ** One step *)
Definition arrived (c : conn) : list pdpayload := flat_map payload (reads (log c)).
Definition given (c : conn) : list pdpayload := delivered (log c) ++ dq c.
Definition underway (c : conn) : list pdpayload := flat_map in_hand (hs c) ++ flat_map in_data (ds c).
Lemma payload_one raw : length (payload raw) <= 1.
Proof.
  unfold payload, sig_payload, msg_payload.
  repeat match goal with |- context [match ?x with _ => _ end] => destruct x end; cbn; auto.
Qed.
Definition flows (c c' : conn) : Prop :=
  exists a n, given c' = given c ++ a /\ arrived c' = arrived c ++ n /\ length n <= 1 /\ (n <> [] -> mon c = MRead /\ reads (log c') <> reads (log c)) /\
    forall x, cnt x a + cnt x (underway c') <= cnt x (underway c) + cnt x n.
Lemma flows_move c c' : given c' = given c -> arrived c' = arrived c -> (forall x, cnt x (underway c') <= cnt x (underway c)) -> flows c c'.
Proof. intros A B H. exists [], []. rewrite !app_nil_r. split; [exact A|]. split; [exact B|]. split; [auto|]. split; [congruence|]. intros x. specialize (H x). cbn. lia. Qed.
Lemma flow_step c l c' : reachable c -> crash c = None -> stepR c l c' -> crash c' = None -> flows c c'.
Proof.
  intros R C S C'.
  assert (Tk : forall i x k, nth_error (hs c) i = Some (x :: k) -> match x with IParse _ | ISig _ => k = [] | _ => True end).
  { intros i x k N. destruct (Inv_reachable c R C) as (_ & _ & h & _ & _ & _ & _ & _ & T).
    destruct (token_hand _ _ _ _ _ T N) as (pre & raw & _ & _ & _ & _ & _ & _ & F). apply for_packet_inv in F. destruct x; auto; apply F. }
  assert (Iu : forall i x k l, nth_error (hs c) i = Some (x :: k) -> forall z,
    cnt z (flat_map in_hand (upd (hs c) i l)) + (cnt z (in_hand [x]) + cnt z (in_hand k)) = cnt z (flat_map in_hand (hs c)) + cnt z (in_hand l)).
  { intros i x k l0 N z. rewrite <- (cnt_upd in_hand (hs c) i (x :: k) l0 z N). rewrite <- cnt_app. f_equal. f_equal. unfold in_hand. cbn [flat_map]. now rewrite app_nil_r. }
  assert (Du : forall i d d', nth_error (ds c) i = Some d -> forall z,
    cnt z (flat_map in_data (upd (ds c) i d')) + cnt z (in_data d) = cnt z (flat_map in_data (ds c)) + cnt z (in_data d')) by (intros; now apply cnt_upd).
  assert (Cn : forall z, cnt z [] = 0) by reflexivity.
  assert (Ik : forall x k, in_hand (x :: k) = in_hand [x] ++ in_hand k) by (intros; unfold in_hand; cbn [flat_map]; now rewrite app_nil_r).
  Ltac mw c Iu Tk Ik Du Cn z :=
    unfold underway; cb;
    try (match goal with N : nth_error (hs c) ?i = Some (?x :: ?k) |- context [upd (hs c) ?i ?l] =>
       pose proof (Iu i x k l N z) as Up; pose proof (Tk i x k N) as Kn; cbn beta iota in Kn; rewrite ?(Ik _ k) in Up end);
    try (match goal with N : nth_error (ds c) ?i = Some ?d |- context [upd (ds c) ?i ?l] => pose proof (Du i d l N z) as Up end);
    rewrite ?flat_map_app, ?cnt_app in *;
    cbn [flat_map app in_mon in_hand in_data] in *; rewrite ?cnt_app, ?app_nil_r, ?Cn in *.
  Ltac gv := unfold given, arrived, delivered, reads; cb; rewrite ?flat_map_app; cbn [flat_map app]; rewrite ?app_nil_r; reflexivity.
  destruct S; try solve [apply flows_move; [gv|gv|intros z; mw c Iu Tk Ik Du Cn z; lia]].
  - rewrite state_update_eq. apply flows_move; [gv|gv|intros z; unfold underway; cb; lia].
  - bfields (set_dial DOk c). cb. apply flows_move; unfold given, arrived, underway; cb; rewrite ?B20, ?B9, ?B13, ?B14; auto.
  - exists [], (payload (firstn bufsize p)). split; [gv|]. split; [gv|]. split; [apply payload_one|]. split.
    + intros _. split; [assumption|]. cb. rewrite reads_app. cbn [reads flat_map app]. intros E. apply (f_equal (@length _)) in E. rewrite app_length in E. cbn in E. lia.
    + intros z. mw c Iu Tk Ik Du Cn z. unfold in_hand. cbn [flat_map]. rewrite ?app_nil_r, ?Cn. lia.
  - fields c. bfields (closing c). cb. apply flows_move; unfold given, arrived, underway, delivered, reads; cb; rewrite ?B20, ?B9, ?B13, ?B14, ?K20, ?K9, ?K13, ?K14, ?flat_map_app; cbn [flat_map app]; rewrite ?app_nil_r; auto.
  - apply flows_move; [gv|gv|intros z; mw c Iu Tk Ik Du Cn z]. subst k. cbn [flat_map] in Up. unfold payload in Up. rewrite H0, ?Cn in Up. lia.
  - apply flows_move; [gv|gv|intros z; mw c Iu Tk Ik Du Cn z]. subst k. change (flat_map _ l) with (in_hand l) in *. rewrite (plan_in_hand _ _ _ H2) in Up. cbn [flat_map] in Up. rewrite ?Cn in Up. lia.
  - apply flows_move; [gv|gv|intros z; mw c Iu Tk Ik Du Cn z]. subst k. change (flat_map _ l) with (in_hand l) in *. rewrite (plan_some_data _ _ _ H2 H1), (plan_in_hand _ _ _ H2) in Up. cbn [flat_map] in Up. rewrite ?Cn in Up. lia.
  - apply flows_move; [gv|gv|intros z; mw c Iu Tk Ik Du Cn z]. unfold msg_payload in Up.
    destruct (Inv_reachable c R C) as (D & _). specialize (D _ _ H). cbn in D. rewrite D, H0, H1 in Up. lia.
  - exists [pd], []. split; [unfold given; cb; now rewrite app_assoc|]. split; [gv|]. split; [auto|]. split; [congruence|]. intros z. mw c Iu Tk Ik Du Cn z. lia.
  - destruct (hba c); apply flows_move; unfold given, arrived, underway; cb; auto.
  - fields c. apply flows_move; unfold given, arrived, underway, delivered, reads; cb; rewrite ?K20, ?K9, ?K13, ?K14, ?flat_map_app; cbn [flat_map app]; rewrite ?app_nil_r; auto.
  - apply flows_move; [|gv|intros z; unfold underway; cb; lia]. unfold given, delivered. cb. rewrite flat_map_app. cbn [flat_map app]. rewrite H0, <- app_assoc. reflexivity.
  - cbn in C'. discriminate.
Qed.

(** ** Unhurried executions *)
Lemma unhurried_snoc c ls l : unhurried c (ls ++ [l]) -> unhurried c ls.
Proof. intros U pre x post a b E. apply (U pre x (post ++ [l])). rewrite E, <- app_assoc. reflexivity. Qed.
Definition in_line (c : conn) : Prop := length (underway c) <= 1 /\ picked (given c ++ underway c) (arrived c).
Lemma idle_hands c : reachable c -> crash c = None -> mon c = MRead -> flat_map in_hand (hs c) = [].
Proof.
  intros R C M. destruct (one_packet c R C) as [_ H]. apply flat_map_nil. intros k I. apply In_nth_error in I as [i N].
  destruct k as [|x k]; [reflexivity|]. destruct (H i x k N Down (Gen (mkGeneric (mkHeader x00 x00 x00 x00 0%N []) []))) as [K _]. contradiction.
Qed.
Lemma in_line_step c l c' : reachable c -> crash c = None -> stepR c l c' -> crash c' = None ->
  (reads (log c') <> reads (log c) -> Forall (fun d => d = DDone) (ds c)) -> in_line c -> in_line c'.
Proof.
  intros R C S C' Un [L P]. destruct (flow_step c l c' R C S C') as (a & n & G & A & Ln & Rd & K).
  assert (K' : forall x, cnt x (a ++ underway c') <= cnt x (underway c ++ n)) by (intros x; rewrite !cnt_app; apply K).
  assert (L1 : length (underway c ++ n) <= 1).
  { destruct n as [|y n]; [now rewrite app_nil_r|]. destruct Rd as [M N]; [discriminate|]. specialize (Un N).
    assert (underway c = []) as ->.
    { unfold underway. rewrite idle_hands by auto. cbn [app]. apply flat_map_nil. intros d I. now rewrite (proj1 (Forall_forall _ _) Un d I). }
    exact Ln. }
  pose proof (one_or_none _ _ L1 K') as Pk. pose proof (picked_length _ _ Pk) as Lk. rewrite app_length in Lk.
  split; [lia|]. rewrite G, A, <- app_assoc.
  eapply picked_trans; [apply picked_app; [apply picked_refl|exact Pk]|]. rewrite app_assoc. apply picked_app; [exact P|apply picked_refl].
Qed.
Lemma in_line_run m g o ls c : run (start m g o) ls = Some c -> unhurried (start m g o) ls -> crash c = None -> in_line c.
Proof.
  revert c. induction ls as [|l ls IH] using rev_ind; intros c R U C.
  - injection R as <-. split; [cbn; lia|apply picked_nil].
  - rewrite run_app in R. destruct (run (start m g o) ls) as [a|] eqn:Ra; [|discriminate]. cbn [run] in R.
    destruct (step a l) as [b|] eqn:S; [|discriminate]. injection R as <-. destruct (step_stepR _ _ _ S) as [Ca Sr].
    eapply in_line_step; [exists m, g, o, ls; exact Ra|exact Ca|exact Sr|exact C| |apply IH; auto; eapply unhurried_snoc; exact U].
    intros N. exact (U ls l [] a b eq_refl Ra S N).
Qed.
(** what the user gets is in the order of arrival ... *)
Lemma order_kept m g o ls c : run (start m g o) ls = Some c -> unhurried (start m g o) ls -> picked (delivered (log c)) (flat_map payload (reads (log c))).
Proof.
  revert c. destruct ls as [|l ls _] using rev_ind; intros c R U.
  - injection R as <-. constructor.
  - assert (In_line : forall a, crash a = None -> in_line a -> picked (delivered (log a)) (flat_map payload (reads (log a)))).
    { intros a _ [_ P]. eapply picked_trans; [|exact P]. unfold given. rewrite <- (app_nil_r (delivered (log a))) at 1. rewrite <- app_assoc. apply picked_app; [apply picked_refl|apply picked_nil]. }
    destruct (crash c) eqn:C; [|apply In_line; [exact C|eapply in_line_run; eauto]].
    rewrite run_app in R. destruct (run (start m g o) ls) as [a|] eqn:Ra; [|discriminate]. cbn [run] in R.
    destruct (step a l) as [b|] eqn:S; [|discriminate]. injection R as <-. destruct (step_stepR _ _ _ S) as [Ca Sr].
    destruct (step_delivered_crash _ _ _ Ca Sr) as [-> ->]; [congruence|]. apply In_line; [exact Ca|]. eapply in_line_run; eauto. eapply unhurried_snoc; exact U.
Qed.
(** ... and nothing is missing, unless it was refused *)
Lemma order_exact m g o ls c : run (start m g o) ls = Some c -> unhurried (start m g o) ls -> crash c = None -> ctxd c = false -> mon c = MRead ->
  Forall (fun d => d = DDone) (ds c) -> refused_data (log c) = [] -> delivered (log c) ++ dq c = flat_map payload (reads (log c)).
Proof.
  intros R U C X M D F. destruct (in_line_run _ _ _ _ _ R U C) as [_ P].
  assert (Re : reachable c) by (exists m, g, o, ls; exact R).
  pose proof (Permutation_length (nothing_lost c Re C X M D)) as L. rewrite F, app_nil_r in L.
  apply picked_all; [|rewrite L; reflexivity].
  eapply picked_trans; [|exact P]. unfold given. rewrite <- (app_nil_r (delivered (log c) ++ dq c)) at 1. apply picked_app; [apply picked_refl|apply picked_nil].
Qed.

(** ** Any order *)
Record waits (c : conn) : Prop := {
  w_crash : crash c = None; w_mon : mon c = MRead; w_open : sopen c = true; w_ctx : ctxd c = false; w_closed : closed c = false;
  w_state : state c = Active; w_inq : inq c = [] }.
Lemma one_more c raw pd : reachable c -> waits c -> data_packet raw pd ->
  exists ls c' t, run c (LArrive raw :: ls) = Some c' /\ Forall smooth ls /\ waits c' /\ dq c' = dq c /\ us c' = us c /\ dial c' = dial c /\
    ds c' = ds c ++ [DCheck t] /\ msg_payload t = [pd] /\ m_kind t = KData /\ log c' = log c ++ [ERead raw; EUpd Active].
Proof.
  intros R [C M So Cx Cl St Q] (Ln & t & p & V & K & F & E).
  set (ca := set_inq [raw] c).
  assert (Ra : run c [LArrive raw] = Some ca) by (eapply go; [exact C|apply S_arrive|exact C|]; rewrite Q; reflexivity).
  destruct (process ca raw [] (Typed t)) as (rc & ls & c1 & evs & Re & Ou & R1 & F1 & Kp & L1 & S1 & M1 & Q1 & D1 & _); auto.
  { eapply reachable_run; eauto. }
  { intros t' E' B. congruence. }
  destruct Kp as (K1 & K2 & K3 & K4 & K5 & K6 & K7 & K8 & K9 & K10 & K11 & K12 & K13 & K14).
  assert (Ns : next_state (Typed t) (state ca) = Active) by (unfold next_state, names; now rewrite K).
  rewrite Ns in *. assert (P : plan (Typed t) = (Some t, [ICur])) by (unfold plan; now rewrite K). rewrite P in D1. cbn [fst] in D1.
  assert (M2 : mon c1 = MRead) by (rewrite M1; unfold upd_mon; change (state ca) with (state c); now rewrite St).
  assert (evs = []) as ->.
  { inversion Re; subst; cbn in Ou; try congruence.
    - rename H0 into T. unfold reply_table in T. rewrite K in T. discriminate.
    - exfalso. apply H1. unfold silent_table. rewrite K. change (state ca) with (state c). rewrite St. cbn. auto.
    - unfold supported in *. rewrite K in *. discriminate. }
  exists ls, c1, t. split; [change (LArrive raw :: ls) with ([LArrive raw] ++ ls); eapply run_trans; eauto|].
  split; [exact F1|]. clear Ra R1 Re Ou. unfold ca, set_inq in *. cbn [crash sopen ctxd closed state inq dq us dial ds log mode cfg] in *.
  split; [constructor; congruence|]. cbn [app] in L1. cb. unfold msg_payload. rewrite K, F, E. repeat split; auto.
Qed.
Lemma many_more rps : forall c, reachable c -> waits c -> Forall (fun x => data_packet (fst x) (snd x)) rps ->
  exists ls c' ts, run c ls = Some c' /\ arrivals ls = map fst rps /\ Forall (fun l => smooth l \/ exists r, l = LArrive r) ls /\ waits c' /\
    dq c' = dq c /\ us c' = us c /\ dial c' = dial c /\ ds c' = ds c ++ map DCheck ts /\ map msg_payload ts = map (fun x => [snd x]) rps /\
    Forall (fun t => m_kind t = KData) ts /\
    reads (log c') = reads (log c) ++ map fst rps /\ delivered (log c') = delivered (log c).
Proof.
  induction rps as [|[raw pd] rps IH]; intros c R W F.
  - exists [], c, []. rewrite !app_nil_r. repeat split; auto; apply W.
  - inversion F as [|? ? Fx Fr]; subst. cbn [fst snd] in Fx.
    destruct (one_more c raw pd R W Fx) as (l1 & c1 & t & R1 & S1 & W1 & D1 & U1 & Di1 & Ds1 & P1 & K1 & L1).
    destruct (IH c1 (reachable_run _ _ _ R R1) W1 Fr) as (l2 & c2 & ts & R2 & A2 & S2 & W2 & D2 & U2 & Di2 & Ds2 & P2 & K2 & L2 & Dl2).
    exists ((LArrive raw :: l1) ++ l2), c2, (t :: ts). split; [eapply run_trans; eauto|].
    split. { rewrite arrivals_app, A2. cbn [map fst]. f_equal. change (LArrive raw :: l1) with ([LArrive raw] ++ l1). rewrite arrivals_app.
      assert (arrivals l1 = []) as ->; [|reflexivity]. clear -S1. induction S1 as [|l ls H S IH]; [reflexivity|]. destruct l; cbn in *; auto; contradiction. }
    split. { apply Forall_app. split; [|exact S2]. constructor; [eauto|]. eapply Forall_impl; [|exact S1]. auto. }
    split; [exact W2|]. split; [congruence|]. split; [congruence|]. split; [congruence|].
    split; [rewrite Ds2, Ds1, <- app_assoc; reflexivity|]. split; [cbn [map]; now rewrite P1, P2|]. split; [now constructor|].
    rewrite L2, Dl2, L1. unfold reads, delivered. rewrite !flat_map_app. cbn [flat_map app map fst]. rewrite <- app_assoc. now rewrite app_nil_r.
Qed.
Definition fresh_or_done (d : dpc) : Prop := d = DDone \/ exists t pd, d = DCheck t /\ m_kind t = KData /\ msg_payload t = [pd].
Lemma queue_one c i t pd : waits c -> nth_error (ds c) i = Some (DCheck t) -> m_kind t = KData -> msg_payload t = [pd] -> (N.of_nat (length (dq c)) < data_cap)%N ->
  exists c', run c [LData i; LData i; LData i] = Some c' /\ waits c' /\ us c' = us c /\ dial c' = dial c /\ log c' = log c /\ dq c' = dq c ++ [pd] /\ ds c' = upd (ds c) i DDone.
Proof.
  intros [C M So Cx Cl St Q] N K P Cap. unfold msg_payload in P. rewrite K in P.
  destruct (fget FProtocolData (m_f t)) as [p|] eqn:F; [|discriminate]. destruct (ProtocolData p) as [x|e|e] eqn:E; try discriminate. injection P as ->.
  eexists. split.
  - eapply go; [exact C|eapply S_dcheck; [exact N|unfold unlocked; now rewrite M|exact St]|exact C|].
    eapply go; [exact C|eapply S_dpd; [cb; eapply upd_nth_same; exact N|exact F|exact E]|exact C|].
    eapply go; [exact C|eapply S_dsend; [cb; eapply upd_nth_same; eapply upd_nth_same; exact N|exact Cl|exact Cap]|exact C|]. reflexivity.
  - split; [constructor; cb; auto|]. cb. rewrite !upd_upd. auto.
Qed.
Lemma queue_all pds : forall c, waits c -> Forall fresh_or_done (ds c) -> Permutation pds (flat_map in_data (ds c)) ->
  (N.of_nat (length (dq c) + length pds) <= data_cap)%N ->
  exists ls c', run c ls = Some c' /\ Forall (fun l => exists i, l = LData i) ls /\ waits c' /\ us c' = us c /\ dial c' = dial c /\ log c' = log c /\
    dq c' = dq c ++ pds /\ Forall (fun d => d = DDone) (ds c').
Proof.
  induction pds as [|x pds IH]; intros c W F P Cap.
  - exists [], c. rewrite app_nil_r. split; [reflexivity|]. split; [constructor|]. split; [exact W|]. do 4 (split; [reflexivity|]).
    apply Permutation_nil in P. apply Forall_forall. intros d I. destruct (proj1 (Forall_forall _ _) F d I) as [H|(t & pd & -> & _ & Pt)]; [exact H|].
    exfalso. assert (In pd (flat_map in_data (ds c))) as J by (apply in_flat_map; exists (DCheck t); split; [exact I|cbn; rewrite Pt; now left]). now rewrite P in J.
  - assert (I : In x (flat_map in_data (ds c))) by (eapply Permutation_in; [exact P|now left]).
    apply in_flat_map in I as (d & I & X). destruct (proj1 (Forall_forall _ _) F d I) as [->|(t & pd & -> & K & Pt)]; [contradiction X|].
    cbn [in_data] in X. rewrite Pt in X. destruct X as [->|[]]. apply In_nth_error in I as [i N].
    cbn [length] in Cap.
    destruct (queue_one c i t x W N K Pt) as (c1 & R1 & W1 & U1 & Di1 & L1 & D1 & Ds1); [lia|].
    destruct (IH c1 W1) as (ls & c2 & R2 & F2 & W2 & U2 & Di2 & L2 & D2 & A2).
    + rewrite Ds1. apply Forall_forall. intros d J. apply In_nth_error in J as [j J]. destruct (Nat.eq_dec j i) as [->|Nq].
      * rewrite (upd_nth_same _ _ _ _ N) in J. injection J as <-. now left.
      * rewrite upd_nth_other in J by auto. eapply Forall_forall; [exact F|eapply nth_error_In; exact J].
    + apply cnt_perm. intros z. rewrite Ds1. pose proof (cnt_upd in_data (ds c) i _ DDone z N) as Up. cbn [in_data] in Up. rewrite Pt in Up.
      pose proof (proj1 (Permutation_count_occ pd_dec _ _) P z) as Pz. fold (cnt z (x :: pds)) in Pz. fold (cnt z (flat_map in_data (ds c))) in Pz.
      change (x :: pds) with ([x] ++ pds) in Pz. rewrite cnt_app in Pz. change (cnt z []) with 0 in Up. lia.
    + rewrite D1, app_length. cbn [length]. lia.
    + exists ([LData i; LData i; LData i] ++ ls), c2. split; [eapply run_trans; eauto|].
      split; [apply Forall_app; split; [repeat constructor; eauto|exact F2]|]. split; [exact W2|]. repeat (split; [congruence|]).
      split; [rewrite D2, D1, <- app_assoc; reflexivity|exact A2].
Qed.
Lemma any_order c rps pds : reachable c -> waits c -> Forall (fun d => d = DDone) (ds c) -> Forall (fun x => data_packet (fst x) (snd x)) rps ->
  Permutation pds (map snd rps) -> (N.of_nat (length (dq c) + length pds) <= data_cap)%N ->
  exists ls c', run c ls = Some c' /\ arrivals ls = map fst rps /\ Forall (fun l => smooth_data l \/ exists r, l = LArrive r) ls /\ waits c' /\
    us c' = us c /\ dial c' = dial c /\
    reads (log c') = reads (log c) ++ map fst rps /\ delivered (log c') = delivered (log c) /\ dq c' = dq c ++ pds /\ Forall (fun d => d = DDone) (ds c').
Proof.
  intros R W D F P Cap. destruct (many_more rps c R W F) as (l1 & c1 & ts & R1 & A1 & S1 & W1 & D1 & U1 & Di1 & Ds1 & P1 & K1 & L1 & Dl1).
  destruct (queue_all pds c1 W1) as (l2 & c2 & R2 & F2 & W2 & U2 & Di2 & L2 & D2 & A2).
  - rewrite Ds1. apply Forall_app. split; [eapply Forall_impl; [|exact D]; intros d ->; now left|].
    clear -P1 K1. revert rps P1. induction ts as [|t ts IH]; intros rps P1; [constructor|]. destruct rps as [|[r x] rps]; [discriminate|].
    cbn [map snd] in P1. injection P1 as Pt P1. inversion K1; subst. constructor; [right; exists t, x; auto|]. eapply IH; eauto.
  - rewrite Ds1, flat_map_app. assert (flat_map in_data (ds c) = []) as ->.
    { apply flat_map_nil. intros d I. now rewrite (proj1 (Forall_forall _ _) D d I). }
    cbn [app]. rewrite P. apply Permutation_refl'. clear -P1. revert rps P1. induction ts as [|t ts IH]; intros [|[r x] rps] P1; try discriminate; [reflexivity|].
    cbn [map flat_map snd in_data] in *. injection P1 as -> P1. cbn [app]. f_equal. now apply IH.
  - rewrite D1. exact Cap.
  - exists (l1 ++ l2), c2. split; [eapply run_trans; eauto|]. split.
    { rewrite arrivals_app, A1. assert (arrivals l2 = []) as ->; [|apply app_nil_r]. clear -F2. induction F2 as [|l ls [i ->] S IH]; auto. }
    split. { apply Forall_app. split; [eapply Forall_impl; [|exact S1]|eapply Forall_impl; [|exact F2]]; cbn beta; unfold smooth_data; intros l H; [destruct H; auto|auto]. }
    split; [exact W2|]. rewrite L2. repeat (split; [congruence|]). exact A2.
Qed.

(** ... and read in that order *)
Lemma read_all buf pds : forall c, reachable c -> waits c -> dial c = DOk -> dq c = pds ->
  exists ls c', run c ls = Some c' /\ Forall (fun l => l = LCall (OpRead buf) \/ exists i, l = LUser i true) ls /\ waits c' /\
    reads (log c') = reads (log c) /\ delivered (log c') = delivered (log c) ++ pds /\ dq c' = [].
Proof.
  induction pds as [|x pds IH]; intros c R W D Q.
  - exists [], c. rewrite app_nil_r. split; [reflexivity|]. split; [constructor|]. auto.
  - destruct W as [C M So Cx Cl St Iq].
    assert (N1 : forall y, nth_error (us c ++ [y]) (length (us c)) = Some y) by (intros; rewrite nth_error_app2, Nat.sub_diag by lia; reflexivity).
    assert (E : exists c1, run c [LCall (OpRead buf); LUser (length (us c)) true; LUser (length (us c)) true] = Some c1 /\
      waits c1 /\ dial c1 = DOk /\ log c1 = log c ++ [EDeliver x] /\ dq c1 = pds).
    { eexists. split.
      - eapply go; [exact C|eapply S_call; exact D|exact C|].
        eapply go; [exact C|eapply S_check; [cb; apply N1|reflexivity|cb; unfold unlocked; cb; now rewrite M|exact St]|exact C|].
        eapply go; [exact C|eapply S_recv; [cb; eapply upd_nth_same; apply N1|cb; exact Q]|exact C|]. reflexivity.
      - split; [constructor; cb; auto|]. cb. auto. }
    destruct E as (c1 & R1 & W1 & D1 & L1 & Q1).
    destruct (IH c1 (reachable_run _ _ _ R R1) W1 D1 Q1) as (ls & c2 & R2 & F2 & W2 & Rd2 & Dl2 & Q2).
    exists ([LCall (OpRead buf); LUser (length (us c)) true; LUser (length (us c)) true] ++ ls), c2. split; [eapply run_trans; eauto|].
    split; [apply Forall_app; split; [constructor; [now left|constructor; [right; eauto|constructor; [right; eauto|constructor]]]|exact F2]|]. split; [exact W2|].
    rewrite Rd2, Dl2, L1. unfold reads, delivered. rewrite !flat_map_app. cbn [flat_map app]. rewrite app_nil_r, <- app_assoc. auto.
Qed.
(** the packet of a Write is a data packet *)
Lemma written_packet g b : cfg_ok g -> data_overhead g + length b <= 1500 ->
  exists bs, encodes (user_data g b) bs /\ data_packet bs (mkPD (cf_opc g) (cf_dpc g) (cf_si g) (cf_ni g) (cf_mp g) (cf_sls g) b).
Proof.
  intros O L. destruct (payload_delivered g b O) as (bs & t & p & E & V & K & F & P); [lia|]. exists bs. split; [exact E|].
  split; [now apply (data_fits g b bs E)|]. exists t, p. auto.
Qed.
