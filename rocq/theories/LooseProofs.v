(** The connection with a comparison that is not atomic refines the one of ConnModel.v. *)
From Verif Require Import GoBase BaseProofs ParamsModel MessagesModel ConfigModel ConnModel ConnSpec ConnBase ConnInv LooseModel ConnUser ProcProofs.
From Coq Require Import Arith Lia.
Open Scope nat_scope.

Definition sh (h : list (list instr)) (d : list byte) (a : bool) (c : conn) : conn := set_hba a (set_hbd d (set_hs h c)).

Lemma sh_self x : sh (hs x) (hbd x) (hba x) x = x.
Proof. now destruct x. Qed.

(** a step commutes with replacing the goroutines' remaining work and the heartbeat data *)
Lemma WriteSignal_sh o h d a x m ok : WriteSignal o (sh h d a x) m ok = match WriteSignal o x m ok with WOk c n => WOk (sh h d a c) n | WErr => WErr | WPanic p => WPanic p end.
Proof. unfold WriteSignal. change (can_write (sh h d a x) ok) with (can_write x ok). destruct (wire m); [|reflexivity..]. destruct (can_write x ok); reflexivity. Qed.
Lemma WriteSignal_hs o x m ok : match WriteSignal o x m ok with WOk c _ => hs c = hs x | _ => True end.
Proof. unfold WriteSignal. destruct (wire m); auto. destruct (can_write x ok); auto. Qed.
Lemma Close_sh h d a x : Close (sh h d a x) = sh h d a (Close x).
Proof. unfold Close. change (state (emit EClosed (sh h d a x))) with (state x). change (state (emit EClosed x)) with (state x).
  change (closed (emit EClosed (sh h d a x))) with (closed x). change (closed (emit EClosed x)) with (closed x).
  destruct (st_eqb (state x) Down); [reflexivity|]. destruct (closed x); reflexivity. Qed.
Lemma broadcast_sh h d a x : broadcast (sh h d a x) = sh h d a (broadcast x).
Proof. unfold broadcast. change (hb (sh h d a x)) with (hb x). destruct (hb x); reflexivity. Qed.
Lemma state_update_sh h d a s x : state_update s (sh h d a x) = sh h d a (state_update s x).
Proof. unfold state_update. destruct s; try reflexivity.
  - change (mode (emit (EUpd Down) (set_state Down (sh h d a x)))) with (mode x). change (mode (emit (EUpd Down) (set_state Down x))) with (mode x). destruct (mode x); reflexivity.
  - change (mode (emit (EUpd Inactive) (set_state Inactive (sh h d a x)))) with (mode x). change (mode (emit (EUpd Inactive) (set_state Inactive x))) with (mode x). destruct (mode x); reflexivity.
  - change (state (sh h d a x)) with (state x). destruct (st_eqb (state x) Active); reflexivity. Qed.

Lemma mon_sh h d a x ok : mon x <> MRead -> step_mon (sh h d a x) ok = option_map (sh h d a) (step_mon x ok).
Proof.
  intros N. unfold step_mon. change (mon (sh h d a x)) with (mon x). destruct (mon x) as [|o e|s|m| | | |] eqn:M; try reflexivity.
  - change (cfg (emit (ERefused o e) (sh h d a x))) with (cfg x). change (cfg (emit (ERefused o e) x)) with (cfg x).
    destruct (error_reply (cfg x) e) as [[m|]| |]; try reflexivity.
    change (emit (ERefused o e) (sh h d a x)) with (sh h d a (emit (ERefused o e) x)). rewrite WriteSignal_sh.
    destruct (WriteSignal OMon (emit (ERefused o e) x) m ok); reflexivity.
  - rewrite state_update_sh. reflexivity.
  - rewrite WriteSignal_sh. destruct (WriteSignal OMon x m ok); reflexivity.
  - change (closed (sh h d a x)) with (closed x). change (dial (sh h d a x)) with (dial x). destruct (closed x); [reflexivity|].
    destruct (dial x); try reflexivity. change (set_dial DOk (sh h d a x)) with (sh h d a (set_dial DOk x)). rewrite broadcast_sh. reflexivity.
  - congruence.
  - rewrite Close_sh. change (crash (sh h d a (Close x))) with (crash (Close x)). destruct (crash (Close x)); [reflexivity|]. rewrite broadcast_sh. reflexivity.
Qed.
Lemma data_sh h d a x i : step_data (sh h d a x) i = option_map (sh h d a) (step_data x i).
Proof.
  unfold step_data. change (ds (sh h d a x)) with (ds x). destruct (nth_error (ds x) i) as [[m|e|m|pd|]|]; try reflexivity.
  - change (unlocked (sh h d a x)) with (unlocked x). destruct (unlocked x); reflexivity.
  - unfold recv_err. change (mon (set_ds (upd (ds x) i DDone) (sh h d a x))) with (mon x). change (mon (set_ds (upd (ds x) i DDone) x)) with (mon x).
    destruct (mon x); reflexivity.
  - destruct (fget FProtocolData (m_f m)) as [p|]; [|reflexivity]. destruct (ProtocolData p); reflexivity.
  - change (closed (sh h d a x)) with (closed x). change (dq (sh h d a x)) with (dq x). destruct (closed x); [reflexivity|].
    destruct (N.of_nat (length (dq x)) <? data_cap)%N; reflexivity.
Qed.
Lemma hb_sh h d a x ok : exists d' a', step_hb (sh h d a x) ok = option_map (sh h d' a') (step_hb x ok).
Proof.
  unfold step_hb. change (hb (sh h d a x)) with (hb x). destruct (hb x) as [| | | |b|b| | |e|]; try (exists d, a; reflexivity).
  - exists d, a. destruct ok; reflexivity.
  - exists d, a. rewrite WriteSignal_sh. destruct (WriteSignal OHb x (beat b) ok); reflexivity.
  - exists b, true. reflexivity.
  - exists d, a. change (closed (sh h d a x)) with (closed x). destruct (closed x); reflexivity.
  - exists d, a. unfold recv_err. change (mon (set_hb BDone (sh h d a x))) with (mon x). change (mon (set_hb BDone x)) with (mon x). destruct (mon x); reflexivity.
Qed.
Lemma user_sh h d a x i ok : step_user (sh h d a x) i ok = option_map (sh h d a) (step_user x i ok).
Proof.
  unfold step_user. change (us (sh h d a x)) with (us x). destruct (nth_error (us x) i) as [[op|buf|s m|r]|]; try reflexivity.
  - change (unlocked (sh h d a x)) with (unlocked x). change (maxs (sh h d a x)) with (maxs x). destruct op.
    + destruct (unlocked x); reflexivity.
    + destruct (unlocked x); reflexivity.
    + destruct (choose_stream (maxs x) rnd) as [[s|]| |]; reflexivity.
    + destruct (unlocked x); reflexivity.
    + destruct (choose_stream (maxs x) rnd) as [[s|]| |]; reflexivity.
    + destruct (unlocked x); reflexivity.
    + rewrite WriteSignal_sh. destruct (WriteSignal (OUser i) x m ok); reflexivity.
    + destruct (unlocked x); [|reflexivity]. rewrite Close_sh. change (crash (sh h d a (Close x))) with (crash (Close x)). change (us (sh h d a (Close x))) with (us (Close x)).
      destruct (crash (Close x)); reflexivity.
    + destruct (unlocked x); reflexivity.
  - change (dq (sh h d a x)) with (dq x). change (closed (sh h d a x)) with (closed x). destruct (dq x); [|reflexivity]. destruct (closed x); reflexivity.
  - change (can_write (sh h d a x) ok) with (can_write x ok). destruct (m3_MarshalBinary m) as [[n b]| |]; [|reflexivity..]. destruct (can_write x ok); reflexivity.
Qed.

(** steps that are not of a packet goroutine: at most one goroutine is added *)
Lemma other_sh x l y : step x l = Some y -> hand_of l = None ->
  exists es, hs y = hs x ++ es /\ forall h d a, exists d' a', step (sh h d a x) l = Some (sh (h ++ es) d' a' y).
Proof.
  intros S N. assert (C : crash x = None) by (unfold step in S; destruct (crash x); [discriminate|reflexivity]).
  assert (Same : (forall h d a, exists d' a', step (sh h d a x) l = option_map (sh h d' a') (step x l)) ->
    exists es, hs y = hs x ++ es /\ forall h d a, exists d' a', step (sh h d a x) l = Some (sh (h ++ es) d' a' y)).
  { intros H. exists []. split.
    - destruct (H (hs x) (hbd x) (hba x)) as (d & a & E). rewrite sh_self, S in E. cbn in E. injection E as E. rewrite app_nil_r, E. reflexivity.
    - intros h d a. destruct (H h d a) as (d' & a' & E). exists d', a'. rewrite E, S, app_nil_r. reflexivity. }
  unfold step in *. change (crash (sh _ _ _ x)) with (crash x) in *. rewrite C in *.
  destruct l; try discriminate N; cbn [hand_of] in N; clear N.
  - apply Same. intros h d a. exists d, a. reflexivity.
  - apply Same. intros h d a. exists d, a. reflexivity.
  - apply Same. intros h e a. exists d, false. reflexivity.
  - apply Same. intros h d a. exists d, a. change (ini (sh h d a x)) with (ini x). change (mon (sh h d a x)) with (mon x).
    destruct (ini x); [|reflexivity]. destruct (mon x); reflexivity.
  - assert (M : mon x = MRead \/ mon x <> MRead) by (destruct (mon x); auto; right; discriminate). destruct M as [M|M].
    2:{ apply Same. intros h d a. exists d, a. apply mon_sh. exact M. }
    unfold step_mon in S. rewrite M in S. destruct (ok && sopen x) eqn:O.
    2:{ apply Same. intros h d a. exists d, a. unfold step_mon. change (mon (sh h d a x)) with (mon x). rewrite M.
        change (sopen (sh h d a x)) with (sopen x). rewrite O. reflexivity. }
    destruct (inq x) as [|p q] eqn:I; [discriminate|]. injection S as <-. exists [[IParse (firstn bufsize p)]]. split; [reflexivity|].
    intros h d a. exists d, a. unfold step_mon. change (mon (sh h d a x)) with (mon x). rewrite M.
    change (sopen (sh h d a x)) with (sopen x). rewrite O. change (inq (sh h d a x)) with (inq x). rewrite I. reflexivity.
  - apply Same. intros h d a. exists d, a. change (ctxd (sh h d a x)) with (ctxd x). change (mon (sh h d a x)) with (mon x).
    destruct (mon x); try reflexivity. destruct (ctxd x); reflexivity.
  - apply Same. intros h d a. exists d, a. apply data_sh.
  - apply Same. intros h d a. exists d, a. change (ctxd (sh h d a x)) with (ctxd x). change (ds (sh h d a x)) with (ds x).
    destruct (nth_error (ds x) i) as [[]|]; try reflexivity. destruct (ctxd x); reflexivity.
  - apply Same. intros h d a. apply hb_sh.
  - apply Same. intros h e a. change (hb (sh h e a x)) with (hb x). change (hba (sh h e a x)) with a.
    destruct (hb x); try (exists e, a; reflexivity). destruct (length d =? 128); [|exists e, a; reflexivity].
    destruct (hba x), a; solve [exists d, true; reflexivity | exists e, false; reflexivity | exists e, true; reflexivity | exists d, false; reflexivity].
  - apply Same. intros h d a. exists d, a. change (hb (sh h d a x)) with (hb x). destruct (hb x); reflexivity.
  - apply Same. intros h d a. exists d, a. change (hb (sh h d a x)) with (hb x). change (ctxd (sh h d a x)) with (ctxd x).
    destruct (hb x); try reflexivity; destruct (ctxd x); reflexivity.
  - apply Same. intros h d a. exists d, a. change (dial (sh h d a x)) with (dial x). change (closed (sh h d a x)) with (closed x).
    destruct (dial x); try reflexivity; destruct (closed x); reflexivity.
  - apply Same. intros h d a. exists d, a. change (dial (sh h d a x)) with (dial x). destruct (dial x); reflexivity.
  - apply Same. intros h d a. exists d, a. change (dial (sh h d a x)) with (dial x). destruct (dial x); reflexivity.
  - apply Same. intros h d a. exists d, a. apply user_sh.
Qed.

(** packet goroutines other than those at handleHeartbeatAck *)
Definition moves_on x i ok y : Prop :=
  (exists l, hs y = upd (hs x) i l /\ forall h d a, nth_error h i = nth_error (hs x) i -> step_hand (sh h d a x) i ok = Some (sh (upd h i l) d a y)) \/
  (hs y = hs x /\ forall h d a, nth_error h i = nth_error (hs x) i -> step_hand (sh h d a x) i ok = Some (sh h d a y)).
Lemma handle_any g d d' s m : m_kind m <> KHeartbeatAck -> handle g d s m = handle g d' s m.
Proof. intros N. unfold handle. destruct (m_kind m); try reflexivity; congruence. Qed.
Lemma hand_moves x i ok y : step_hand x i ok = Some y -> at_ack x i = None -> moves_on x i ok y.
Proof.
  intros S N. unfold at_ack in N. unfold step_hand in S. destruct (nth_error (hs x) i) as [[|z k]|] eqn:E; try discriminate S.
  unfold moves_on. rewrite E.
  assert (Go : forall l, Some (set_hs (upd (hs x) i l) x) = Some y -> (forall h d a, nth_error h i = Some (z :: k) -> step_hand (sh h d a x) i ok = Some (set_hs (upd h i l) (sh h d a x))) ->
    (exists l, hs y = upd (hs x) i l /\ forall h d a, nth_error h i = Some (z :: k) -> step_hand (sh h d a x) i ok = Some (sh (upd h i l) d a y)) \/
    (hs y = hs x /\ forall h d a, nth_error h i = Some (z :: k) -> step_hand (sh h d a x) i ok = Some (sh h d a y))).
  { intros l Y H. injection Y as <-. left. exists l. split; [reflexivity|]. intros h d a Hn. rewrite (H h d a Hn). reflexivity. }
  assert (Die : forall p, Some (panicking p x) = Some y -> (forall h d a, nth_error h i = Some (z :: k) -> step_hand (sh h d a x) i ok = Some (panicking p (sh h d a x))) ->
    (exists l, hs y = upd (hs x) i l /\ forall h d a, nth_error h i = Some (z :: k) -> step_hand (sh h d a x) i ok = Some (sh (upd h i l) d a y)) \/
    (hs y = hs x /\ forall h d a, nth_error h i = Some (z :: k) -> step_hand (sh h d a x) i ok = Some (sh h d a y))).
  { intros p Y H. injection Y as <-. right. split; [reflexivity|]. intros h d a Hn. rewrite (H h d a Hn). reflexivity. }
  destruct z.
  - destruct (Parse raw) eqn:P; [apply (Go [ISig a])|apply (Go [])|apply (Die p)]; auto; intros h d b Hn; unfold step_hand; cbn [hs sh set_hba set_hbd set_hs]; rewrite Hn, P; reflexivity.
  - destruct (ctxd x) eqn:Cx.
    { apply (Go []); auto. intros h d b Hn. unfold step_hand. cbn [hs ctxd sh set_hba set_hbd set_hs]. rewrite Hn, Cx. reflexivity. }
    destruct (negb (b2n (Version m) =? 1)%N) eqn:V.
    { apply (Go [IErr (EInvalidVersion (Version m))]); auto. intros h d b Hn. unfold step_hand. cbn [hs ctxd sh set_hba set_hbd set_hs]. rewrite Hn, Cx, V. reflexivity. }
    destruct (plan m) as [[t|] l] eqn:Pl.
    + injection S as <-. left. exists l. split; [reflexivity|]. intros h d b Hn. unfold step_hand. cbn [hs ctxd sh set_hba set_hbd set_hs]. rewrite Hn, Cx, V, Pl. reflexivity.
    + apply (Go l); auto. intros h d b Hn. unfold step_hand. cbn [hs ctxd sh set_hba set_hbd set_hs]. rewrite Hn, Cx, V, Pl. reflexivity.
  - assert (Nk : m_kind m <> KHeartbeatAck) by (intros K; rewrite K in N; discriminate). clear N.
    destruct (unlocked x) eqn:U; [|discriminate].
    assert (H : forall h d a, nth_error h i = Some (IHandle m :: k) -> step_hand (sh h d a x) i ok =
      match handle (cfg x) (hbd x) (state x) m with
      | HNil => Some (set_hs (upd h i k) (sh h d a x))
      | HErr e => Some (set_hs (upd h i (IErr e :: k)) (sh h d a x))
      | HReply r => Some (set_hs (upd h i (IWrite r :: k)) (sh h d a x))
      | HPanic p => Some (panicking p (sh h d a x))
      end).
    { intros h d a Hn. unfold step_hand. change (unlocked (sh h d a x)) with (unlocked x). cbn [hs hbd cfg state sh set_hba set_hbd set_hs].
      rewrite Hn, U, (handle_any (cfg x) d (hbd x) (state x) m Nk). reflexivity. }
    destruct (handle (cfg x) (hbd x) (state x) m) eqn:Hd; [apply (Go k)|apply (Go (IErr e :: k))|apply (Go (IWrite m0 :: k))|apply (Die p)]; auto.
  - pose proof (WriteSignal_hs (OHand i) x m ok) as Wh.
    assert (H : forall h d a, nth_error h i = Some (IWrite m :: k) -> step_hand (sh h d a x) i ok =
      match WriteSignal (OHand i) x m ok with
      | WOk c _ => Some (set_hs (upd h i k) (sh h d a c))
      | WErr => Some (set_hs (upd h i (IErr EWriteSignal :: k)) (sh h d a x))
      | WPanic p => Some (panicking p (sh h d a x))
      end).
    { intros h d a Hn. unfold step_hand. change (hs (sh h d a x)) with h. rewrite Hn. cbv beta iota zeta. rewrite WriteSignal_sh. destruct (WriteSignal (OHand i) x m ok); reflexivity. }
    destruct (WriteSignal (OHand i) x m ok) as [c n| |p].
    + injection S as <-. left. exists k. cbn [hs set_hs]. rewrite Wh. split; [reflexivity|]. intros h d a Hn. rewrite (H h d a Hn). reflexivity.
    + apply (Go (IErr EWriteSignal :: k)); auto.
    + apply (Die p); auto.
  - unfold recv_err in S. cbn [mon set_hs] in S. destruct (mon x) eqn:M; try discriminate. injection S as <-. left. exists k. split; [reflexivity|].
    intros h d a Hn. unfold step_hand, recv_err. cbn [hs mon sh set_hba set_hbd set_hs]. rewrite Hn, M. reflexivity.
  - destruct (closed x) eqn:K.
    { apply (Die PSendClosed); auto. intros h d a Hn. unfold step_hand. cbn [hs closed sh set_hba set_hbd set_hs]. rewrite Hn, K. reflexivity. }
    destruct (hb x) eqn:B; try discriminate. injection S as <-. left. exists k. split; [reflexivity|].
    intros h d a Hn. unfold step_hand. cbn [hs hb closed sh set_hba set_hbd set_hs]. rewrite Hn, K, B. reflexivity.
  - destruct (unlocked x) eqn:U; [|discriminate]. apply (Go (ISt (state x) :: k)); auto.
    intros h d a Hn. unfold step_hand. change (unlocked (sh h d a x)) with (unlocked x). cbn [hs state sh set_hba set_hbd set_hs]. rewrite Hn, U. reflexivity.
  - destruct (mon x) eqn:M; try discriminate. injection S as <-. left. exists k. split; [reflexivity|].
    intros h d a Hn. unfold step_hand. cbn [hs mon sh set_hba set_hbd set_hs]. rewrite Hn, M. reflexivity.
Qed.

(** ** The simulation *)
(** what the comparison of this goroutine is going to say *)
Fixpoint prophecy (xs : list xlabel) (i : nat) : bool :=
  match xs with
  | [] => true
  | XCompare j b :: r => if i =? j then b else prophecy r i
  | _ :: r => prophecy r i
  end.
Definition decide (b : bool) (l : list instr) : list instr :=
  match l with
  | IHandle m :: k =>
      match fget FHeartbeatData (m_f m) with
      | None => l
      | Some _ => if b then k else IErr (EUnexpected (Typed m)) :: k
      end
  | _ => l
  end.
Definition resolved (s : loose) (f : nat -> bool) (h : list (list instr)) : Prop :=
  forall i, nth_error h i = option_map (fun l => if comparing s i then decide (f i) l else l) (nth_error (hs (l_conn s)) i).
Definition pending (s : loose) : Prop := forall i, comparing s i = true -> at_ack (l_conn s) i <> None.

Lemma nth_app_some {A} (l e : list A) i x : nth_error l i = Some x -> nth_error (l ++ e) i = Some x.
Proof. intros H. rewrite nth_error_app1; auto. apply nth_error_Some. congruence. Qed.
Lemma pending_has s i : pending s -> comparing s i = true -> exists m k, nth_error (hs (l_conn s)) i = Some (IHandle m :: k) /\ m_kind m = KHeartbeatAck.
Proof.
  intros P C. specialize (P i C). unfold at_ack in P. destruct (nth_error (hs (l_conn s)) i) as [[|[] k]|]; try congruence.
  destruct (m_kind m) eqn:K; try congruence. eauto.
Qed.
Lemma at_ack_nth c i m k : at_ack c i = Some (m, k) -> nth_error (hs c) i = Some (IHandle m :: k) /\ m_kind m = KHeartbeatAck.
Proof. unfold at_ack. destruct (nth_error (hs c) i) as [[|[] l]|]; try discriminate. destruct (m_kind m0) eqn:K; try discriminate. intros [= <- <-]. auto. Qed.
Lemma nth_at_ack c i m k : nth_error (hs c) i = Some (IHandle m :: k) -> m_kind m = KHeartbeatAck -> at_ack c i = Some (m, k).
Proof. unfold at_ack. intros -> ->. reflexivity. Qed.
Lemma length_resolved s f h : resolved s f h -> length h = length (hs (l_conn s)).
Proof.
  intros R. apply Nat.le_antisymm; apply Nat.nlt_ge; intros L.
  - assert (E := R (length (hs (l_conn s)))). rewrite (proj2 (nth_error_None (hs (l_conn s)) _)) in E by lia. cbn in E. apply nth_error_None in E. lia.
  - assert (E := R (length h)). rewrite (proj2 (nth_error_None h _)) in E by lia. destruct (nth_error (hs (l_conn s)) (length h)) eqn:N; [discriminate|]. apply nth_error_None in N. lia.
Qed.
Lemma comparing_cons c l i j : comparing (mkLoose c (i :: l)) j = (j =? i) || comparing (mkLoose c l) j.
Proof. reflexivity. Qed.
Lemma comparing_filter c l i j : comparing (mkLoose c (filter (fun j => negb (i =? j)) l)) j = negb (i =? j) && comparing (mkLoose c l) j.
Proof.
  unfold comparing. cbn [l_cmp]. induction l as [|x l IH]; cbn [filter existsb]; [now rewrite andb_false_r|].
  destruct (i =? x) eqn:E; cbn [negb existsb]; rewrite IH.
  - apply Nat.eqb_eq in E. subst x. destruct (j =? i) eqn:J; [|reflexivity]. apply Nat.eqb_eq in J. subst. rewrite Nat.eqb_refl. reflexivity.
  - destruct (j =? x) eqn:J; [|reflexivity]. apply Nat.eqb_eq in J. subst x. rewrite E. reflexivity.
Qed.
Lemma prophecy_skip x xs i : (forall b, x <> XCompare i b) -> prophecy (x :: xs) i = prophecy xs i.
Proof. destruct x; try reflexivity. intros N. cbn. destruct (i =? i0) eqn:E; [|reflexivity]. apply Nat.eqb_eq in E. subst. exfalso. now apply (N equal). Qed.

(** handleHeartbeatAck in one step *)
Lemma ack_step c i m k : crash c = None -> at_ack c i = Some (m, k) -> unlocked c = true -> forall ok, step c (LHand i ok) =
  if st_eqb (state c) Active then
    match fget FHeartbeatData (m_f m) with
    | None => Some (panicking PNil c)
    | Some p => if list_eq_dec Byte.byte_eq_dec (HeartbeatData p) (hbd c) then Some (set_hs (upd (hs c) i k) c)
                else Some (set_hs (upd (hs c) i (IErr (EUnexpected (Typed m)) :: k)) c)
    end
  else Some (set_hs (upd (hs c) i (IErr (EUnexpected (Typed m)) :: k)) c).
Proof.
  intros C A U ok. apply at_ack_nth in A as [N K]. unfold step, step_hand. rewrite C, N, U. unfold handle. rewrite K.
  destruct (st_eqb (state c) Active); [|reflexivity]. cbn [negb]. destruct (fget FHeartbeatData (m_f m)); [|reflexivity].
  destruct (list_eq_dec Byte.byte_eq_dec (HeartbeatData p) (hbd c)); reflexivity.
Qed.

(** the ordinary connection that has already made the comparisons under way *)
Definition ahead (s : loose) (f : nat -> bool) (c : conn) : Prop := exists h d a, c = sh h d a (l_conn s) /\ resolved s f h.



