(** Proofs about RaceSpec.v. *)
From Verif Require Import GoBase ParamsModel MessagesModel ConfigModel ConnModel ConnSpec ConnBase ConnInv ProcProofs RaceSpec.
From Coq Require Import Arith Lia.
Open Scope nat_scope.

Definition checks_ack (c : conn) (l : label) : Prop :=
  exists i ok m k p, l = LHand i ok /\ nth_error (hs c) i = Some (IHandle m :: k) /\ m_kind m = KHeartbeatAck /\
    state c = Active /\ fget FHeartbeatData (m_f m) = Some p /\ unlocked c = true.

Lemma handle_indep g a b s m :
  handle g a s m = handle g b s m \/
  (m_kind m = KHeartbeatAck /\ s = Active /\ exists p, fget FHeartbeatData (m_f m) = Some p).
Proof.
  unfold handle. destruct (m_kind m); auto.
  destruct s; cbn [st_eqb negb]; auto.
  destruct (fget FHeartbeatData (m_f m)) eqn:E; auto. right. eauto.
Qed.

(** every function of the model but [handle] passes the data through *)
Lemma WriteSignal_hbd o v c m ok :
  WriteSignal o (set_hbd v c) m ok = match WriteSignal o c m ok with WOk c' n => WOk (set_hbd v c') n | x => x end.
Proof.
  unfold WriteSignal. destruct (wire m); auto. unfold can_write. change (sopen (set_hbd v c)) with (sopen c).
  destruct (ok && sopen c); reflexivity.
Qed.
Lemma Close_hbd v c : Close (set_hbd v c) = set_hbd v (Close c).
Proof.
  unfold Close. change (state (emit EClosed (set_hbd v c))) with (state c). change (state (emit EClosed c)) with (state c).
  change (closed (emit EClosed (set_hbd v c))) with (closed c). change (closed (emit EClosed c)) with (closed c).
  destruct (st_eqb (state c) Down); [reflexivity|]. destruct (closed c); reflexivity.
Qed.
Lemma broadcast_hbd v c : broadcast (set_hbd v c) = set_hbd v (broadcast c).
Proof. unfold broadcast. change (hb (set_hbd v c)) with (hb c). destruct (hb c); reflexivity. Qed.
Lemma state_update_hbd v s c : state_update s (set_hbd v c) = set_hbd v (state_update s c).
Proof.
  unfold state_update. change (state (set_hbd v c)) with (state c).
  change (mode (emit (EUpd s) (set_state s (set_hbd v c)))) with (mode c).
  change (mode (emit (EUpd s) (set_state s c))) with (mode c).
  destruct s; try reflexivity; try (destruct (mode c); reflexivity).
  destruct (st_eqb (state c) Active); reflexivity.
Qed.

Definition lift (v : list byte) (o : option conn) : option conn :=
  match o with Some c => Some (set_hbd v c) | None => None end.
Lemma lift_rest v o : rest (lift v o) = rest o.
Proof. destruct o; reflexivity. Qed.

Lemma mon_hbd v c ok : step_mon (set_hbd v c) ok = lift v (step_mon c ok).
Proof.
  unfold step_mon. change (mon (set_hbd v c)) with (mon c). destruct (mon c) as [|o e|s|m| | | |]; try reflexivity.
  - change (emit (ERefused o e) (set_hbd v c)) with (set_hbd v (emit (ERefused o e) c)).
    set (c1 := emit _ c). change (cfg (set_hbd v c1)) with (cfg c1). destruct (error_reply (cfg c1) e) as [[m|]|x|p]; try reflexivity.
    rewrite WriteSignal_hbd. destruct (WriteSignal OMon c1 m ok); reflexivity.
  - rewrite state_update_hbd. reflexivity.
  - rewrite WriteSignal_hbd. destruct (WriteSignal OMon c m ok); reflexivity.
  - change (closed (set_hbd v c)) with (closed c). destruct (closed c); [reflexivity|].
    change (dial (set_hbd v c)) with (dial c). destruct (dial c); try reflexivity.
    change (set_dial DOk (set_hbd v c)) with (set_hbd v (set_dial DOk c)). rewrite broadcast_hbd. reflexivity.
  - change (sopen (set_hbd v c)) with (sopen c). destruct (ok && sopen c); [|reflexivity].
    change (inq (set_hbd v c)) with (inq c). destruct (inq c); reflexivity.
  - rewrite Close_hbd. change (crash (set_hbd v (Close c))) with (crash (Close c)). destruct (crash (Close c)); [reflexivity|].
    rewrite broadcast_hbd. reflexivity.
Qed.

Lemma recv_hbd v o e c : recv_err o e (set_hbd v c) = lift v (recv_err o e c).
Proof. unfold recv_err. change (mon (set_hbd v c)) with (mon c). destruct (mon c); reflexivity. Qed.

Lemma data_hbd v c i : step_data (set_hbd v c) i = lift v (step_data c i).
Proof.
  unfold step_data. change (ds (set_hbd v c)) with (ds c). destruct (nth_error (ds c) i) as [[m|e|m|pd|]|]; try reflexivity.
  - change (unlocked (set_hbd v c)) with (unlocked c). destruct (unlocked c); reflexivity.
  - change (set_ds (upd (ds c) i DDone) (set_hbd v c)) with (set_hbd v (set_ds (upd (ds c) i DDone) c)). apply recv_hbd.
  - destruct (fget FProtocolData (m_f m)) as [p|]; [|reflexivity]. destruct (ProtocolData p); reflexivity.
  - change (closed (set_hbd v c)) with (closed c). destruct (closed c); [reflexivity|].
    change (dq (set_hbd v c)) with (dq c). destruct (N.of_nat (length (dq c)) <? data_cap)%N; reflexivity.
Qed.

Lemma user_hbd v c i ok : step_user (set_hbd v c) i ok = lift v (step_user c i ok).
Proof.
  unfold step_user. change (us (set_hbd v c)) with (us c).
  destruct (nth_error (us c) i) as [[op|buf|s m|r]|]; try reflexivity.
  - destruct op as [b| |b rnd|b s|pd rnd|pd s|m| |];
      change (unlocked (set_hbd v c)) with (unlocked c); try (destruct (unlocked c); reflexivity).
    + change (maxs (set_hbd v c)) with (maxs c). destruct (choose_stream (maxs c) rnd) as [[s|]|x|p]; reflexivity.
    + change (maxs (set_hbd v c)) with (maxs c). destruct (choose_stream (maxs c) rnd) as [[s|]|x|p]; reflexivity.
    + rewrite WriteSignal_hbd. destruct (WriteSignal (OUser i) c m ok); reflexivity.
    + destruct (unlocked c); [|reflexivity]. rewrite Close_hbd. change (crash (set_hbd v (Close c))) with (crash (Close c)).
      destruct (crash (Close c)); reflexivity.
  - change (dq (set_hbd v c)) with (dq c). destruct (dq c); [|reflexivity].
    change (closed (set_hbd v c)) with (closed c). destruct (closed c); reflexivity.
  - destruct (m3_MarshalBinary m) as [[? b]|x|p]; try reflexivity.
    unfold can_write. change (sopen (set_hbd v c)) with (sopen c). destruct (ok && sopen c); reflexivity.
Qed.

Lemma reads_only c l v : rest (step c l) <> rest (step (set_hbd v c) l) -> checks_ack c l.
Proof.
  intros N. unfold step in N. change (crash (set_hbd v c)) with (crash c) in N.
  destruct (crash c) eqn:C; [now destruct N|].
  destruct l as [p|  |d|  |ok|  |i ok|i|i|ok|d| | | | |op|i ok]; try (now destruct N).
  - change (ini (set_hbd v c)) with (ini c) in N. change (mon (set_hbd v c)) with (mon c) in N.
    destruct (ini c), (mon c); now destruct N.
  - rewrite mon_hbd, lift_rest in N. now destruct N.
  - change (ctxd (set_hbd v c)) with (ctxd c) in N. change (mon (set_hbd v c)) with (mon c) in N.
    destruct (mon c), (ctxd c); now destruct N.
  - unfold step_hand in N. change (hs (set_hbd v c)) with (hs c) in N.
    destruct (nth_error (hs c) i) as [[|x k]|] eqn:E; try (now destruct N).
    destruct x as [raw|m|m|m|e| | |s].
    + destruct (Parse raw); now destruct N.
    + change (ctxd (set_hbd v c)) with (ctxd c) in N. destruct (ctxd c); [now destruct N|].
      destruct (negb _); [now destruct N|]. destruct (plan m) as [[t|] l]; now destruct N.
    + change (unlocked (set_hbd v c)) with (unlocked c) in N. destruct (unlocked c) eqn:U; [|now destruct N].
      change (cfg (set_hbd v c)) with (cfg c) in N. change (state (set_hbd v c)) with (state c) in N.
      change (hbd (set_hbd v c)) with v in N.
      destruct (handle_indep (cfg c) (hbd c) v (state c) m) as [H|(K & S & p & P)].
      * exfalso. apply N. rewrite H. destruct (handle (cfg c) v (state c) m); reflexivity.
      * exists i, ok, m, k, p. auto 10.
    + rewrite WriteSignal_hbd in N. destruct (WriteSignal (OHand i) c m ok); now destruct N.
    + change (set_hs (upd (hs c) i k) (set_hbd v c)) with (set_hbd v (set_hs (upd (hs c) i k) c)) in N.
      rewrite recv_hbd, lift_rest in N. now destruct N.
    + change (closed (set_hbd v c)) with (closed c) in N. destruct (closed c); [now destruct N|].
      change (hb (set_hbd v c)) with (hb c) in N. destruct (hb c); now destruct N.
    + change (unlocked (set_hbd v c)) with (unlocked c) in N. destruct (unlocked c); now destruct N.
    + change (mon (set_hbd v c)) with (mon c) in N. destruct (mon c); now destruct N.
  - rewrite data_hbd, lift_rest in N. now destruct N.
  - change (ctxd (set_hbd v c)) with (ctxd c) in N. change (ds (set_hbd v c)) with (ds c) in N.
    destruct (nth_error (ds c) i) as [[| | | |]|], (ctxd c); now destruct N.
  - unfold step_hb in N. change (hb (set_hbd v c)) with (hb c) in N. change (cfg (set_hbd v c)) with (cfg c) in N.
    change (closed (set_hbd v c)) with (closed c) in N.
    destruct (hb c) as [| | | |d|d| | |e|]; try (now destruct N).
    + destruct ok; now destruct N.
    + rewrite WriteSignal_hbd in N. destruct (WriteSignal OHb c (beat d) ok); now destruct N.
    + destruct (closed c); now destruct N.
    + change (set_hb BDone (set_hbd v c)) with (set_hbd v (set_hb BDone c)) in N. rewrite recv_hbd, lift_rest in N. now destruct N.
  - change (hb (set_hbd v c)) with (hb c) in N. change (hba (set_hbd v c)) with (hba c) in N.
    destruct (hb c), (hba c), (length d =? 128); now destruct N.
  - change (hb (set_hbd v c)) with (hb c) in N. destruct (hb c); now destruct N.
  - change (hb (set_hbd v c)) with (hb c) in N. change (ctxd (set_hbd v c)) with (ctxd c) in N.
    destruct (hb c), (ctxd c); now destruct N.
  - change (dial (set_hbd v c)) with (dial c) in N. change (closed (set_hbd v c)) with (closed c) in N.
    destruct (dial c), (closed c); now destruct N.
  - change (dial (set_hbd v c)) with (dial c) in N. destruct (dial c); now destruct N.
  - change (dial (set_hbd v c)) with (dial c) in N. destruct (dial c); now destruct N.
  - rewrite user_hbd, lift_rest in N. now destruct N.
Qed.

Lemma writes_only c l : writes c l ->
  (exists d, l = LOtherBeat d) \/
  (by_ l = GBeat /\ ((exists d, hb c = BStore d) \/ (hb c = BRand /\ hba c = true))).
Proof.
  intros (c' & S & N). apply step_stepR in S as [_ S].
  destruct S; try (exfalso; apply N; reflexivity); eauto 6.
  - exfalso. apply N. rewrite state_update_eq. reflexivity.
  - exfalso. apply N. cb. bfields0. reflexivity.
  - exfalso. apply N. cb. bfields0. cb. bfields0. reflexivity.
  - destruct (hba c) eqn:A; [right; auto|]. exfalso. apply N. reflexivity.
  - exfalso. apply N. cb. bfields0. reflexivity.
Qed.

Lemma disabled_no_race c : reachable c -> hb_on (cfg c) = false -> forall l, by_ l <> GOther -> ~ writes c l.
Proof.
  intros R F l O W. destruct (writes_only c l W) as [(d & ->)|(_ & H)]; [now apply O|].
  destruct W as (c' & S & _). apply step_stepR in S as [C _].
  destruct (Inv_reachable c R C) as (_ & B & _).
  destruct H as [(d & H)|[H _]]; rewrite H in B; cbn [bok] in B; congruence.
Qed.

Lemma race_only c : race c -> exists l l', by_ l <> by_ l' /\ (by_ l = GBeat \/ by_ l = GOther) /\
  (checks_ack c l' \/ by_ l' = GBeat \/ by_ l' = GOther).
Proof.
  intros (l & l' & N & W & X). exists l, l'. split; [exact N|].
  assert (K : forall k, writes c k -> by_ k = GBeat \/ by_ k = GOther).
  { intros k Wk. destruct (writes_only c k Wk) as [(d & ->)|(H & _)]; auto. }
  split; [auto|]. destruct X as [(v & X)|X]; [left; exact (reads_only _ _ _ X)|right; auto].
Qed.

