(** The spacing of BEATs is exact: a peer that answers at once gets one per interval. *)
From Verif Require Import GoBase ParamsModel MessagesModel ConfigModel ConnModel ConnSpec ConnBase ConnInv ConnUser ConnMacro ConnStable ConnBeat ConnLife
  TimeModel TimeSpec TimeProofs.
From Coq Require Import Arith ZArith Lia.
Open Scope nat_scope.

(** established, heartbeats running, the ack of the last BEAT outstanding *)
Definition beating (d : list byte) (c : conn) : Prop :=
  crash c = None /\ mon c = MRead /\ closed c = false /\ sopen c = true /\ ctxd c = false /\ state c = Active /\
  inq c = [] /\ hb c = BAck /\ hbd c = d.
Definition take_ack (i : nat) (d : list byte) : list label :=
  [LArrive (beat_back d); LMon true; LHand i true; LHand i true; LHand i true; LHand i true; LHand i true; LHand i true; LMon true].
Definition send_beat (d : list byte) : list label := [LHbRand d; LHb true; LHb true].

Lemma nth_snoc {A} (l : list A) x : nth_error (l ++ [x]) (length l) = Some x.
Proof. rewrite nth_error_app2, Nat.sub_diag by lia. reflexivity. Qed.
Lemma upd_snoc {A} (l : list A) x y : upd (l ++ [x]) (length l) y = l ++ [y].
Proof. induction l as [|z l IH]; cbn; [reflexivity|now rewrite IH]. Qed.

Ltac cv := cbv [mode cfg maxs state closed sopen ctxd inq dq mon hb ini hs ds us dial hbd hba crash log
  set_state set_closed set_sopen set_ctxd set_inq set_dq set_mon set_hb set_ini set_hs set_ds set_us set_dial
  set_hbd set_hba set_crash set_log emit hgo dgo ugo panicking].
Lemma take_ack_run d c : length d = 128 -> beating d c -> exists c', run c (take_ack (length (hs c)) d) = Some c' /\
  log c' = log c ++ [ERead (beat_back d); EUpd Active] /\ crash c' = None /\ mon c' = MRead /\ closed c' = false /\ sopen c' = true /\
  ctxd c' = false /\ state c' = Active /\ inq c' = [] /\ hb c' = BSleep /\ hbd c' = d /\ cfg c' = cfg c.
Proof.
  intros Ld (C & M & Cl & So & Cx & St & Iq & Hb & Hd).
  destruct (back_packet128 d Ld) as (L & t & (P & V) & K & D). fold (beat_back d) in *.
  assert (FN : firstn bufsize (beat_back d) = beat_back d) by (apply firstn_all2; exact L).
  assert (SK : skipn bufsize (beat_back d) = []) by (apply skipn_all2; exact L).
  assert (PL : plan (Typed t) = (None, [IHandle t; IBeatAck; ICur])) by (unfold plan; now rewrite K).
  destruct (fget FHeartbeatData (m_f t)) as [p|] eqn:FD; [|unfold hbdata in D; rewrite FD in D; discriminate].
  assert (Dp : HeartbeatData p = d) by (unfold hbdata in D; rewrite FD in D; injection D as D; exact D).
  assert (HN : handle (cfg c) d Active t = HNil).
  { unfold handle. rewrite K. cbn [st_eqb negb]. rewrite FD, Dp. destruct (list_eq_dec Byte.byte_eq_dec d d); congruence. }
  destruct c as [c1 c2 c3 c4 c5 c6 c7 c8 c9 c10 c11 c12 c13 c14 c15 c16 c17 c18 c19 c20]. cb. subst.
  eexists. unfold take_ack. split.
  - eapply go; [reflexivity|eapply S_arrive|reflexivity|]. cv. cbn [app].
    eapply go; [reflexivity|eapply S_read; reflexivity|reflexivity|]. cv. rewrite FN, SK.
    eapply go; [reflexivity|eapply S_parse; [cb; apply nth_snoc|exact P]|reflexivity|]. cv. rewrite upd_snoc.
    eapply go; [reflexivity|eapply S_sig; [cb; apply nth_snoc|reflexivity|exact V|exact PL]|reflexivity|]. cv. rewrite upd_snoc.
    eapply go; [reflexivity|eapply S_handle_nil; [cb; apply nth_snoc|reflexivity|exact HN]|reflexivity|]. cv. rewrite upd_snoc.
    eapply go; [reflexivity|eapply S_beatack; [cb; apply nth_snoc|reflexivity|reflexivity]|reflexivity|]. cv. rewrite upd_snoc.
    eapply go; [reflexivity|eapply S_cur; [cb; apply nth_snoc|reflexivity]|reflexivity|]. cv. rewrite upd_snoc.
    eapply go; [reflexivity|eapply S_st; [cb; apply nth_snoc|reflexivity]|reflexivity|]. cv. rewrite upd_snoc.
    eapply go; [reflexivity|eapply S_upd; reflexivity|rewrite state_update_eq; reflexivity|]. rewrite state_update_eq. cv. reflexivity.
  - cb. unfold upd_mon. cb. cbn [st_eqb]. rewrite <- !app_assoc. cbn [app]. repeat split.
Qed.
Lemma send_beat_run d c : length d = 128 -> crash c = None -> mon c = MRead -> closed c = false -> sopen c = true ->
  ctxd c = false -> state c = Active -> inq c = [] -> hb c = BRand -> exists c' b, run c (send_beat d) = Some c' /\
  log c' = log c ++ [ESend OHb 0 (beat d) b] /\ beating d c'.
Proof.
  intros Ld C M Cl So Cx St Iq Hb. destruct (wire_total (beat d)) as [b W].
  destruct c as [c1 c2 c3 c4 c5 c6 c7 c8 c9 c10 c11 c12 c13 c14 c15 c16 c17 c18 c19 c20]. cb. subst.
  destruct c18; (eexists _, b; unfold send_beat; split;
  [eapply go; [reflexivity|eapply S_hb_rand; [reflexivity|exact Ld]|reflexivity|]; cv;
   eapply go; [reflexivity|eapply S_hb_write; [reflexivity|exact W|reflexivity|reflexivity]|reflexivity|]; cv;
   eapply go; [reflexivity|eapply S_hb_store; reflexivity|reflexivity|]; reflexivity
  |unfold beating; cb; repeat split]).
Qed.

Open Scope Z_scope.
Definition no_timer (l : label) : Prop := match l with LHbTimer | LDialTimeout => False | _ => True end.
(** a run that takes no time *)
Lemma trun_at t : forall ls x c, run (tc x) ls = Some c -> Forall no_timer ls -> now x <= t -> since x <= t -> ls <> [] ->
  exists x', trun x (map (pair t) ls) = Some x' /\ tc x' = c /\ now x' = t /\ since x' <= t /\ born x' = born x /\
    exists es, log c = log (tc x) ++ es /\ tlog x' = tlog x ++ map (pair t) es.
Proof.
  induction ls as [|l r IH]; intros x c R F N Si NE; [congruence|]. inversion F as [|? ? F1 F2]; subst. cbn [run] in R.
  destruct (step (tc x) l) as [c1|] eqn:S; [|discriminate].
  assert (T : tstep x t l = Some (mkT c1 t (if enters (hb (tc x)) (hb c1) then t else since x) (born x) (tlog x ++ map (pair t) (skipn (length (log (tc x))) (log c1))))).
  { unfold tstep. rewrite (proj2 (Z.leb_le _ _) N). assert (due x l t = true) as -> by (destruct l; cbn in *; auto; contradiction). cbn [andb]. now rewrite S. }
  cbn [map trun]. rewrite T. destruct (log_grows _ _ _ S) as [e1 L1]. rewrite L1, skipn_exact in *.
  destruct r as [|l2 r].
  - cbn [run] in R. injection R as <-. eexists. split; [reflexivity|]. cbn [tc now since born tlog]. repeat split; auto; [destruct (enters _ _); lia|].
    exists e1. auto.
  - match goal with |- context [trun ?y _] => destruct (IH y c) as (x' & R' & T' & N' & S' & B' & es & L' & TL) end;
      [exact R|exact F2|cbn; lia|cbn; destruct (enters _ _); lia|discriminate|].
    exists x'. split; [exact R'|]. repeat split; auto. cbn [tc tlog] in *. exists (e1 ++ es).
    rewrite L', L1, app_assoc. split; [reflexivity|]. rewrite TL, map_app, app_assoc. reflexivity.
Qed.

Lemma trun_app a b x y : trun x a = Some y -> trun x (a ++ b) = trun y b.
Proof.
  revert x. induction a as [|[t l] r IH]; intros x H; cbn [trun app] in *; [injection H as ->; reflexivity|].
  destruct (tstep x t l); [now apply IH|discriminate].
Qed.

Lemma beat_cycle d x t h : length d = 128%nat -> beating d (tc x) -> cf_hb (cfg (tc x)) = Some h -> now x <= t -> since x <= t ->
  exists ls x', trun x ls = Some x' /\ beating d (tc x') /\ cfg (tc x') = cfg (tc x) /\
    now x' = t + interval (cfg (tc x)) /\ since x' <= now x' /\
    beat_times (tlog x') = beat_times (tlog x) ++ [t + interval (cfg (tc x))].
Proof.
  intros Ld B H N S. destruct (take_ack_run d (tc x) Ld B) as (c1 & R1 & L1 & C1 & M1 & Cl1 & So1 & Cx1 & St1 & Iq1 & Hb1 & Hd1 & G1).
  destruct (trun_at t _ _ _ R1) as (x1 & T1 & X1 & N1 & S1 & B1 & es1 & E1 & TL1); [repeat constructor|exact N|exact S|discriminate|].
  rewrite L1 in E1. apply app_inv_head in E1. subst es1. rewrite <- X1 in *.
  assert (I0 : 0 <= interval (cfg (tc x))) by (unfold interval; rewrite H; lia).
  set (u := t + interval (cfg (tc x))).
  assert (T2 : tstep x1 u LHbTimer = Some (mkT (set_hb BRand (tc x1)) u (since x1) (born x1) (tlog x1))).
  { unfold tstep. rewrite (proj2 (Z.leb_le (now x1) u)) by (unfold u; lia). cbn [due].
    rewrite (proj2 (Z.leb_le _ _)) by (unfold wait_of; rewrite G1, H, Hb1; unfold u, interval; rewrite H; lia). cbn [andb].
    unfold step. rewrite C1, Hb1. cb. cbn [enters]. rewrite skipn_all. cbn [map]. now rewrite app_nil_r. }
  destruct (send_beat_run d (set_hb BRand (tc x1)) Ld) as (c3 & b & R3 & L3 & B3); cb; auto.
  destruct (trun_at u _ (mkT (set_hb BRand (tc x1)) u (since x1) (born x1) (tlog x1)) _ R3) as (x3 & T3 & X3 & N3 & S3 & B3' & es3 & E3 & TL3);
    [repeat constructor|cbn; lia|cbn; unfold u; lia|discriminate|].
  cbn [tc tlog] in *. cb. rewrite L3 in E3. apply app_inv_head in E3. subst es3.
  exists (map (pair t) (take_ack (length (hs (tc x))) d) ++ (u, LHbTimer) :: map (pair u) (send_beat d)), x3.
  split. { rewrite (trun_app _ _ _ _ T1). cbn [trun]. rewrite T2. exact T3. }
  rewrite X3. split; [exact B3|]. split; [apply static_run in R3 as (_ & G3 & _); cb; congruence|]. split; [exact N3|]. split; [lia|].
  rewrite TL3, TL1, !beat_times_app. cbn [map beat_times flat_map app]. now rewrite !app_nil_r.
Qed.

(** n more BEATs, one interval apart *)
Lemma beats_exact n : forall d x h, length d = 128%nat -> beating d (tc x) -> cf_hb (cfg (tc x)) = Some h -> since x <= now x ->
  exists ls x', trun x ls = Some x' /\ now x' = now x + interval (cfg (tc x)) * Z.of_nat n /\
    beat_times (tlog x') = beat_times (tlog x) ++ map (fun k => now x + interval (cfg (tc x)) * Z.of_nat (S k)) (seq 0 n).
Proof.
  induction n as [|n IH]; intros d x h Ld B H S.
  - exists [], x. split; [reflexivity|]. split; [lia|]. cbn [seq map]. now rewrite app_nil_r.
  - destruct (beat_cycle d x (now x) h Ld B H) as (ls & x1 & R & B1 & G & N1 & S1 & T1); [lia|exact S|].
    destruct (IH d x1 h Ld B1) as (ls2 & x2 & R2 & N2 & T2); [congruence|exact S1|].
    exists (ls ++ ls2), x2. split; [now rewrite (trun_app _ _ _ _ R)|]. split; [rewrite N2, N1, G; lia|]. rewrite T2, T1, <- app_assoc. f_equal. cbn [seq map app]. f_equal; [f_equal; lia|].
    rewrite <- seq_shift, map_map. apply map_ext. intros k. rewrite N1, G. lia.
Qed.
