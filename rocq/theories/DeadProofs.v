(** Proofs: deadlines. *)
From Verif Require Import GoBase BaseProofs ParamsModel MessagesModel MessagesProofs MessagesProofs2 ConfigModel ConnModel ConnSpec ConnBase ConnInv ConnUser ConnMacro
  ConnMore ConnStable ConnData LastSpec ConnLast ConnPair ConnDialog DeadModel DeadSpec.
From Coq Require Import Arith Lia ZArith.
Open Scope nat_scope.

(** the steps of ConnModel in an execution *)
Definition done (ls : list (Z * dact)) : list label := flat_map (fun x => match snd x with ADo l => [l] | _ => [] end) ls.
Lemma drun_run ls : forall x x', drun x ls = Some x' -> run (dc x) (done ls) = Some (dc x').
Proof.
  induction ls as [|[t a] ls IH]; intros x x' R; [now injection R as <-|]. cbn [drun] in R. destruct (dstep x t a) as [y|] eqn:S; [|discriminate].
  unfold dstep in S. destruct (d_now x <=? t)%Z; [|discriminate]. specialize (IH _ _ R). unfold done. cbn [flat_map snd]. destruct a as [d|d|d|l]; try (injection S as <-; exact IH).
  destruct (ok_of l && too_late x t l); [discriminate|]. destruct (step (dc x) l) as [c|] eqn:Sc; [|discriminate]. injection S as <-. cbn [app run]. rewrite Sc. exact IH.
Qed.
Lemma drun_reachable m g o t0 ls x : drun (dstart m g o t0) ls = Some x -> reachable (dc x).
Proof. intros R. apply drun_run in R. exists m, g, o, (done ls). exact R. Qed.

(** without a passed deadline everything is as before *)
Lemma not_passed x t l : (d_now x <= t)%Z -> passed (d_read x) t = false -> passed (d_write x) t = false ->
  dstep x t (ADo l) = match step (dc x) l with Some c => Some (mkD c t (d_read x) (d_write x)) | None => None end.
Proof. intros T R W. unfold dstep, too_late. apply Z.leb_le in T. rewrite R, W, T, !andb_false_r. reflexivity. Qed.

(** a Read that waits *)
Lemma read_waits x t i ok buf : nth_error (us (dc x)) i = Some (URecv buf) -> dq (dc x) = [] -> closed (dc x) = false -> dstep x t (ADo (LUser i ok)) = None.
Proof.
  intros U Q K. unfold dstep. destruct (d_now x <=? t)%Z; [|reflexivity]. destruct (ok_of _ && _); [reflexivity|]. destruct (step (dc x) (LUser i ok)) eqn:S; [|reflexivity]. exfalso.
  unfold step in S. destruct (crash (dc x)); [discriminate|]. unfold step_user in S. rewrite U, Q, K in S. discriminate.
Qed.
(** what happens to the connection *)
Lemma expires x t ok : reachable (dc x) -> listening (dc x) -> (d_now x <= t)%Z -> passed (d_read x) t = true ->
  dstep x t (ADo (LMon true)) = None /\
  exists x', drun x [(t, ADo (LMon false)); (t, ADo (LMon ok))] = Some x' /\ ended (dc x') /\ crash (dc x') = None /\ mon (dc x') = MExit /\
    us (dc x') = us (dc x) /\ dq (dc x') = dq (dc x) /\ delivered (log (dc x')) = delivered (log (dc x)).
Proof.
  intros R L T P. pose proof (li_mon _ L) as M. pose proof (proj2 (Z.leb_le _ _) T) as T'. split.
  - unfold dstep, too_late, reading. rewrite T', M, P. reflexivity.
  - destruct (peer_ends (dc x) ok R L) as (c' & Rc & E & C & Mc & U & D & Dl). cbn [run] in Rc.
    destruct (step (dc x) (LMon false)) as [c1|] eqn:S1; [|discriminate]. destruct (step c1 (LMon ok)) as [c2|] eqn:S2; [|discriminate]. injection Rc as <-.
    assert (M1 : mon c1 = MClose).
    { unfold step, step_mon in S1. rewrite (li_crash _ L), M in S1. cbn [andb] in S1. injection S1 as <-. reflexivity. }
    exists (mkD c2 t (d_read x) (d_write x)). cbn [drun]. unfold dstep at 1. rewrite T'. cbn [ok_of andb]. rewrite S1. unfold dstep. cbn [d_now dc d_read d_write]. rewrite Z.leb_refl.
    unfold too_late, reading, writing. cbn [dc d_read d_write]. rewrite M1. cbn [andb orb]. rewrite andb_false_r, S2. repeat split; auto; apply E.
Qed.
Lemma ended_for_good x ls x' : ended (dc x) -> crash (dc x) = None -> drun x ls = Some x' -> crash (dc x') = None -> ended (dc x').
Proof. intros E C R C'. apply drun_run in R. exact (proj1 (ended_run _ _ _ E C R C')). Qed.

(** writing *)
Lemma send_step c l c' : step c l = Some c' -> packets (log c') = packets (log c) \/ (ok_of l = true /\ writing c l = true).
Proof.
  intros S. apply step_stepR in S as [C S].
  assert (Cl : forall d, packets (log (closing d)) = packets (log d)).
  { intros d. unfold closing. destruct (state d); cbn; rewrite ?packets_app; cbn; rewrite ?app_nil_r; reflexivity. }
  destruct S; try (left; reflexivity); subst;
    try (right; split; [reflexivity|]; cbn [writing]; repeat match goal with H : _ = _ |- context [match ?x with _ => _ end] => rewrite H end; reflexivity);
    try (left; cbn; rewrite ?Cl, ?packets_app; cbn; rewrite ?app_nil_r; reflexivity).
  - left. unfold state_update. assert (E : packets (log c ++ [EUpd s]) = packets (log c)) by (rewrite packets_app; apply app_nil_r).
    destruct s; try destruct (mode (emit _ _)); try destruct (st_eqb _ _); exact E.
  - left. assert (B : forall d, log (broadcast d) = log d) by (intros d; unfold broadcast; destruct (hb d); reflexivity).
    change (packets (log (broadcast (set_dial DOk c))) = packets (log c)). now rewrite B.
  - left. assert (B : forall d, log (broadcast d) = log d) by (intros d; unfold broadcast; destruct (hb d); reflexivity).
    change (packets (log (broadcast (closing c))) = packets (log c)). now rewrite B, Cl.
  - left. now destruct (hba c).
  - left. change (packets (log c ++ es) = packets (log c)). rewrite packets_app. destruct H0 as [->|[->|(o & e & _ & ->)]]; apply app_nil_r.
Qed.
Lemma passed_later d t t' : (t <= t')%Z -> passed d t = true -> passed d t' = true.
Proof. destruct d as [x|]; [|discriminate]. cbn. rewrite !Z.leb_le. lia. Qed.
Lemma nothing_sent ls : forall x x', passed (d_write x) (d_now x) = true -> Forall (fun y => keeps_write (snd y)) ls -> drun x ls = Some x' -> packets (log (dc x')) = packets (log (dc x)).
Proof.
  induction ls as [|[t a] ls IH]; intros x x' P F R; [now injection R as <-|]. inversion F as [|? ? K F']; subst. cbn [drun] in R. destruct (dstep x t a) as [y|] eqn:S; [|discriminate].
  unfold dstep in S. destruct (Z.leb_spec (d_now x) t) as [T|]; [|discriminate]. pose proof (passed_later _ _ _ T P) as P'. cbn [snd] in K. destruct a as [d|d|d|l]; try contradiction.
  - injection S as <-. exact (IH (mkD (dc x) t d (d_write x)) _ P' F' R).
  - destruct (ok_of l && too_late x t l) eqn:O; [discriminate|]. destruct (step (dc x) l) as [c|] eqn:Sc; [|discriminate]. injection S as <-. rewrite (IH (mkD c t (d_read x) (d_write x)) _ P' F' R). cbn [dc].
    destruct (send_step _ _ _ Sc) as [E|[A B]]; [exact E|]. unfold too_late in O. rewrite A, B, P' in O. cbn in O. rewrite orb_true_r in O. discriminate.
Qed.
(** a Write in time for the state check *)
Lemma write_fails x t i s m : crash (dc x) = None -> (d_now x <= t)%Z -> passed (d_write x) t = true -> nth_error (us (dc x)) i = Some (USend s m) ->
  dstep x t (ADo (LUser i true)) = None /\
  exists x', dstep x t (ADo (LUser i false)) = Some x' /\ dc x' = ugo i (UDone RWriteError) (dc x).
Proof.
  intros C T P U. pose proof (proj2 (Z.leb_le _ _) T) as T'. split.
  - unfold dstep, too_late, writing. rewrite T', U, P. reflexivity.
  - unfold dstep. rewrite T'. cbn [ok_of andb]. destruct (step (dc x) (LUser i false)) as [c|] eqn:S.
    + eexists. split; [reflexivity|]. cbn [dc]. unfold step in S. rewrite C in S. unfold step_user in S. rewrite U in S. destruct (MarshalLen_exact m) as (m' & b & E & _). rewrite E in S. cbn in S. injection S as <-. reflexivity.
    + exfalso. unfold step in S. rewrite C in S. unfold step_user in S. rewrite U in S. destruct (MarshalLen_exact m) as (m' & b & E & _). rewrite E in S. discriminate.
Qed.

Lemma passed_past d t : passed d t = true <-> past d t.
Proof.
  unfold past. destruct d as [u|]; cbn; [rewrite Z.leb_le; split; [eauto|intros (v & E & H); injection E as <-; exact H]|]. split; [discriminate|intros (v & E & _); discriminate].
Qed.
Lemma passed_not d t : ~ past d t -> passed d t = false.
Proof. intros H. destruct (passed d t) eqn:E; [|reflexivity]. destruct (H (proj1 (passed_past d t) E)). Qed.
Lemma drun_app ls : forall x ls', drun x (ls ++ ls') = match drun x ls with Some y => drun y ls' | None => None end.
Proof. induction ls as [|[t a] ls IH]; intros x ls'; [reflexivity|]. cbn [app drun]. destruct (dstep x t a); [apply IH|reflexivity]. Qed.
Lemma last_sets ls : forall x x', drun x ls = Some x' -> last_set true (d_read x) ls (d_read x') /\ last_set false (d_write x) ls (d_write x').
Proof.
  induction ls as [|[t a] ls IH] using rev_ind; intros x x' R; [injection R as <-; split; constructor|]. rewrite drun_app in R. destruct (drun x ls) as [y|] eqn:Ry; [|discriminate].
  cbn [drun] in R. destruct (dstep y t a) as [z|] eqn:S; [|discriminate]. injection R as <-. destruct (IH _ _ Ry) as [A B]. unfold dstep in S. destruct (d_now y <=? t)%Z; [|discriminate].
  destruct a as [d|d|d|l]; [injection S as <-|injection S as <-|injection S as <-|].
  - split; [eapply LS_set; [exact A|reflexivity]|apply LS_keep; [exact B|reflexivity]].
  - split; [apply LS_keep; [exact A|reflexivity]|eapply LS_set; [exact B|reflexivity]].
  - split; (eapply LS_set; [eassumption|reflexivity]).
  - destruct (ok_of l && too_late y t l); [discriminate|]. destruct (step (dc y) l) as [c|]; [|discriminate]. injection S as <-. split; (apply LS_keep; [assumption|reflexivity]).
Qed.
Lemma clock ls : forall x x', drun x ls = Some x' -> (d_now x <= d_now x')%Z.
Proof.
  induction ls as [|[t a] ls IH]; intros x x' R; [injection R as <-; lia|]. cbn [drun] in R. destruct (dstep x t a) as [y|] eqn:S; [|discriminate]. apply IH in R. unfold dstep in S.
  destruct (Z.leb_spec (d_now x) t) as [T|]; [|discriminate]. assert (d_now y = t); [|lia]. destruct a as [d|d|d|l]; try (now injection S as <-).
  destruct (ok_of l && too_late x t l); [discriminate|]. destruct (step (dc x) l); [|discriminate]. now injection S as <-.
Qed.
(** signals that cannot be written *)
Lemma signal_fails x t i m k ok : crash (dc x) = None -> mon (dc x) = MSelect -> state (dc x) <> Down -> closed (dc x) = false ->
  (d_now x <= t)%Z -> passed (d_write x) t = true -> nth_error (hs (dc x)) i = Some (IWrite m :: k) ->
  dstep x t (ADo (LHand i true)) = None /\
  (exists x', drun x [(t, ADo (LHand i false)); (t, ADo (LHand i true)); (t, ADo (LMon false)); (t, ADo (LMon ok))] = Some x' /\
     crash (dc x') = None /\ mon (dc x') = MExit /\ state (dc x') = Down /\ closed (dc x') = true /\ sopen (dc x') = false /\ us (dc x') = us (dc x)).
Proof.
  intros C M St K T P H. pose proof (proj2 (Z.leb_le _ _) T) as T'. split.
  { unfold dstep, too_late, reading, writing. rewrite T', H, P. reflexivity. }
  assert (A : dstep x t (ADo (LHand i false)) = match step (dc x) (LHand i false) with Some c => Some (mkD c t (d_read x) (d_write x)) | None => None end).
  { unfold dstep. rewrite T'. reflexivity. }
  assert (S1 : step (dc x) (LHand i false) = Some (set_hs (upd (hs (dc x)) i (IErr EWriteSignal :: k)) (dc x))).
  { unfold step. rewrite C. unfold step_hand. rewrite H. unfold WriteSignal. destruct (wire_total m) as [b ->]. reflexivity. }
  set (c1 := set_hs (upd (hs (dc x)) i (IErr EWriteSignal :: k)) (dc x)).
  assert (N1 : nth_error (hs c1) i = Some (IErr EWriteSignal :: k)) by (eapply upd_nth_same; eauto).
  set (c2 := set_mon (MErr (OHand i) EWriteSignal) (set_hs (upd (hs c1) i k) c1)).
  assert (S2 : step c1 (LHand i true) = Some c2).
  { unfold step. change (crash c1) with (crash (dc x)). rewrite C. unfold step_hand. rewrite N1. unfold recv_err.
    change (mon (set_hs (upd (hs c1) i k) c1)) with (mon (dc x)). rewrite M. reflexivity. }
  set (c3 := set_mon MClose (emit (ERefused (OHand i) EWriteSignal) c2)).
  assert (S3 : step c2 (LMon false) = Some c3).
  { unfold step. change (crash c2) with (crash (dc x)). rewrite C. reflexivity. }
  set (c4 := set_mon MExit (broadcast (set_sopen false (set_state Down (set_closed true (emit EClosed c3)))))).
  assert (S4 : step c3 (LMon ok) = Some c4).
  { unfold step. change (crash c3) with (crash (dc x)). rewrite C. unfold step_mon. change (mon c3) with MClose. cbv beta iota. unfold Close.
    change (state (emit EClosed c3)) with (state (dc x)). change (closed (emit EClosed c3)) with (closed (dc x)). rewrite K.
    destruct (state (dc x)); try congruence; cbn [st_eqb]; cbv zeta;
    change (crash (set_sopen false (set_state Down (set_closed true (emit EClosed c3))))) with (crash (dc x)); rewrite C; reflexivity. }
  exists (mkD c4 t (d_read x) (d_write x)). split.
  - cbn [drun]. rewrite A, S1. fold c1. unfold dstep at 1. cbn [d_now dc d_read d_write]. rewrite Z.leb_refl. unfold too_late at 1. unfold reading, writing. cbn [dc d_read d_write]. rewrite N1. cbn [ok_of andb orb].
    rewrite S2. unfold dstep at 1. cbn [d_now dc d_read d_write]. rewrite Z.leb_refl. cbn [ok_of andb]. rewrite S3. unfold dstep at 1. cbn [d_now dc d_read d_write]. rewrite Z.leb_refl.
    unfold too_late at 1. unfold reading, writing. cbn [dc d_read d_write]. change (mon c3) with MClose. cbn [andb orb]. rewrite andb_false_r, S4. reflexivity.
  - cbn [dc]. unfold c4, broadcast. cbn [hb set_sopen set_state set_closed emit].
    match goal with |- context[match ?h with _ => _ end] => destruct h end; cbn; auto 10.
Qed.
Lemma beat_fails x t d ok : crash (dc x) = None -> mon (dc x) = MSelect -> state (dc x) <> Down -> closed (dc x) = false ->
  (d_now x <= t)%Z -> passed (d_write x) t = true -> hb (dc x) = BWrite d ->
  dstep x t (ADo (LHb true)) = None /\
  (exists x', drun x [(t, ADo (LHb false)); (t, ADo (LHb true)); (t, ADo (LMon false)); (t, ADo (LMon ok))] = Some x' /\
     crash (dc x') = None /\ mon (dc x') = MExit /\ state (dc x') = Down /\ closed (dc x') = true /\ sopen (dc x') = false /\ us (dc x') = us (dc x)).
Proof.
  intros C M St K T P H. pose proof (proj2 (Z.leb_le _ _) T) as T'. split.
  { unfold dstep, too_late, reading, writing. rewrite T', H, P. reflexivity. }
  assert (A : dstep x t (ADo (LHb false)) = match step (dc x) (LHb false) with Some c => Some (mkD c t (d_read x) (d_write x)) | None => None end).
  { unfold dstep. rewrite T'. reflexivity. }
  assert (S1 : step (dc x) (LHb false) = Some (set_hb (BErr EFailedToWriteSignal) (dc x))).
  { unfold step. rewrite C. unfold step_hb. rewrite H. unfold WriteSignal. destruct (wire_total (beat d)) as [b ->]. reflexivity. }
  set (c1 := set_hb (BErr EFailedToWriteSignal) (dc x)).
  assert (N1 : hb c1 = BErr EFailedToWriteSignal) by reflexivity.
  set (c2 := set_mon (MErr (OHb) EFailedToWriteSignal) (set_hb BDone c1)).
  assert (S2 : step c1 (LHb true) = Some c2).
  { unfold step. change (crash c1) with (crash (dc x)). rewrite C. unfold step_hb. rewrite N1. unfold recv_err.
    change (mon (set_hb BDone c1)) with (mon (dc x)). rewrite M. reflexivity. }
  set (c3 := set_mon MClose (emit (ERefused (OHb) EFailedToWriteSignal) c2)).
  assert (S3 : step c2 (LMon false) = Some c3).
  { unfold step. change (crash c2) with (crash (dc x)). rewrite C. reflexivity. }
  set (c4 := set_mon MExit (broadcast (set_sopen false (set_state Down (set_closed true (emit EClosed c3)))))).
  assert (S4 : step c3 (LMon ok) = Some c4).
  { unfold step. change (crash c3) with (crash (dc x)). rewrite C. unfold step_mon. change (mon c3) with MClose. cbv beta iota. unfold Close.
    change (state (emit EClosed c3)) with (state (dc x)). change (closed (emit EClosed c3)) with (closed (dc x)). rewrite K.
    destruct (state (dc x)); try congruence; cbn [st_eqb]; cbv zeta;
    change (crash (set_sopen false (set_state Down (set_closed true (emit EClosed c3))))) with (crash (dc x)); rewrite C; reflexivity. }
  exists (mkD c4 t (d_read x) (d_write x)). split.
  - cbn [drun]. rewrite A, S1. fold c1. unfold dstep at 1. cbn [d_now dc d_read d_write]. rewrite Z.leb_refl. unfold too_late at 1. unfold reading, writing. cbn [dc d_read d_write]. rewrite N1. cbn [ok_of andb orb].
    rewrite S2. unfold dstep at 1. cbn [d_now dc d_read d_write]. rewrite Z.leb_refl. cbn [ok_of andb]. rewrite S3. unfold dstep at 1. cbn [d_now dc d_read d_write]. rewrite Z.leb_refl.
    unfold too_late at 1. unfold reading, writing. cbn [dc d_read d_write]. change (mon c3) with MClose. cbn [andb orb]. rewrite andb_false_r, S4. reflexivity.
  - cbn [dc]. unfold c4, broadcast. cbn [hb set_sopen set_state set_closed emit].
    match goal with |- context[match ?h with _ => _ end] => destruct h end; cbn; auto 10.
Qed.
(** what neither reads nor sends a packet goes on *)
Definition failing (l : label) : label := match l with LMon _ => LMon false | LHand i _ => LHand i false | LHb _ => LHb false | LUser i _ => LUser i false | _ => l end.
Lemma grown_log (l l' : list event) e b : l' = l ++ [e] -> e = ERead b \/ (exists o s m, e = ESend o s m b) -> packets l' = packets l -> reads l' = reads l -> False.
Proof.
  intros -> E P R. rewrite packets_app in P. unfold reads in R. rewrite flat_map_app in R. destruct E as [->|(o & s & m & ->)].
  - apply (f_equal (@length _)) in R. rewrite app_length in R. cbn in R. lia.
  - apply (f_equal (@length _)) in P. rewrite app_length in P. cbn in P. lia.
Qed.
Lemma same_write o c m ok : WriteSignal o c m ok = WriteSignal o c m false \/ exists n s b, WriteSignal o c m ok = WOk (emit (ESend o s m b) c) n.
Proof.
  unfold WriteSignal. destruct (wire m) as [b|e|p]; auto. unfold can_write. destruct (ok && sopen c) eqn:E; [right; eauto|]. left. reflexivity.
Qed.
Lemma fails_alike c l c' : step c l = Some c' -> packets (log c') = packets (log c) -> reads (log c') = reads (log c) -> reading c l = true \/ writing c l = true -> step c (failing l) = Some c'.
Proof.
  intros S P R H. unfold step in *. destruct (crash c); [discriminate|]. destruct l; try (destruct H; discriminate); cbn [failing reading writing] in *.
  - unfold step_mon in *. destruct (mon c) as [|o e| |m| | | |] eqn:M; try (destruct H; discriminate).
    + cbv zeta in S |- *. destruct (error_reply (cfg (emit (ERefused o e) c)) e) as [[m|]|e'|p]; try exact S.
      destruct (same_write OMon (emit (ERefused o e) c) m ok) as [E|(n & s & b & E)]; rewrite E in S; [exact S|]. exfalso. injection S as <-.
      apply (grown_log (log c ++ [ERefused o e]) (log (emit (ESend OMon s m b) (emit (ERefused o e) c))) (ESend OMon s m b) b); [reflexivity|right; eauto| |].
      * change (log (set_mon MSelect ?d)) with (log d) in P. rewrite P, packets_app. cbn. now rewrite app_nil_r.
      * change (log (set_mon MSelect ?d)) with (log d) in R. rewrite R. unfold reads. rewrite flat_map_app. cbn. now rewrite app_nil_r.
    + destruct (same_write OMon c m ok) as [E|(n & s & b & E)]; rewrite E in S; [exact S|]. exfalso. injection S as <-.
      exact (grown_log (log c) _ _ b eq_refl (or_intror (ex_intro _ _ (ex_intro _ _ (ex_intro _ _ eq_refl)))) P R).
    + destruct ok; [|exact S]. destruct (sopen c); [|exact S]. cbn [andb] in S. destruct (inq c) as [|p q]; [discriminate|]. exfalso. injection S as <-.
      exact (grown_log (log c) _ _ _ eq_refl (or_introl eq_refl) P R).
  - destruct H as [H|H]; [discriminate|]. unfold step_hand in *. destruct (nth_error (hs c) i) as [[|[] k]|]; try discriminate. cbv zeta in *.
    destruct (same_write (OHand i) c m ok) as [E|(n & s & b & E)]; rewrite E in S; [exact S|]. exfalso. injection S as <-.
    exact (grown_log (log c) _ _ b eq_refl (or_intror (ex_intro _ _ (ex_intro _ _ (ex_intro _ _ eq_refl)))) P R).
  - destruct H as [H|H]; [discriminate|]. unfold step_hb in *. destruct (hb c) as [| | | |d| | | | |]; try discriminate.
    destruct (same_write OHb c (beat d) ok) as [E|(n & s & b & E)]; rewrite E in S; [exact S|]. exfalso. injection S as <-.
    exact (grown_log (log c) _ _ b eq_refl (or_intror (ex_intro _ _ (ex_intro _ _ (ex_intro _ _ eq_refl)))) P R).
  - destruct H as [H|H]; [discriminate|]. unfold step_user in *. destruct (nth_error (us c) i) as [[[]| |s m|]|]; try discriminate; cbv zeta in *.
    + match goal with S : context[WriteSignal (OUser i) c ?m ok] |- _ => destruct (same_write (OUser i) c m ok) as [E|(n & s & b & E)] end; rewrite E in S; [exact S|]. exfalso. injection S as <-.
      exact (grown_log (log c) _ _ b eq_refl (or_intror (ex_intro _ _ (ex_intro _ _ (ex_intro _ _ eq_refl)))) P R).
    + destruct (m3_MarshalBinary m) as [[m' b]|e|p]; try exact S. unfold can_write in *. destruct (ok && sopen c) eqn:E; [|exact S]. exfalso. injection S as <-.
      exact (grown_log (log c) _ _ b eq_refl (or_intror (ex_intro _ _ (ex_intro _ _ (ex_intro _ _ eq_refl)))) P R).
Qed.
Lemma rest_goes_on x t l c : (d_now x <= t)%Z -> step (dc x) l = Some c -> packets (log c) = packets (log (dc x)) -> reads (log c) = reads (log (dc x)) ->
  exists l', (l' = l \/ l' = failing l) /\ dstep x t (ADo l') = Some (mkD c t (d_read x) (d_write x)).
Proof.
  intros T S P R. pose proof (proj2 (Z.leb_le _ _) T) as T'. destruct (ok_of l && too_late x t l) eqn:O.
  - exists (failing l). split; [auto|]. apply andb_prop in O as [O L]. assert (H : reading (dc x) l = true \/ writing (dc x) l = true).
    { unfold too_late in L. apply orb_prop in L as [L|L]; apply andb_prop in L as [L _]; auto. }
    unfold dstep. rewrite T', (fails_alike _ _ _ S P R H).
    assert (F : ok_of (failing l) = false) by (destruct l; try reflexivity; destruct H; discriminate). rewrite F. reflexivity.
  - exists l. split; [auto|]. unfold dstep. now rewrite T', O, S.
Qed.
