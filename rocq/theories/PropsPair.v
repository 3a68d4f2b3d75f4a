(** C49, C59-C62: two endpoints, the heartbeat's wake-up, truncated and oversized packets, order of reception. *)
From Verif Require Import GoBase ParamsModel MessagesModel WireSpec ParamsSpec MsgSpec ConfigModel ConnModel ConnSpec ConnBase ConnInv ConnTrace CfgSpec ConnUser ConnCodec
  ConnMore ConnExamples ConnPair ConnBeat TruncProofs ConnPieces PropsUser PropsFsm.
From Coq Require Import Arith Lia.
Open Scope nat_scope.

(** C49: a client and a server of this library, heartbeat disabled, whose handshake messages fit the receive buffer, connected by a working
    transport: every interleaving ends after at most 44 steps, without panic, refusal or Close, with both sides established. *)
Theorem C49_establishes : forall gc gs oc os, cfg_ok gc -> cfg_ok gs -> handshake_fits gc -> handshake_fits gs ->
  beats_enabled gc = false -> beats_enabled gs = false ->
  forall n p, psteps n (pstart gc gs oc os) p ->
  n <= 44 /\ crash (p_cl p) = None /\ crash (p_sv p) = None /\
  (forall e, In e (log (p_cl p) ++ log (p_sv p)) -> match e with ERefused _ _ | EClosed => False | _ => True end) /\
  ((forall p', ~ pstep p p') -> up_and_running (p_cl p) /\ up_and_running (p_sv p)).
Proof. exact pair_establishes. Qed.
Print Assumptions C49_establishes.
Example C49_ex_cfg : cfg_ok x_cfg /\ handshake_fits x_cfg /\ beats_enabled x_cfg = false.
Proof. split; [apply C31_ex_cfg|]. split; [|reflexivity]. apply (fun n => conj (proj1 (Nat.leb_le _ _) n)); vm_compute; [reflexivity|]. apply Nat.leb_le. reflexivity. Qed.

(** an execution of the pair, given by its moves *)
Inductive move := MC (l : label) | MS (l : label) | MtoS | MtoC.
Definition pmove (p : pair) (m : move) : option pair :=
  match m with
  | MC l => match step (p_cl p) l with Some a => Some (mkPair a (p_sv p) (p_ab p) (p_ba p)) | None => None end
  | MS l => match step (p_sv p) l with Some b => Some (mkPair (p_cl p) b (p_ab p) (p_ba p)) | None => None end
  | MtoS => match nth_error (packets (log (p_cl p))) (p_ab p) with
            | Some raw => match step (p_sv p) (LArrive raw) with Some b => Some (mkPair (p_cl p) b (S (p_ab p)) (p_ba p)) | None => None end
            | None => None end
  | MtoC => match nth_error (packets (log (p_sv p))) (p_ba p) with
            | Some raw => match step (p_cl p) (LArrive raw) with Some a => Some (mkPair a (p_sv p) (p_ab p) (S (p_ba p))) | None => None end
            | None => None end
  end.
Definition fair_move (m : move) : Prop := match m with MC l | MS l => benign l | _ => True end.
Fixpoint pexec (p : pair) (ms : list move) : option pair :=
  match ms with [] => Some p | m :: ms => match pmove p m with Some q => pexec q ms | None => None end end.
Lemma pexec_psteps ms : forall n p0 p q, psteps n p0 p -> Forall fair_move ms -> pexec p ms = Some q -> psteps (n + length ms) p0 q.
Proof.
  induction ms as [|m ms IH]; intros n p0 p q R F E.
  - injection E as <-. now rewrite Nat.add_0_r.
  - inversion F as [|? ? Fm F']; subst. cbn [pexec] in E. destruct (pmove p m) as [p1|] eqn:M; [|discriminate].
    cbn [length]. rewrite <- Nat.add_succ_comm. apply (IH (S n) p0 p1 q); auto. econstructor; [exact R|].
    destruct p as [a b x y], m as [l|l| |]; cbn [pmove p_cl p_sv p_ab p_ba] in M.
    + destruct (step a l) eqn:S; [|discriminate]. injection M as <-. eapply P_client; eauto.
    + destruct (step b l) eqn:S; [|discriminate]. injection M as <-. eapply P_server; eauto.
    + destruct (nth_error (packets (log a)) x) eqn:Nn; [|discriminate]. destruct (step b (LArrive l)) eqn:S; [|discriminate].
      injection M as <-. eapply P_to_server; eauto.
    + destruct (nth_error (packets (log b)) y) eqn:Nn; [|discriminate]. destruct (step a (LArrive l)) eqn:S; [|discriminate].
      injection M as <-. eapply P_to_client; eauto.
Qed.
Definition handshake_moves : list move :=
  map MC boot_client ++ map MS (LHb true :: boot_server) ++ [MtoS; MS (LMon true)] ++ map MS (hand 0 5) ++ [MS (LMon true)] ++
  [MtoC; MC (LMon true)] ++ map MC (hand 0 4) ++ map MC [LMon true; LMon true] ++
  [MtoS; MS (LMon true)] ++ map MS (hand 1 5) ++ map MS [LMon true; LMon true] ++
  [MtoC; MC (LMon true)] ++ map MC (hand 1 4) ++ map MC [LMon true; LMon true] ++ [MC (LHb true); MS (LHb true)].
Example C49_ex : exists p, psteps (length handshake_moves) (pstart x_cfg x_cfg 3 3) p /\
  up_and_running (p_cl p) /\ up_and_running (p_sv p) /\ length (packets (log (p_cl p))) = 2 /\ length (packets (log (p_sv p))) = 2.
Proof.
  destruct (pexec (pstart x_cfg x_cfg 3 3) handshake_moves) as [p|] eqn:E; [|vm_compute in E; discriminate].
  exists p. split.
  - apply (pexec_psteps handshake_moves 0 _ _ _ (PS_0 _)) in E; [exact E|].
    unfold handshake_moves. cbn [map app hand repeat boot_client boot_server]. repeat constructor.
  - vm_compute in E. injection E as <-. repeat split; reflexivity.
Qed.

(** C59: if the heartbeat goroutine has not reached its Wait when the establishment is reported, it never sends a BEAT, although the heartbeat
    is enabled, whatever happens later. *)
Theorem C59_never : forall c ls c', dial c <> DWait -> hb c = BStart \/ hb c = BWait -> run c ls = Some c' -> beats (log c') = beats (log c).
Proof. intros c ls c' D H R. apply (asleep_run c ls c'); [|exact R]. split; auto. Qed.
Theorem C59_refuted : exists c, run (start Client x_cfg_hb 3) client_up = Some c /\ beats_enabled (cfg c) = true /\ state c = Active /\ dial c = DOk /\
  sopen c = true /\ forall ls c', run c ls = Some c' -> beats (log c') = [].
Proof.
  eexists. split; [vm_compute; reflexivity|]. do 4 (split; [reflexivity|]). intros ls c' R.
  apply C59_never in R; [exact R|discriminate|left; reflexivity].
Qed.
(** one that waits in time is woken and sends *)
Theorem C59_in_time : forall c d, crash c = None -> mon c = MEst -> dial c = DWait -> closed c = false -> sopen c = true -> hb c = BWait ->
  beats_enabled (cfg c) = true -> length d = 128 ->
  exists c' b, run c [LMon true; LHb true; LHbRand d; LHb true] = Some c' /\ encodes (beat d) b /\ dial c' = DOk /\
    log c' = log c ++ [ESend OHb 0 (beat d) b].
Proof. exact beat_starts. Qed.
Print Assumptions C59_never.
Print Assumptions C59_refuted.
Print Assumptions C59_in_time.
Example C59_ex : exists c, run (start Client x_cfg_hb 3) (LHb true :: boot_client ++ take 0 pk_up_ack ++ [LMon true] ++ take 1 pk_active_ack) = Some c /\
  crash c = None /\ mon c = MEst /\ dial c = DWait /\ closed c = false /\ sopen c = true /\ hb c = BWait /\ beats_enabled (cfg c) = true.
Proof. eexists. split; [vm_compute; reflexivity|]. repeat split. Qed.

(** C60: a well-formed packet cut after n octets decodes exactly when the cut is after the common header and at the end of a parameter, or inside
    the padding after it ... *)
Theorem C60_accepted_cuts : forall v r c ty len l n, (len < 4294967296)%N -> Forall sized l -> permitted c ty l -> n <= 8 + length (body_of l) ->
  (exists m, Parse (firstn n (packet v r c ty len (body_of l))) = Ok m) <->
  exists l1 l2, l = l1 ++ l2 /\ 8 + bare l1 <= n <= 8 + length (body_of l1).
Proof. exact Parse_trunc. Qed.
(** ... and then it decodes, without any error, to the message made of the parameters before the cut. *)
Theorem C60_silent : forall v r c ty len l1 l2 n, (len < 4294967296)%N -> Forall sized (l1 ++ l2) -> 8 + bare l1 <= n <= 8 + length (body_of l1) ->
  forall m, Parse (firstn n (packet v r c ty len (body_of (l1 ++ l2)))) = Ok m ->
  exists m1, Parse (packet v r c ty len (body_of l1)) = Ok m1 /\ content m = content m1.
Proof. exact Parse_trunc_content. Qed.
Print Assumptions C60_accepted_cuts.
Print Assumptions C60_silent.
(** an ASP Active with Traffic Mode Type and a 3-octet Info String: 27 octets and the 1 of padding; the cuts that decode *)
Definition x_l : list (N * list byte) := [(11%N, [x00; x00; x00; x02]); (4%N, [x61; x62; x63])].
Definition decodes (b : list byte) : bool := match Parse b with Ok _ => true | _ => false end.
Example C60_ex : Forall sized x_l /\ permitted x04 x01 x_l /\
  filter (fun n => decodes (firstn n (packet x01 x00 x04 x01 24 (body_of x_l)))) (seq 0 25) = [8; 16; 23; 24].
Proof.
  assert (T : forall n, (N.of_nat n <= 65531)%N -> n <= max_value_len) by (intros n H; unfold max_value_len; lia).
  split; [apply Forall_cons; [|apply Forall_cons; [|apply Forall_nil]]; (split; [reflexivity|apply T; vm_compute; discriminate])|].
  split; [|vm_compute; reflexivity].
  intros mt H. destruct mt; vm_compute in H; try discriminate. repeat apply Forall_cons; try apply Forall_nil; vm_compute; auto.
Qed.

(** C61: user data too long for the receiver's buffer: the packet is received as pieces of which the first or the second is invalid ... *)
Theorem C61_broken : forall g b bs, cfg_ok g -> (N.of_nat (length b) <= 65519)%N -> data_overhead g + length b > 1500 -> encodes (user_data g b) bs ->
  (forall m, ~ valid (firstn 1500 bs) m) \/ (forall m, ~ valid (firstn 1500 (skipn 1500 bs)) m).
Proof. exact oversized. Qed.
(** ... so that whatever the state of the receiver and whatever follows, at most those two pieces are ever read: nothing queued behind them is. *)
Theorem C61_last : forall g b bs c q ls c', cfg_ok g -> (N.of_nat (length b) <= 65519)%N -> data_overhead g + length b > 1500 ->
  encodes (user_data g b) bs -> reachable c -> inq c = bs :: q -> run c ls = Some c' ->
  exists k, k <= 2 /\ reads (log c') = reads (log c) ++ firstn k (chunks bs).
Proof. exact oversized_last. Qed.
Print Assumptions C61_broken.
Print Assumptions C61_last.
Definition long : list byte := repeat x61 1449.
Example C61_ex : exists bs c, cfg_ok x_cfg /\ encodes (user_data x_cfg long) bs /\ data_overhead x_cfg + length long = 1501 /\
  run x_server [LArrive bs; LArrive pk_beat] = Some c /\ inq c = [bs; pk_beat] /\ mon c = MRead /\ state c = Active.
Proof.
  eexists _, _. split; [apply C31_ex_cfg|]. split; [eexists; vm_compute; reflexivity|]. split; [reflexivity|].
  split; [vm_compute; reflexivity|]. repeat split.
Qed.

(** C62: packets are read in the order of their arrival, each exactly once, those above 1500 octets in pieces. *)
Theorem C62_fifo : forall m g o ls c, run (start m g o) ls = Some c ->
  flat_map chunks (arrivals ls) = reads (log c) ++ flat_map chunks (inq c).
Proof. exact fifo. Qed.
Theorem C62_whole : forall p, concat (chunks p) = p /\ (length p <= 1500 -> chunks p = [p]).
Proof. intros p. split; [apply concat_chunks|apply chunks_small]. Qed.
Print Assumptions C62_fifo.
Print Assumptions C62_whole.
Example C62_ex : exists c, run (start Server x_cfg 3) (server_up ++ [LArrive pk_beat; LArrive pk_notify]) = Some c /\
  arrivals server_up = [pk_up; pk_active] /\ reads (log c) = [pk_up; pk_active] /\ inq c = [pk_beat; pk_notify].
Proof. eexists. split; [vm_compute; reflexivity|]. repeat split. Qed.
