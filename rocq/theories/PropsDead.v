(** C129: deadlines. *)
From Verif Require Import GoBase BaseProofs ParamsModel MessagesModel ConfigModel ConnModel ConnSpec ConnBase ConnInv ConnUser ConnMacro
  ConnMore ConnExamples ConnStable ConnData LastSpec ConnLast PropsLast ConnPair ConnDialog DeadModel DeadSpec DeadProofs.
From Coq Require Import Arith Lia ZArith.
Open Scope nat_scope.

(** The deadlines in force are the ones set last, SetDeadline setting both, and time does not go back. *)
Theorem C129_last : forall x ls x', drun x ls = Some x' -> last_set true (d_read x) ls (d_read x') /\ last_set false (d_write x) ls (d_write x') /\ (d_now x <= d_now x')%Z.
Proof. intros x ls x' R. destruct (last_sets ls x x' R) as [A B]. split; [exact A|]. split; [exact B|]. exact (clock ls x x' R). Qed.
(** As long as no deadline has passed, deadlines change nothing, and they never make anything possible that was not (so all other properties hold with them). *)
Theorem C129_before : forall x t l, (d_now x <= t)%Z -> ~ past (d_read x) t -> ~ past (d_write x) t ->
  dstep x t (ADo l) = match step (dc x) l with Some c => Some (mkD c t (d_read x) (d_write x)) | None => None end.
Proof. intros x t l T R W. apply not_passed; auto using passed_not. Qed.
Theorem C129_only : forall x ls x', drun x ls = Some x' -> run (dc x) (flat_map (fun y => match snd y with ADo l => [l] | _ => [] end) ls) = Some (dc x').
Proof. intros x ls x'. exact (drun_run ls x x'). Qed.
(** Whatever neither reads nor sends a packet goes on whatever deadlines have passed (the call of the association in it, if any, may have to fail). *)
Theorem C129_rest : forall x t l c, (d_now x <= t)%Z -> step (dc x) l = Some c -> packets (log c) = packets (log (dc x)) -> reads (log c) = reads (log (dc x)) ->
  exists l', dstep x t (ADo l') = Some (mkD c t (d_read x) (d_write x)).
Proof. intros x t l c T S P R. destruct (rest_goes_on x t l c T S P R) as (l' & _ & D). exists l'. exact D. Qed.
(** A passed read deadline does not end a Read or ReadPD that waits: it goes on waiting until there is data or the connection is closed. *)
Theorem C129_read : forall x t i ok buf, nth_error (us (dc x)) i = Some (URecv buf) -> dq (dc x) = [] -> closed (dc x) = false -> dstep x t (ADo (LUser i ok)) = None.
Proof. exact read_waits. Qed.
(** What a passed read deadline does to an established connection that waits for a packet, whether or not anybody reads and whatever has arrived: it is closed. *)
Theorem C129_closes : forall m g o t0 ls x t ok, drun (dstart m g o t0) ls = Some x -> listening (dc x) -> (d_now x <= t)%Z -> past (d_read x) t ->
  dstep x t (ADo (LMon true)) = None /\
  exists x', drun x [(t, ADo (LMon false)); (t, ADo (LMon ok))] = Some x' /\ ended (dc x') /\ crash (dc x') = None /\ mon (dc x') = MExit /\
    us (dc x') = us (dc x) /\ dq (dc x') = dq (dc x) /\ delivered (log (dc x')) = delivered (log (dc x)).
Proof. intros m g o t0 ls x t ok R L T P. apply expires; [eapply drun_reachable; eauto|exact L|exact T|now apply passed_past]. Qed.
(** For good, whatever deadlines are set afterwards: the waiting calls are given what is queued or ErrNotEstablished, later ones no data. *)
Theorem C129_for_good : forall x ls x', ended (dc x) -> crash (dc x) = None -> drun x ls = Some x' -> crash (dc x') = None ->
  ended (dc x') /\
  (forall i buf t ok, nth_error (us (dc x')) i = Some (URecv buf) -> (d_now x' <= t)%Z -> exists x'' r, dstep x' t (ADo (LUser i ok)) = Some x'' /\ nth_error (us (dc x'')) i = Some (UDone r) /\
     r = match dq (dc x') with pd :: _ => read_result buf pd | [] => RNotEstablished end).
Proof.
  intros x ls x' E C R C'. pose proof (ended_for_good x ls x' E C R C') as E'. split; [exact E'|]. intros i buf t ok U T.
  destruct (C106_returns (dc x') i buf ok E' C' U) as (c & r & S & _ & _ & N & _ & Er). exists (mkD c t (d_read x') (d_write x')), r. split; [|split; [exact N|exact Er]].
  unfold dstep. rewrite (proj2 (Z.leb_le _ _) T). unfold too_late, reading, writing. rewrite U. cbn [andb orb]. rewrite andb_false_r, S. reflexivity.
Qed.
(** While a write deadline has passed, nothing at all is sent; Write and WritePD return the error of SCTPWrite and leave the connection as it is. *)
Theorem C129_silent : forall x ls x', past (d_write x) (d_now x) -> Forall (fun y => keeps_write (snd y)) ls -> drun x ls = Some x' ->
  packets (log (dc x')) = packets (log (dc x)).
Proof. intros x ls x' P. apply nothing_sent. now apply passed_past. Qed.
Theorem C129_write : forall x t i s m, crash (dc x) = None -> (d_now x <= t)%Z -> past (d_write x) t -> nth_error (us (dc x)) i = Some (USend s m) ->
  dstep x t (ADo (LUser i true)) = None /\
  exists x', dstep x t (ADo (LUser i false)) = Some x' /\ dc x' = ugo i (UDone RWriteError) (dc x).
Proof. intros x t i s m C T P. apply write_fails; auto. now apply passed_past. Qed.
(** The signals of the endpoint itself fail as well, and that closes an established connection as soon as the monitor listens to its goroutines (between two packets): the
    answer to a packet, ... *)
Theorem C129_answer : forall x t i m k ok, crash (dc x) = None -> mon (dc x) = MSelect -> state (dc x) <> Down -> closed (dc x) = false -> (d_now x <= t)%Z -> past (d_write x) t ->
  nth_error (hs (dc x)) i = Some (IWrite m :: k) ->
  dstep x t (ADo (LHand i true)) = None /\
  (exists x', drun x [(t, ADo (LHand i false)); (t, ADo (LHand i true)); (t, ADo (LMon false)); (t, ADo (LMon ok))] = Some x' /\
     crash (dc x') = None /\ mon (dc x') = MExit /\ state (dc x') = Down /\ closed (dc x') = true /\ sopen (dc x') = false /\ us (dc x') = us (dc x)).
Proof. intros x t i m k ok C M S K T P. apply signal_fails; auto. now apply passed_past. Qed.
(** ... and a heartbeat. *)
Theorem C129_beat : forall x t d ok, crash (dc x) = None -> mon (dc x) = MSelect -> state (dc x) <> Down -> closed (dc x) = false -> (d_now x <= t)%Z -> past (d_write x) t ->
  hb (dc x) = BWrite d ->
  dstep x t (ADo (LHb true)) = None /\
  (exists x', drun x [(t, ADo (LHb false)); (t, ADo (LHb true)); (t, ADo (LMon false)); (t, ADo (LMon ok))] = Some x' /\
     crash (dc x') = None /\ mon (dc x') = MExit /\ state (dc x') = Down /\ closed (dc x') = true /\ sopen (dc x') = false /\ us (dc x') = us (dc x)).
Proof. intros x t d ok C M S K T P. apply beat_fails; auto. now apply passed_past. Qed.

(** "A read deadline makes Read give up and leaves the connection usable" is false: the server reads the one payload in time and sets no other deadline; nobody is in a
    Read when the deadline passes, and yet the connection is gone: Write, which had no deadline, and Read with a new one are refused, and the DATA that has arrived is not read. *)
Definition dx : dconn := mkD x_server 0 None None.
Definition do (t : Z) (ls : list label) : list (Z * dact) := map (fun l => (t, ADo l)) ls.
Definition in_time : list (Z * dact) :=
  [(1, ASetRead (Some 10))]%Z ++ do 2 (l_take (pk_data [x61]) ++ [LCall (OpRead (zeros 1)); LUser 0 true; LUser 0 true]).
Definition late : list (Z * dact) :=
  do 11 [LArrive (pk_data [x62]); LMon false; LMon true] ++ [(12, ASetRead None)]%Z ++ do 13 [LCall (OpRead (zeros 1)); LUser 1 true; LCall (OpWriteTo [x63] 1); LUser 2 true; LCall OpState; LUser 3 true].
Theorem C129_usable_refuted : exists x x', drun dx in_time = Some x /\ listening (dc x) /\ us (dc x) = [UDone (RRead 1 [x61])] /\ drun x late = Some x' /\
  crash (dc x') = None /\ us (dc x') = [UDone (RRead 1 [x61]); UDone RNotEstablished; UDone RNotEstablished; UDone (RState Down)] /\ inq (dc x') = [pk_data [x62]].
Proof.
  destruct (drun dx in_time) as [x|] eqn:E; [|vm_compute in E; discriminate]. destruct (drun x late) as [x'|] eqn:E'.
  - exists x, x'. vm_compute in E. injection E as <-. vm_compute in E'. injection E' as <-. split; [reflexivity|]. split; [constructor; cbn; congruence|]. repeat split; vm_compute; reflexivity.
  - exfalso. vm_compute in E. injection E as <-. vm_compute in E'. discriminate.
Qed.
(** "A write deadline concerns the user's writes only" is false: a BEAT of the peer that cannot be answered closes the connection. *)
Definition beat_late : list (Z * dact) :=
  [(1, ASetWrite (Some 5))]%Z ++ do 6 ([LArrive pk_beat; LMon true] ++ hand 2 3 ++ [LHand 2 false; LHand 2 true; LMon false; LMon true]).
Theorem C129_write_refuted : exists x, drun dx beat_late = Some x /\ crash (dc x) = None /\ state (dc x) = Down /\ sopen (dc x) = false /\ us (dc x) = [].
Proof.
  destruct (drun dx beat_late) as [x|] eqn:E; [|vm_compute in E; discriminate]. exists x. vm_compute in E. injection E as <-. repeat split; vm_compute; reflexivity.
Qed.
Print Assumptions C129_last.
Print Assumptions C129_before.
Print Assumptions C129_only.
Print Assumptions C129_rest.
Print Assumptions C129_read.
Print Assumptions C129_closes.
Print Assumptions C129_for_good.
Print Assumptions C129_silent.
Print Assumptions C129_write.
Print Assumptions C129_answer.
Print Assumptions C129_beat.
Print Assumptions C129_usable_refuted.
Print Assumptions C129_write_refuted.

(** an established server with a passed read deadline and a waiting Read, and one with a passed write deadline and a Write on its way *)
Definition ex_read : list (Z * dact) := do 0 server_up ++ [(1, ASetRead (Some 10))]%Z ++ do 2 [LCall (OpRead (zeros 1)); LUser 0 true].
Definition ex_write : list (Z * dact) := do 0 server_up ++ [(1, ASet (Some 10))]%Z ++ do 2 [LCall (OpWriteTo [x61] 1); LUser 0 true] ++ [(11, ASetRead None)]%Z.
Example C129_ex_read : exists x, drun (dstart Server x_cfg 3 0) ex_read = Some x /\ listening (dc x) /\ past (d_read x) 11 /\ (d_now x <= 11)%Z /\
  nth_error (us (dc x)) 0 = Some (URecv (Some (zeros 1))) /\ dq (dc x) = [] /\ closed (dc x) = false.
Proof.
  destruct (drun (dstart Server x_cfg 3 0) ex_read) as [x|] eqn:E; [|vm_compute in E; discriminate]. exists x. vm_compute in E. injection E as <-.
  split; [reflexivity|]. split; [constructor; cbn; congruence|]. split; [exists 10%Z; split; [reflexivity|lia]|]. split; [cbn; lia|]. repeat split; vm_compute; reflexivity.
Qed.
Example C129_ex_write : exists x s m, drun (dstart Server x_cfg 3 0) ex_write = Some x /\ crash (dc x) = None /\ past (d_write x) (d_now x) /\ d_read x = None /\
  nth_error (us (dc x)) 0 = Some (USend s m) /\ length (packets (log (dc x))) = 2.
Proof.
  destruct (drun (dstart Server x_cfg 3 0) ex_write) as [x|] eqn:E; [|vm_compute in E; discriminate]. exists x. vm_compute in E. injection E as <-.
  eexists _, _. split; [reflexivity|]. split; [reflexivity|]. split; [exists 10%Z; split; [reflexivity|cbn; lia]|]. split; [reflexivity|]. split; [reflexivity|]. vm_compute; reflexivity.
Qed.
(** an established server about to answer a BEAT, and one about to send a heartbeat *)
Definition ex_answer : list (Z * dact) := do 0 server_up ++ [(1, ASetWrite (Some 5))]%Z ++ do 6 ([LArrive pk_beat; LMon true] ++ hand 2 3).
Definition ex_beat : list (Z * dact) :=
  do 0 ([LHb true] ++ server_up ++ [LHb true; LHbRand (repeat x61 128)]) ++ [(1, ASetWrite (Some 5))]%Z ++ do 6 [LArrive pk_notify; LMon true].
Example C129_ex_answer : exists x m k, drun (dstart Server x_cfg 3 0) ex_answer = Some x /\ crash (dc x) = None /\ mon (dc x) = MSelect /\ state (dc x) = Active /\ closed (dc x) = false /\
  past (d_write x) (d_now x) /\ nth_error (hs (dc x)) 2 = Some (IWrite m :: k).
Proof.
  destruct (drun (dstart Server x_cfg 3 0) ex_answer) as [x|] eqn:E; [|vm_compute in E; discriminate]. exists x. vm_compute in E. injection E as <-.
  eexists _, _. split; [reflexivity|]. do 4 (split; [reflexivity|]). split; [exists 5%Z; split; [reflexivity|cbn; lia]|]. reflexivity.
Qed.
Example C129_ex_beat : exists x d, drun (dstart Server x_cfg_hb 3 0) ex_beat = Some x /\ crash (dc x) = None /\ mon (dc x) = MSelect /\ state (dc x) = Active /\ closed (dc x) = false /\
  past (d_write x) (d_now x) /\ hb (dc x) = BWrite d.
Proof.
  destruct (drun (dstart Server x_cfg_hb 3 0) ex_beat) as [x|] eqn:E; [|vm_compute in E; discriminate]. exists x. vm_compute in E. injection E as <-.
  eexists. split; [reflexivity|]. do 4 (split; [reflexivity|]). split; [exists 5%Z; split; [reflexivity|cbn; lia]|]. reflexivity.
Qed.
(** with a passed read deadline and a Read waiting: DATA that was read in time is given to it *)
Definition ex_rest : list (Z * dact) :=
  do 0 server_up ++ [(1, ASet (Some 5))]%Z ++ do 2 ([LCall (OpRead (zeros 1)); LUser 0 true; LArrive (pk_data [x61]); LMon true] ++ hand 2 4 ++ [LMon true; LData 0; LData 0; LData 0]) ++ [(6, ASetWrite None)]%Z.
Example C129_ex_rest : exists x c, drun (dstart Server x_cfg 3 0) ex_rest = Some x /\ past (d_read x) (d_now x) /\ step (dc x) (LUser 0 true) = Some c /\
  packets (log c) = packets (log (dc x)) /\ reads (log c) = reads (log (dc x)) /\ nth_error (us c) 0 = Some (UDone (RRead 1 [x61])).
Proof.
  destruct (drun (dstart Server x_cfg 3 0) ex_rest) as [x|] eqn:E; [|vm_compute in E; discriminate]. exists x. vm_compute in E. injection E as <-.
  eexists. split; [reflexivity|]. split; [exists 5%Z; split; [reflexivity|cbn; lia]|]. split; [vm_compute; reflexivity|]. repeat split; vm_compute; reflexivity.
Qed.
