(** C70-C73: the heartbeats sent, the heartbeat acks accepted, failed establishment, goroutines that remain. *)
From Verif Require Import GoBase ParamsModel MessagesModel WireSpec ConfigModel ConnModel ConnSpec ConnBase ConnInv ConnTrace ConnUser
  ConnMore ConnExamples ConnStable ConnBeat ConnPace ConnEnd PropsFsm PropsClose.
From Coq Require Import Arith Lia.
Open Scope nat_scope.
Opaque max_value_len.

(** C70: every BEAT is sent on stream 0 of a connection with heartbeats enabled, and carries 128 octets of Heartbeat Data. *)
Theorem C70_form : forall c s m b, reachable c -> In (ESend OHb s m b) (log c) ->
  beats_enabled (cfg c) = true /\ s = 0%N /\ exists x, length x = 128 /\ m = beat x /\ b = packet x01 x00 x03 x03 140 (body_of [(9%N, x)]).
Proof. exact beat_form. Qed.
(** Before the n+1st BEAT at least n BEAT ACKs have been received, and the connection has been Active. *)
Theorem C70_paced : forall c l1 s m b l2, reachable c -> log c = l1 ++ ESend OHb s m b :: l2 ->
  length (beats l1) <= acks l1 /\ In Active (updates l1).
Proof. exact beat_paced. Qed.
(** It need not be Active any more. *)
Definition next_beat : list label := [LHbTimer; LHbRand (repeat x62 128); LHb true; LHb true].
Definition late_beat : list label :=
  [LArrive (pk_beat_ack x_beat); LMon true] ++ hand 2 6 ++ [LMon true] ++ reply 3 pk_inactive ++ next_beat.
Definition x_late : conn := Eval vm_compute in after x_server_hb late_beat.
Theorem C70_active_refuted : exists ls c l b, run x_server_hb ls = Some c /\ crash c = None /\ state c = Inactive /\
  log c = l ++ [EUpd Inactive; ESend OHb 0 (beat (repeat x62 128)) b].
Proof.
  exists late_beat, x_late, (firstn (length (log x_late) - 2) (log x_late)).
  eexists. split; [vm_compute; reflexivity|]. split; [reflexivity|]. split; [reflexivity|]. vm_compute. reflexivity.
Qed.
Print Assumptions C70_form.
Print Assumptions C70_paced.
Print Assumptions C70_active_refuted.
(** two BEATs, with an ack between them *)
Definition second_beat : list label := [LArrive (pk_beat_ack x_beat); LMon true] ++ hand 2 6 ++ [LMon true] ++ next_beat.
Definition x_second : conn := Eval vm_compute in after x_server_hb second_beat.
Example C70_ex : run x_server_hb second_beat = Some x_second /\ reachable x_second /\ length (beats (log x_second)) = 2 /\ acks (log x_second) = 1 /\
  (exists l1 s m b, log x_second = l1 ++ [ESend OHb s m b] /\ length (beats l1) = 1).
Proof.
  assert (R : run x_server_hb second_beat = Some x_second) by (vm_compute; reflexivity).
  split; [exact R|]. split; [eapply reachable_run; [apply x_server_hb_reachable|exact R]|].
  split; [vm_compute; reflexivity|]. split; [vm_compute; reflexivity|].
  exists (removelast (log x_second)). eexists _, _, _. split; [reflexivity|vm_compute; reflexivity].
Qed.

(** C71: from the second BEAT on, a BEAT ACK with the data of the last BEAT, from a peer that has not sent more acks
    than it received BEATs, is accepted - also when it is handled before the heartbeat goroutine has noted the data. *)
Theorem C71_accepted : forall m g o ls c i ok t p k d, run (start m g o) ls = Some c ->
  Forall (fun l => match l with LOtherBeat _ => False | _ => True end) ls -> crash c = None ->
  nth_error (hs c) i = Some (IHandle t :: k) -> m_kind t = KHeartbeatAck -> fget FHeartbeatData (m_f t) = Some p -> HeartbeatData p = d ->
  last_beat (log c) d -> 2 <= length (beats (log c)) -> acks (log c) <= length (beats (log c)) ->
  state c = Active -> unlocked c = true -> step c (LHand i ok) = Some (hgo i k c).
Proof. exact good_ack. Qed.
(** The correct ack of the first BEAT is refused when it is handled before the data are noted. *)
Definition early_ack : list label :=
  [LHb true] ++ server_up ++ [LHb true; LHbRand x_beat; LHb true] ++ [LArrive (pk_beat_ack x_beat); LMon true] ++ hand 2 4 ++ [LMon true].
Definition x_early : conn := Eval vm_compute in after (start Server x_cfg_hb 3) early_ack.
Theorem C71_first_refuted : exists ls c l b m m' b',
  run (start Server x_cfg_hb 3) ls = Some c /\ crash c = None /\ state c = Active /\
  log c = l ++ [ESend OHb 0 (beat x_beat) b; ERead (pk_beat_ack x_beat); ERefused (OHand 2) (EUnexpected m); ESend OMon 0 m' b'].
Proof.
  exists early_ack, x_early, (firstn (length (log x_early) - 4) (log x_early)).
  eexists _, _, _, _. split; [vm_compute; reflexivity|]. split; [reflexivity|]. split; [reflexivity|]. vm_compute. reflexivity.
Qed.
Print Assumptions C71_accepted.
Print Assumptions C71_first_refuted.
(** the ack of the second BEAT, handled before its data are noted *)
Definition ack2 : list label := [LArrive (pk_beat_ack (repeat x62 128)); LMon true] ++ hand 3 2.
Definition to_ack2 : list label := server_hb ++ [LArrive (pk_beat_ack x_beat); LMon true] ++ hand 2 6 ++ [LMon true; LHbTimer; LHbRand (repeat x62 128); LHb true] ++ ack2.
Definition x_ack2 : conn := Eval vm_compute in after (start Server x_cfg_hb 3) to_ack2.
Example C71_ex : exists t p k, run (start Server x_cfg_hb 3) to_ack2 = Some x_ack2 /\
  Forall (fun l => match l with LOtherBeat _ => False | _ => True end) to_ack2 /\ crash x_ack2 = None /\ hb x_ack2 = BStore (repeat x62 128) /\
  nth_error (hs x_ack2) 3 = Some (IHandle t :: k) /\ m_kind t = KHeartbeatAck /\ fget FHeartbeatData (m_f t) = Some p /\
  HeartbeatData p = repeat x62 128 /\ last_beat (log x_ack2) (repeat x62 128) /\ length (beats (log x_ack2)) = 2 /\ acks (log x_ack2) = 2 /\
  state x_ack2 = Active /\ unlocked x_ack2 = true.
Proof.
  eexists _, _, _. split; [vm_compute; reflexivity|]. split; [repeat constructor|]. split; [reflexivity|]. split; [reflexivity|].
  split; [reflexivity|]. split; [reflexivity|]. split; [reflexivity|]. split; [vm_compute; reflexivity|]. split.
  - exists (firstn (length (log x_ack2) - 2) (log x_ack2)). eexists. exists [ERead (pk_beat_ack (repeat x62 128))]. split; [vm_compute; reflexivity|repeat constructor].
  - split; [vm_compute; reflexivity|]. split; [vm_compute; reflexivity|]. split; reflexivity.
Qed.

(** C72: once Dial/Accept has failed nothing more is read from or written to the association, whatever runs on. *)
Theorem C72_silent : forall c ls c', reachable c -> dial c = DFailed \/ dial c = DTimeout -> run c ls = Some c' ->
  dial c' = dial c /\ sopen c' = false /\ us c' = [] /\ reads (log c') = reads (log c) /\ sends (log c') = sends (log c).
Proof.
  intros c ls c' R F Ru. destruct (failed_gone c R F) as [G _]. destruct (gone_forever c ls c' G Ru) as ((_ & A & B) & D & E & H). auto.
Qed.
(** When it failed because the monitor closed the connection the monitor has ended ... *)
Theorem C72_closed_ended : forall c, reachable c -> dial c = DFailed -> mon c = MExit.
Proof. intros c R D. apply (failed_gone c R); [left|]; exact D. Qed.
(** ... and a monitor waiting for a packet at the timeout ends. *)
Theorem C72_reading_ends : forall c, reachable c -> crash c = None -> dial c = DTimeout -> mon c = MRead ->
  exists c', run c [LMon true; LMon true] = Some c' /\ mon c' = MExit /\ crash c' = None.
Proof. intros c R C D. apply failed_monitor_ends; auto. now right. Qed.
(** But the timeout can leave the monitor behind for ever, holding the state lock. *)
Definition at_est : list label := boot_server ++ reply 0 pk_up ++ reply 1 pk_active.
Theorem C72_ends_refuted : exists c, run (start Server x_cfg 3) (at_est ++ [LDialTimeout]) = Some c /\ dial c = DTimeout /\ crash c = None /\
  forall ls c', run c ls = Some c' -> mon c' = MEst /\ unlocked c' = false.
Proof.
  eexists. split; [vm_compute; reflexivity|]. split; [reflexivity|]. split; [reflexivity|]. intros ls c' R.
  match type of R with run ?x _ = _ => destruct (stuck_est_forever x ls c') as ((M & _) & _) end; auto.
  - split; [reflexivity|]. split; [discriminate|reflexivity].
  - split; auto. unfold unlocked. now rewrite M.
Qed.
Print Assumptions C72_silent.
Print Assumptions C72_closed_ended.
Print Assumptions C72_reading_ends.
Print Assumptions C72_ends_refuted.
Example C72_ex : exists c, run (start Client x_cfg 3) (boot_client ++ [LDialTimeout]) = Some c /\ dial c = DTimeout /\ mon c = MRead /\
  crash c = None /\ length (sends (log c)) = 1.
Proof. eexists. split; [vm_compute; reflexivity|]. repeat split. Qed.
(** a server whose association breaks after a handshaked ASP Up *)
Example C72_ex_closed : exists c, run (start Server x_cfg 3) (boot_server ++ reply 0 pk_up ++ [LMon false; LMon true; LDialClosed]) = Some c /\
  dial c = DFailed /\ mon c = MExit /\ length (reads (log c)) = 1.
Proof. eexists. split; [vm_compute; reflexivity|]. repeat split. Qed.

(** C73: after the monitor has ended, goroutines that have something to report to it never end, nor does a heartbeat
    goroutine that has not begun waiting or is still waiting for the establishment. *)
Theorem C73_stuck : forall c ls c', mon c = MExit -> run c ls = Some c' ->
  (forall i p, nth_error (hs c) i = Some p -> to_monitor p -> nth_error (hs c') i = Some p) /\
  (forall i e, nth_error (ds c) i = Some (DErr e) -> nth_error (ds c') i = Some (DErr e)) /\
  (forall e, hb c = BErr e -> hb c' = BErr e) /\
  (hb c = BStart \/ hb c = BWait -> hb c' = BStart \/ hb c' = BWait).
Proof. intros c ls c' M R. apply (exit_forever c ls c' M R). Qed.
(** Close on an idle connection whose heartbeat goroutine is between two BEATs leaves that goroutine behind, unless the
    context is cancelled. *)
Theorem C73_heartbeat_stays : forall c i ok, reachable c -> crash c = None -> mon c = MRead -> Forall (fun d => d = DDone) (ds c) -> maxs c <> 0%N ->
  closed c = false -> state c <> Down -> nth_error (us c) i = Some (UGo OpClose) -> ctxd c = false ->
  match hb c with BSleep | BRand | BWrite _ | BErr _ => True | _ => False end ->
  exists c1, step c (LUser i ok) = Some c1 /\ nth_error (us c1) i = Some (UDone (RClosed (sopen c))) /\
    forall ls c', Forall (fun l => match l with LCancel => False | _ => True end) ls -> run c1 ls = Some c' -> hb c' <> BDone /\ crash c' = None.
Proof.
  intros c i ok R C M D Mx Cl Sn N X H. destruct (close_leaks c i ok R C M D Mx Cl Sn N X H) as (c1 & S & U & L).
  exists c1. split; auto. split; auto. intros ls c' F Ru. destruct (L ls c' F Ru) as [A B]. split; auto. intros E. rewrite E in A. exact A.
Qed.
(** Otherwise - heartbeat disabled, or waiting for an ack - all goroutines can end within three steps, and then nothing runs. *)
Theorem C73_ends : forall c i, reachable c -> crash c = None -> mon c = MRead -> Forall (fun d => d = DDone) (ds c) -> maxs c <> 0%N ->
  closed c = false -> state c <> Down -> nth_error (us c) i = Some (UGo OpClose) ->
  hb c = BDone \/ hb c = BAck \/ (beats_enabled (cfg c) = false /\ hb c = BRun) ->
  exists ls c', run c (LUser i true :: ls) = Some c' /\ length ls <= 3 /\ all_ended c' /\
    forall ls' c2, run c' ls' = Some c2 -> all_ended c2 /\ crash c2 = None.
Proof. exact close_ends. Qed.
(** a cancelled monitor leaves the goroutine of a packet behind *)
Theorem C73_all_end_refuted : exists c s, run x_server ([LArrive pk_inactive; LMon true] ++ hand 2 4 ++ [LCancel; LMonCtx; LMon true]) = Some c /\
  crash c = None /\ mon c = MExit /\ sopen c = false /\
  forall ls c', run c ls = Some c' -> nth_error (hs c') 2 = Some [ISt s].
Proof.
  eexists _, Inactive. split; [vm_compute; reflexivity|]. split; [reflexivity|]. split; [reflexivity|]. split; [reflexivity|]. intros ls c' R.
  match type of R with run ?x _ = _ => destruct (C73_stuck x ls c') as (A & _) end; auto; try reflexivity. apply A; [reflexivity|exact Logic.I].
Qed.
Print Assumptions C73_stuck.
Print Assumptions C73_heartbeat_stays.
Print Assumptions C73_ends.
Print Assumptions C73_all_end_refuted.
(** a sleeping heartbeat, and one waiting for its ack *)
Example C73_ex_sleep : exists c, run x_server_hb ([LArrive (pk_beat_ack x_beat); LMon true] ++ hand 2 6 ++ [LMon true; LCall OpClose]) = Some c /\
  mon c = MRead /\ ds c = [] /\ maxs c = 2%N /\ closed c = false /\ state c = Active /\ nth_error (us c) 0 = Some (UGo OpClose) /\ ctxd c = false /\ hb c = BSleep.
Proof. eexists. split; [vm_compute; reflexivity|]. repeat split. Qed.
Example C73_ex_ack : exists c, run x_server_hb [LCall OpClose] = Some c /\
  mon c = MRead /\ ds c = [] /\ maxs c = 2%N /\ closed c = false /\ state c = Active /\ nth_error (us c) 0 = Some (UGo OpClose) /\ hb c = BAck.
Proof. eexists. split; [vm_compute; reflexivity|]. repeat split. Qed.
