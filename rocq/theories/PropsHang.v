(** C118: which calls return. *)
From Verif Require Import GoBase BaseProofs ParamsModel MessagesModel ConfigModel ConnModel ConnSpec ConnBase ConnInv ConnUser ConnMacro ConnMore
  ConnExamples ConnStable PropsFsm PropsClose WorkSpec HangSpec HangProofs.
From Coq Require Import Arith Lia.
Open Scope nat_scope.

(** A call that is made can be over after the given number of steps of its own and of the monitor, however the system calls in them end: it has
    returned, or it is a Read or ReadPD and waits for data; unless the connection was activated a second time. *)
Theorem C118_calls : forall c i op, reachable c -> crash c = None -> nth_error (us c) i = Some (UGo op) -> drawn c (UGo op) ->
  over_within i (needed op) c \/ (jammed c /\ forall m, op <> OpWriteSignal m).
Proof. intros c i op R C N W. destruct (calls_over c i _ R C N W) as [H|(op' & E & J & F)]; [left; exact H|right]. injection E as <-. auto. Qed.
(** A call already under way needs one more step. *)
Theorem C118_under_way : forall c i u, reachable c -> crash c = None -> nth_error (us c) i = Some u -> (forall op, u <> UGo op) -> over_within i 1 c.
Proof.
  intros c i u R C N W. destruct u as [op|b|s m|r]; [exfalso; now apply (W op)|now apply (recv_over c i b)|now apply (send_over c i s m)|].
  apply ow_now. left. exists r. exact N.
Qed.
(** However everything is scheduled: when nothing is left to do, every call has returned, except a Read that waits for data and the calls on a
    connection activated twice. *)
Theorem C118_rest : forall c i u, reachable c -> crash c = None -> at_rest c -> nth_error (us c) i = Some u -> drawn c u ->
  returned c i \/ awaits c i \/ exists op, u = UGo op /\ jammed c /\ forall m, op <> OpWriteSignal m.
Proof. exact rest_calls. Qed.
(** The latter never return. *)
Theorem C118_never : forall c ls c' i op, jammed c -> nth_error (us c) i = Some (UGo op) -> (forall m, op <> OpWriteSignal m) -> run c ls = Some c' -> ~ returned c' i.
Proof. intros c ls c' i op (M & D & K) N W R (r & E). apply (C41_calls c ls c' i op M ltac:(congruence) K R N W r E). Qed.
(** A Read that waits returns a payload, or ErrNotEstablished once the connection is closed: nothing else ends it. *)
Theorem C118_wait : forall c ls c' i b, run c ls = Some c' -> nth_error (us c) i = Some (URecv b) ->
  exists u, nth_error (us c') i = Some u /\
    (u = URecv b \/ (exists pd, u = UDone (read_result b pd) /\ In (EDeliver pd) (log c')) \/ (u = UDone RNotEstablished /\ closed c' = true)).
Proof. exact wait_ends. Qed.
Print Assumptions C118_calls.
Print Assumptions C118_under_way.
Print Assumptions C118_rest.
Print Assumptions C118_never.
Print Assumptions C118_wait.

(** That the connection is no longer Active does not end it: Read, ASP Inactive, and nothing more happens. *)
Definition read_deactivated : list label := [LCall (OpRead (repeat x00 4)); LUser 0 true] ++ reply 2 pk_inactive.
Definition x_waiting : conn := Eval vm_compute in after x_server read_deactivated.
Theorem C118_inactive_refuted : exists ls c, run x_server ls = Some c /\ reachable c /\ crash c = None /\ state c = Inactive /\ awaits c 0.
Proof.
  exists read_deactivated, x_waiting. assert (R : run x_server read_deactivated = Some x_waiting) by (vm_compute; reflexivity).
  split; [exact R|]. split; [eapply reachable_run; [apply x_server_reachable|exact R]|]. split; [reflexivity|]. split; [reflexivity|].
  split; [exists (Some (repeat x00 4)); reflexivity|]. split; reflexivity.
Qed.
Print Assumptions C118_inactive_refuted.
(** ... with nothing left to do: the heartbeat goroutine of this connection ends, as the heartbeat is off *)
Definition x_resting : conn := Eval vm_compute in after x_waiting [LHb true].
Example C118_ex_rest : run x_waiting [LHb true] = Some x_resting /\ reachable x_resting /\ crash x_resting = None /\ at_rest x_resting /\ awaits x_resting 0 /\ state x_resting = Inactive.
Proof.
  assert (R0 : run x_server read_deactivated = Some x_waiting) by (vm_compute; reflexivity).
  assert (R : run x_waiting [LHb true] = Some x_resting) by (vm_compute; reflexivity).
  split; [exact R|]. split; [eapply reachable_run; [eapply reachable_run; [apply x_server_reachable|exact R0]|exact R]|]. split; [reflexivity|]. split.
  - intros l I H. destruct l; try discriminate I; try discriminate H; try reflexivity; cbn in H; try subst ok; try reflexivity.
    + destruct i as [|[|[|i]]]; try reflexivity. destruct i; reflexivity.
    + destruct i; reflexivity.
    + destruct i; reflexivity.
    + destruct i as [|i]; [reflexivity|]. destruct i; reflexivity.
  - split; [|reflexivity]. split; [exists (Some (repeat x00 4)); reflexivity|]. split; reflexivity.
Qed.
(** Write needs all three steps: choice of the stream, check of the state, and the write; or, when the monitor is about to send (an established
    client has been told ASP Down Ack), choice, the monitor's step, check. *)
Definition write_locked : list label := [LArrive pk_down_ack; LMon true] ++ hand 2 4 ++ [LMon true; LHand 2 true; LMon true; LCall (OpWrite [x61] 0%N)].
Definition x_locked : conn := Eval vm_compute in after x_client write_locked.
Example C118_ex_write : run x_client write_locked = Some x_locked /\ nth_error (us x_locked) 0 = Some (UGo (OpWrite [x61] 0%N)) /\ drawn x_locked (UGo (OpWrite [x61] 0%N)) /\
  crash x_locked = None /\ unlocked x_locked = false /\ ~ over_within 0 2 x_locked.
Proof.
  split; [vm_compute; reflexivity|]. split; [reflexivity|]. split; [cbn; lia|]. split; [reflexivity|]. split; [reflexivity|].
  assert (Now : forall c, match nth_error (us c) 0 with Some (UGo _) => crash c = None | _ => False end -> ~ (returned c 0 \/ awaits c 0 \/ crash c <> None)).
  { intros c H [(r & E)|[((b & E) & _)|E]]; [rewrite E in H; exact H|rewrite E in H; exact H|]. destruct (nth_error (us c) 0) as [[]|]; try contradiction. }
  intros [H|(l & [->| ->] & H)]; [revert H; apply Now; reflexivity| |]; destruct (H true) as (c & S & [G|(l & [->| ->] & G)]); vm_compute in S; injection S as <-;
    try (revert G; apply Now; reflexivity); destruct (G true) as (c & S & [X|[]]); vm_compute in S; try discriminate S; injection S as <-; revert X; apply Now; reflexivity.
Qed.
(** an established server is told ASP Inactive and ASP Active again: State does not return, WriteSignal does *)
Definition twice_active : list label := reply 2 pk_inactive ++ reply 3 pk_active ++ [LCall OpState; LCall (OpWriteSignal (beat [x61]))].
Definition x_twice : conn := Eval vm_compute in after x_server twice_active.
Example C118_ex_jammed : run x_server twice_active = Some x_twice /\ reachable x_twice /\ crash x_twice = None /\ jammed x_twice /\
  nth_error (us x_twice) 0 = Some (UGo OpState) /\ (forall n, ~ over_within 0 n x_twice) /\ over_within 1 1 x_twice.
Proof.
  assert (R : run x_server twice_active = Some x_twice) by (vm_compute; reflexivity).
  assert (J : jammed x_twice) by (repeat split; reflexivity).
  split; [exact R|]. split; [eapply reachable_run; [apply x_server_reachable|exact R]|]. split; [reflexivity|]. split; [exact J|]. split; [reflexivity|]. split.
  - intros [|n] [[(r & E)|[((b & E) & _)|E]]|H]; try discriminate E; try (now apply E); [exact H|].
    destruct H as (l & [->| ->] & H); destruct (H true) as (c & S & _); discriminate S.
  - apply (call_over x_twice 1 (OpWriteSignal (beat [x61]))); try reflexivity; [intros m X; discriminate X|left; eauto].
Qed.
