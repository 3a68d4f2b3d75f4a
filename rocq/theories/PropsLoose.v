(** C117: a comparison of heartbeat data that races with other goroutines. *)
From Verif Require Import GoBase BaseProofs ParamsModel MessagesModel ConfigModel ConnModel ConnSpec ConnBase ConnInv ConnUser
  ConnExamples PropsClose LooseModel LooseSpec LooseProofs LooseSim.
From Coq Require Import Arith Lia.
Open Scope nat_scope.

(** What holds of everything that can be seen of a connection holds whether the check and the comparison of handleHeartbeatAck are one step
    or not, and whatever the comparison sees. *)
Theorem C117_same : forall P : shown -> Prop, (forall c, reachable c -> P (shows c)) <-> (forall s, loose_reachable s -> P (shows (l_conn s))).
Proof. exact loose_all. Qed.
(** When no comparison is under way, the packet goroutines too are where they are in an execution with atomic comparisons. *)
Theorem C117_rest : forall s, loose_reachable s -> l_cmp s = [] ->
  exists c, reachable c /\ shows c = shows (l_conn s) /\ hs c = hs (l_conn s) /\ crash c = crash (l_conn s).
Proof. intros s R E. destruct (loose_shows s R) as (c & Rc & Sh & _ & H). destruct (H E) as [Hh Hc]. exists c. auto. Qed.
(** No panic is added. *)
Theorem C117_panic : forall s p, loose_reachable s -> crash (l_conn s) = Some p -> exists c e, reachable c /\ crash c = Some p /\ log (l_conn s) = log c ++ e.
Proof. exact loose_panic. Qed.
(** Nothing is taken away. *)
Theorem C117_covers : forall c, reachable c -> exists s, loose_reachable s /\ l_conn s = c.
Proof. exact loose_covers. Qed.
Print Assumptions C117_same.
Print Assumptions C117_rest.
Print Assumptions C117_panic.
Print Assumptions C117_covers.

Definition loose_after (xs : list xlabel) : option loose := loose_run (loose_start Server x_cfg_hb 3) xs.
Lemma loose_after_reachable xs s : loose_after xs = Some s -> loose_reachable s.
Proof. intros R. exists Server, x_cfg_hb, 3%N, xs. exact R. Qed.
Definition checked (raw : list byte) : list xlabel := map XStep (server_hb ++ [LArrive raw; LMon true] ++ hand 2 2) ++ [XCheck 2].
Definition closing : list xlabel := map XStep [LCall OpClose; LUser 0 true].

(** Active at the check; Close; the comparison succeeds; the goroutine sends on the closed channel. *)
Definition l_late : option loose := Eval vm_compute in loose_after (checked (pk_beat_ack x_beat) ++ closing ++ [XCompare 2 true; XStep (LHand 2 true)]).
Example C117_ex_close : exists s, loose_after (checked (pk_beat_ack x_beat) ++ closing ++ [XCompare 2 true; XStep (LHand 2 true)]) = Some s /\
  loose_reachable s /\ state (l_conn s) = Down /\ crash (l_conn s) = Some PSendClosed /\ l_cmp s = [].
Proof.
  eexists. assert (E : loose_after (checked (pk_beat_ack x_beat) ++ closing ++ [XCompare 2 true; XStep (LHand 2 true)]) = l_late) by (vm_compute; reflexivity).
  split; [exact E|]. split; [eapply loose_after_reachable; exact E|]. repeat split; vm_compute; reflexivity.
Qed.
(** An ack with other octets, found equal because the data changed under the comparison: accepted. *)
Definition l_torn : option loose := Eval vm_compute in loose_after (checked (pk_beat_ack (repeat x62 128)) ++ [XCompare 2 true; XStep (LHand 2 true)]).
Example C117_ex_torn : exists s, loose_after (checked (pk_beat_ack (repeat x62 128)) ++ [XCompare 2 true; XStep (LHand 2 true)]) = Some s /\
  loose_reachable s /\ hb (l_conn s) = BSleep /\ crash (l_conn s) = None /\ hbd (l_conn s) = x_beat /\ l_cmp s = [].
Proof.
  eexists. assert (E : loose_after (checked (pk_beat_ack (repeat x62 128)) ++ [XCompare 2 true; XStep (LHand 2 true)]) = l_torn) by (vm_compute; reflexivity).
  split; [exact E|]. split; [eapply loose_after_reachable; exact E|]. repeat split; vm_compute; reflexivity.
Qed.
(** A BEAT ACK without data that was checked while Active panics after Close; handled in one step after Close it is refused. *)
Definition l_nil : option loose := Eval vm_compute in loose_after (checked pk_beat_ack_empty ++ closing ++ [XCompare 2 true]).
Definition x_nil : conn := Eval vm_compute in after (start Server x_cfg_hb 3) (server_hb ++ [LArrive pk_beat_ack_empty; LMon true] ++ hand 2 2 ++ [LCall OpClose; LUser 0 true; LHand 2 true]).
Example C117_ex_nil : exists s, loose_after (checked pk_beat_ack_empty ++ closing ++ [XCompare 2 true]) = Some s /\
  loose_reachable s /\ state (l_conn s) = Down /\ crash (l_conn s) = Some PNil /\
  run (start Server x_cfg_hb 3) (server_hb ++ [LArrive pk_beat_ack_empty; LMon true] ++ hand 2 2 ++ [LCall OpClose; LUser 0 true; LHand 2 true]) = Some x_nil /\
  crash x_nil = None.
Proof.
  eexists. assert (E : loose_after (checked pk_beat_ack_empty ++ closing ++ [XCompare 2 true]) = l_nil) by (vm_compute; reflexivity).
  split; [exact E|]. split; [eapply loose_after_reachable; exact E|]. repeat split; vm_compute; reflexivity.
Qed.
