(** C110: octets sent on the library's own account. *)
From Verif Require Import GoBase BaseProofs ParamsModel MessagesModel WireSpec MsgSpec ConfigModel ConnModel ConnSpec ConnBase ConnInv ConnExamples WorkSpec ConnWork SizeSpec ConnSize.
From Coq Require Import Arith Lia List.
Open Scope nat_scope.

(** A BEAT has 140 octets; a BEAT ACK is no longer than the BEAT it answers, with that one's padding completed; every other message the library sends
    is no longer than the configuration makes it, whatever the peer has sent. *)
Theorem C110_each : forall c l1 o s m b l2, reachable c -> log c = l1 ++ ESend o s m b :: l2 -> by_user o = false ->
  (o = OHb /\ length b = 140) \/ length b <= own_size (cfg c) \/
  (exists i raw t, o = OHand i /\ nth_error (reads l1) i = Some raw /\ valid raw (Typed t) /\ m_kind t = KHeartbeat /\ length b <= round4 (length raw)).
Proof. exact each_size. Qed.
(** In total: the octets received, and that much for every packet. *)
Theorem C110_server : forall g o ls c, run (start Server g o) ls = Some c -> answered (log c) <= own_size g * packets (log c) + taken (log c).
Proof. intros g o ls c R. apply total_size in R. cbn [first per] in R. replace (0 + 1 * packets (log c)) with (packets (log c)) in R by lia. exact R. Qed.
Theorem C110_client : forall g o ls c, run (start Client g o) ls = Some c -> answered (log c) <= own_size g * (1 + 2 * packets (log c)) + taken (log c).
Proof. intros g o ls c R. apply total_size in R. exact R. Qed.
(** But an answer can be longer than the packet. *)
Theorem C110_no_longer_refuted : exists c raw s m b, run x_server (refuse 2 raw) = Some c /\ length raw = 8 /\
  log c = log x_server ++ [ERead raw; ERefused (OHand 2) (EUnexpected m)] ++ [ESend OMon 0 s b; EUpd Active] /\ length b = 44.
Proof.
  eexists _, pk_active, _, _, _. split; [vm_compute; reflexivity|]. split; [vm_compute; reflexivity|]. split; vm_compute; reflexivity.
Qed.
Print Assumptions C110_each.
Print Assumptions C110_server.
Print Assumptions C110_client.
Print Assumptions C110_no_longer_refuted.

(** a server that has answered ASP Up, ASP Active and a BEAT of 15 octets (the last without its padding) *)
Definition pk_cut_beat : list byte := firstn 15 pk_beat.
Definition with_beat : list label := server_up ++ echo 2 pk_cut_beat.
Example C110_ex : own_size x_cfg = 60 /\ exists c, run (start Server x_cfg 3) with_beat = Some c /\ packets (log c) = 3 /\ answered (log c) = 60 /\ taken (log c) = 40.
Proof. split; [reflexivity|]. eexists. split; [vm_compute; reflexivity|]. repeat split; vm_compute; reflexivity. Qed.
