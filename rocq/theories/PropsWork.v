(** Properties C89, C90: how much the library does in return for what happens to it. *)
From Verif Require Import GoBase MessagesModel ConfigModel ConnModel ConnSpec ConnInv ConnTrace ConnPieces ConnExamples PropsClose WorkSpec ConnWork WorkTight.
From Coq Require Import Arith Lia.
Open Scope nat_scope.

(** C89: all goroutines and calls together make at most 14 steps, and 12 for every 1500 octets received, 3 for every call and 3 for every time the
    heartbeat's timer fires. *)
Theorem C89_bounded : forall m g o ls c, run (start m g o) ls = Some c -> length (filter inner ls) <= 14 + worths ls.
Proof. exact steps_bounded. Qed.
(** So a connection to which nothing happens comes to rest. *)
Theorem C89_rests : forall c, exists n, forall ls c', run c ls = Some c' -> forallb inner ls = true -> length ls <= n.
Proof. exact alone_rests. Qed.
Print Assumptions C89_bounded.
Print Assumptions C89_rests.
(** a server's handshake, a BEAT, and its ack *)
Definition beat_acked : list label := server_hb ++ [LArrive (pk_beat_ack x_beat); LMon true] ++ hand 2 6 ++ [LMon true].
Example C89_ex : exists c, run (start Server x_cfg_hb 3) beat_acked = Some c /\ length (filter inner beat_acked) = 30 /\ worths beat_acked = 36.
Proof. eexists. split; [vm_compute; reflexivity|]. split; vm_compute; reflexivity. Qed.

(** C90: a server writes at most one message of its own for every packet it has read; a client at most two, and one more. *)
Theorem C90_server : forall g o ls c, run (start Server g o) ls = Some c -> answers (log c) <= packets (log c).
Proof. intros g o ls c R. apply answers_run in R. cbn [first per] in R. lia. Qed.
Theorem C90_client : forall g o ls c, run (start Client g o) ls = Some c -> answers (log c) <= 1 + 2 * packets (log c).
Proof. intros g o ls c R. apply answers_run in R. cbn [first per] in R. lia. Qed.
(** No smaller number will do. *)
Definition one_packet : list label := boot_client ++ take 0 pk_up_ack ++ [LMon true].
Definition another : list label := [LArrive pk_up; LMon true] ++ hand 1 4 ++ [LMon true] ++ hand 1 1 ++ [LMon true; LMon true].
Definition x_one_packet : conn := Eval vm_compute in after (start Client x_cfg 3) one_packet.
Theorem C90_one_refuted : exists ls c ls' c', run (start Client x_cfg 3) ls = Some c /\ answers (log c) = 2 /\ packets (log c) = 1 /\
  run c ls' = Some c' /\ answers (log c') = 4 /\ packets (log c') = 2 /\ state c' = Inactive /\ mon c' = MRead.
Proof.
  exists one_packet, x_one_packet, another. eexists. split; [vm_compute; reflexivity|]. split; [vm_compute; reflexivity|]. split; [vm_compute; reflexivity|].
  split; [vm_compute; reflexivity|]. split; [vm_compute; reflexivity|]. split; [vm_compute; reflexivity|]. split; reflexivity.
Qed.
(** The bounds are attained, whatever the configuration, for every number of packets: a peer that sends n times the same ASP Up. *)
Theorem C90_attained_server : forall g o n, exists ls c, run (start Server g o) ls = Some c /\ arrivals ls = repeat pk_up n /\ packets (log c) = n /\ answers (log c) = n.
Proof. exact (attained Server). Qed.
Theorem C90_attained_client : forall g o n, exists ls c, run (start Client g o) ls = Some c /\ arrivals ls = repeat pk_up n /\ packets (log c) = n /\ answers (log c) = 1 + 2 * n.
Proof. exact (attained Client). Qed.
Print Assumptions C90_attained_server.
Print Assumptions C90_attained_client.
Print Assumptions C90_server.
Print Assumptions C90_client.
Print Assumptions C90_one_refuted.
Example C90_ex : exists c, run (start Server x_cfg 3) server_up = Some c /\ answers (log c) = 2 /\ packets (log c) = 2.
Proof. eexists. split; [vm_compute; reflexivity|]. split; vm_compute; reflexivity. Qed.
