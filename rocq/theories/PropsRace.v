(** C93: data races on the heartbeat data. *)
From Verif Require Import GoBase ParamsModel MessagesModel ConfigModel WireSpec ConnModel ConnSpec ConnBase ConnInv ConnPieces ConnExamples RaceSpec ConnRace ConnRace2.
Open Scope nat_scope.

(** Only the heartbeat goroutine (of this or of another connection with the same
    Config) writes the data, only the check of a BEAT ACK in Active reads it; so
    these are the only possible races. *)
Theorem C93_only : forall c, race c -> exists l l', by_ l <> by_ l' /\ (by_ l = GBeat \/ by_ l = GOther) /\
  ((exists i ok m k p, l' = LHand i ok /\ nth_error (hs c) i = Some (IHandle m :: k) /\ m_kind m = KHeartbeatAck /\
      state c = Active /\ fget FHeartbeatData (m_f m) = Some p /\ unlocked c = true) \/
   by_ l' = GBeat \/ by_ l' = GOther).
Proof. exact race_only. Qed.
Print Assumptions C93_only.

(** With heartbeats disabled the connection never writes it. *)
Theorem C93_disabled : forall c, reachable c -> beats_enabled (cfg c) = false -> forall l, by_ l <> GOther -> ~ writes c l.
Proof. exact disabled_no_race. Qed.
Print Assumptions C93_disabled.

(** With heartbeats enabled every BEAT whose ack arrives before the heartbeat
    goroutine has gone on is a race, if its data are not stored already. *)
Theorem C93_every_early_ack : forall c d, crash c = None -> hb c = BStore d -> length d = 128 -> d <> hbd c ->
  mon c = MRead -> sopen c = true -> ctxd c = false -> inq c = [] -> state c = Active ->
  exists c', run c ([LArrive (packet x01 x00 x03 x06 140 (body_of [(9%N, d)])); LMon true] ++ repeat (LHand (length (hs c)) true) 2) = Some c' /\
    race c' /\ log c' = log c ++ [ERead (packet x01 x00 x03 x06 140 (body_of [(9%N, d)]))].
Proof. exact ack_races. Qed.
Print Assumptions C93_every_early_ack.

(** a server, its client's handshake, its first BEAT *)
Definition c93_data : list byte := repeat x62 128.
Definition c93_beat : list label := [LHb true] ++ server_up ++ [LHb true; LHbRand c93_data; LHb true].
Definition c93_conn : conn := Eval vm_compute in after (start Server x_cfg_hb 3) c93_beat.
Lemma c93_run : run (start Server x_cfg_hb 3) c93_beat = Some c93_conn.
Proof. vm_compute. reflexivity. Qed.
Lemma c93_log : firstn (length (log c93_conn) - 1) (log c93_conn) ++
  [ESend OHb 0 (beat c93_data) (packet x01 x00 x03 x03 140 (body_of [(9%N, c93_data)]))] = log c93_conn.
Proof. vm_compute. reflexivity. Qed.
Example C93_ex : crash c93_conn = None /\ hb c93_conn = BStore c93_data /\ length c93_data = 128 /\ c93_data <> hbd c93_conn /\
  mon c93_conn = MRead /\ sopen c93_conn = true /\ ctxd c93_conn = false /\ inq c93_conn = [] /\ state c93_conn = Active.
Proof. repeat split; try reflexivity. discriminate. Qed.

(** It is not the case that a connection with a conforming peer is free of races:
    the peer's packets are ASP Up, ASP Active and the correct ack of a BEAT sent before. *)
Theorem C93_refuted : exists ls c b l, run (start Server x_cfg_hb 3) ls = Some c /\ race c /\
  arrivals ls = [pk_up; pk_active; packet x01 x00 x03 x06 140 (body_of [(9%N, c93_data)])] /\
  log c = l ++ [ESend OHb 0 (beat c93_data) b; ERead (packet x01 x00 x03 x06 140 (body_of [(9%N, c93_data)]))].
Proof.
  destruct C93_ex as (A1 & A2 & A3 & A4 & A5 & A6 & A7 & A8 & A9).
  destruct (C93_every_early_ack c93_conn c93_data A1 A2 A3 A4 A5 A6 A7 A8 A9) as (c & R & W & L).
  eexists (c93_beat ++ _), c, _, (firstn (length (log c93_conn) - 1) (log c93_conn)).
  split; [rewrite run_app, c93_run; exact R|]. split; [exact W|]. split; [vm_compute; reflexivity|].
  rewrite L. rewrite <- c93_log, <- app_assoc. reflexivity.
Qed.
Print Assumptions C93_refuted.
