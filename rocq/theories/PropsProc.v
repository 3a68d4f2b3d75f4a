(** Properties C87, C88: the connections of one process. *)
From Verif Require Import GoBase ParamsModel MessagesModel ConfigModel ConnModel ConnSpec ConnBase ConnTrace ConnUser ConnExamples PropsClose ProcModel ProcSpec ProcProofs.
From Coq Require Import Arith Lia.
Open Scope nat_scope.

(** C87: whatever the process does, a connection behaves as ConnModel says, so that everything proved about [reachable] connections holds
    for each of the connections of a process. *)
Theorem C87_refines : forall g xs p i c, proc_run (pinit g) xs = Some p -> conn_at p i = Some c ->
  exists m o ls, nth_error (opens xs) i = Some (m, o) /\ run (start m g o) ls = Some c /\ filter own ls = labels_of i xs.
Proof. exact proc_refines. Qed.
(** Without heartbeats it does so on its own: its state follows from its own steps alone, *)
Theorem C87_alone : forall g xs p i c, beats_enabled g = false -> proc_run (pinit g) xs = Some p -> conn_at p i = Some c ->
  exists m o, nth_error (opens xs) i = Some (m, o) /\ run (start m g o) (labels_of i xs) = Some c.
Proof. exact proc_alone. Qed.
(** no step of another connection changes it, *)
Theorem C87_apart : forall g xs p i l p' j, beats_enabled g = false -> proc_run (pinit g) xs = Some p -> proc_step p (PDo i l) = Some p' -> j <> i ->
  conn_at p' j = conn_at p j.
Proof. exact proc_apart. Qed.
(** and connections do side by side, in any order, whatever each of them can do by itself. *)
Theorem C87_combines : forall g xs, beats_enabled g = false -> in_order xs ->
  (forall i m o, nth_error (opens xs) i = Some (m, o) -> exists c, run (start m g o) (labels_of i xs) = Some c /\ crash c = None) ->
  exists p, proc_run (pinit g) xs = Some p /\ alive p = true /\
    forall i m o, nth_error (opens xs) i = Some (m, o) -> conn_at p i = run (start m g o) (labels_of i xs).
Proof. exact proc_combines. Qed.
(** With heartbeats they all compare with the same data: two BEAT ACKs that could both be accepted now carry the same data. *)
Theorem C87_one_ack : forall g xs p i j ci cj a b oka okb ti tj qi qj ki kj, proc_run (pinit g) xs = Some p -> alive p = true ->
  conn_at p i = Some ci -> conn_at p j = Some cj ->
  nth_error (hs ci) a = Some (IHandle ti :: ki) -> m_kind ti = KHeartbeatAck -> fget FHeartbeatData (m_f ti) = Some qi ->
  nth_error (hs cj) b = Some (IHandle tj :: kj) -> m_kind tj = KHeartbeatAck -> fget FHeartbeatData (m_f tj) = Some qj ->
  step ci (LHand a oka) = Some (hgo a ki ci) -> step cj (LHand b okb) = Some (hgo b kj cj) -> HeartbeatData qi = HeartbeatData qj.
Proof.
  intros g xs p i j ci cj a b oka okb ti tj qi qj ki kj R A Ei Ej. 
  apply (one_ack p i j ci cj a b oka okb ti tj qi qj ki kj A (proc_reachable g xs p i ci R Ei) (proc_reachable g xs p j cj R Ej) Ei Ej).
Qed.
(** So a step of another connection does change a connection, and the correct BEAT ACK is refused: two connections are established and each
    has sent a BEAT; the first one's ack arrives. *)
Definition other_hb : list label := [LHb true] ++ server_up ++ [LHb true; LHbRand (repeat x62 128); LHb true; LHb true].
Definition ack_first : list label := [LArrive (pk_beat_ack x_beat); LMon true] ++ hand 2 4 ++ [LMon true].
Definition two_hb : list plabel := [POpen Server 3; POpen Server 3] ++ map (PDo 0) server_hb ++ map (PDo 1) other_hb ++ map (PDo 0) ack_first.
Definition pafter (p : proc) (xs : list plabel) : proc := match proc_run p xs with Some p' => p' | None => p end.
Definition x_two : proc := Eval vm_compute in pafter (pinit x_cfg_hb) two_hb.
Definition x_two_0 : conn := Eval vm_compute in match conn_at x_two 0 with Some c => c | None => start Server x_cfg_hb 3 end.
Theorem C87_heartbeat_refuted : exists xs p c l b m m' b', beats_enabled x_cfg_hb = true /\ proc_run (pinit x_cfg_hb) xs = Some p /\ alive p = true /\
  conn_at p 0 = Some c /\
  log c = l ++ [ESend OHb 0 (beat x_beat) b; ERead (pk_beat_ack x_beat); ERefused (OHand 2) (EUnexpected m); ESend OMon 0 m' b'].
Proof.
  exists two_hb, x_two, x_two_0, (firstn (length (log x_two_0) - 4) (log x_two_0)). eexists _, _, _, _.
  split; [reflexivity|]. split; [vm_compute; reflexivity|]. split; [vm_compute; reflexivity|]. split; [vm_compute; reflexivity|]. vm_compute. reflexivity.
Qed.
Print Assumptions C87_refines.
Print Assumptions C87_alone.
Print Assumptions C87_apart.
Print Assumptions C87_combines.
Print Assumptions C87_one_ack.
Print Assumptions C87_heartbeat_refuted.
(** a client and a server, their handshakes shuffled *)
Fixpoint shuffle {A} (xs ys : list A) : list A := match xs, ys with x :: xs, y :: ys => x :: y :: shuffle xs ys | [], ys => ys | xs, [] => xs end.
Definition mixed : list plabel := [POpen Server 3; POpen Client 5] ++ shuffle (map (PDo 0) server_up) (map (PDo 1) client_up).
Definition x_mixed : proc := Eval vm_compute in pafter (pinit x_cfg) mixed.
Example C87_ex : beats_enabled x_cfg = false /\ proc_run (pinit x_cfg) mixed = Some x_mixed /\ labels_of 0 mixed = server_up /\ labels_of 1 mixed = client_up /\
  option_map state (conn_at x_mixed 0) = Some Active /\ option_map state (conn_at x_mixed 1) = Some Active /\
  exists p', proc_step x_mixed (PDo 1 (LArrive [x01])) = Some p' /\ conn_at p' 1 <> conn_at x_mixed 1.
Proof.
  split; [reflexivity|]. split; [vm_compute; reflexivity|]. split; [vm_compute; reflexivity|]. split; [vm_compute; reflexivity|].
  split; [vm_compute; reflexivity|]. split; [vm_compute; reflexivity|]. eexists. split; [vm_compute; reflexivity|]. vm_compute. discriminate.
Qed.
Example C87_ex_order : in_order mixed /\
  forall i m o, nth_error (opens mixed) i = Some (m, o) -> exists c, run (start m x_cfg o) (labels_of i mixed) = Some c /\ crash c = None.
Proof.
  split.
  - intros xs1 i l xs2 E.
    assert (X : Forall (fun x => match x with PDo i l => own l = true /\ i < 2 | _ => True end) mixed).
    { assert (B : forallb (fun x => match x with PDo i l => own l && (i <? 2) | _ => true end) mixed = true) by (vm_compute; reflexivity).
      rewrite forallb_forall in B. apply Forall_forall. intros x H. specialize (B x H). destruct x; [exact Logic.I|].
      apply andb_true_iff in B as [O I]. split; [exact O|now apply Nat.ltb_lt]. }
    rewrite E in X. apply Forall_app in X as [_ X]. apply Forall_inv in X as [O I]. split; [exact O|].
    destruct xs1 as [|a [|b xs1]]; cbn [mixed app] in E; try (vm_compute in E; discriminate).
    assert (Ea : a = POpen Server 3) by (vm_compute in E; congruence). assert (Eb : b = POpen Client 5) by (vm_compute in E; congruence).
    subst a b. unfold opens. cbn. lia.
  - intros [|[|i]] m o H; vm_compute in H; inversion H; subst; [| |destruct i; discriminate]; eexists; (split; [vm_compute; reflexivity|reflexivity]).
Qed.
(** two connections, each about to handle an ack with the data stored last *)
Definition both : list plabel := [POpen Server 3; POpen Server 3] ++ map (PDo 0) server_hb ++ map (PDo 1) other_hb ++
  map (PDo 0) ([LArrive (pk_beat_ack (repeat x62 128)); LMon true] ++ hand 2 2) ++ map (PDo 1) ([LArrive (pk_beat_ack (repeat x62 128)); LMon true] ++ hand 2 2).
Definition x_both : proc := Eval vm_compute in pafter (pinit x_cfg_hb) both.
Definition x_both_0 : conn := Eval vm_compute in match conn_at x_both 0 with Some c => c | None => start Server x_cfg_hb 3 end.
Definition x_both_1 : conn := Eval vm_compute in match conn_at x_both 1 with Some c => c | None => start Server x_cfg_hb 3 end.
Example C87_ex_ack : exists ti tj qi qj ki kj, proc_run (pinit x_cfg_hb) both = Some x_both /\ alive x_both = true /\
  conn_at x_both 0 = Some x_both_0 /\ conn_at x_both 1 = Some x_both_1 /\
  nth_error (hs x_both_0) 2 = Some (IHandle ti :: ki) /\ m_kind ti = KHeartbeatAck /\ fget FHeartbeatData (m_f ti) = Some qi /\
  nth_error (hs x_both_1) 2 = Some (IHandle tj :: kj) /\ m_kind tj = KHeartbeatAck /\ fget FHeartbeatData (m_f tj) = Some qj /\
  step x_both_0 (LHand 2 true) = Some (hgo 2 ki x_both_0) /\ step x_both_1 (LHand 2 true) = Some (hgo 2 kj x_both_1).
Proof.
  eexists _, _, _, _, _, _. split; [vm_compute; reflexivity|]. split; [vm_compute; reflexivity|]. split; [vm_compute; reflexivity|].
  split; [vm_compute; reflexivity|]. repeat (split; [reflexivity|]). split; vm_compute; reflexivity.
Qed.

(** C88: one packet from the peer of one established connection, a BEAT ACK without Heartbeat Data or a DATA without Protocol Data, can end
    the process: by steps of that connection only, in which nothing fails, it comes to a state in which no connection ever does anything again. *)
Theorem C88_ends_all : forall g xs p i c raw q t, proc_run (pinit g) xs = Some p -> alive p = true -> conn_at p i = Some c ->
  mon c = MRead -> sopen c = true -> ctxd c = false -> state c = Active -> inq c = raw :: q -> length raw <= 1500 -> valid raw (Typed t) ->
  (m_kind t = KHeartbeatAck /\ fget FHeartbeatData (m_f t) = None) \/ (m_kind t = KData /\ fget FProtocolData (m_f t) = None) ->
  exists ls p', proc_run p (map (PDo i) ls) = Some p' /\ Forall (fun l => smooth l \/ exists k, l = LData k) ls /\
    alive p' = false /\ forall x, proc_step p' x = None.
Proof. exact ends_all. Qed.
(** the two connections above: a packet to the client ends the server connection as well *)
Definition kill : list label := [LArrive pk_data_empty; LMon true] ++ hand 2 2 ++ [LData 0; LData 0].
Theorem C88_refuted : exists p, proc_run x_mixed (map (PDo 1) kill) = Some p /\ conn_at p 0 = conn_at x_mixed 0 /\
  option_map state (conn_at p 0) = Some Active /\ forall x, proc_step p x = None.
Proof.
  eexists. split; [vm_compute; reflexivity|]. split; [vm_compute; reflexivity|]. split; [vm_compute; reflexivity|]. intros x. reflexivity.
Qed.
Print Assumptions C88_ends_all.
Print Assumptions C88_refuted.
Definition x_armed : proc := Eval vm_compute in pafter x_mixed [PDo 1 (LArrive pk_data_empty)].
Example C88_ex : exists c t, proc_run (pinit x_cfg) (mixed ++ [PDo 1 (LArrive pk_data_empty)]) = Some x_armed /\ alive x_armed = true /\
  conn_at x_armed 1 = Some c /\ mon c = MRead /\ sopen c = true /\ ctxd c = false /\ state c = Active /\ inq c = [pk_data_empty] /\
  length pk_data_empty <= 1500 /\ valid pk_data_empty (Typed t) /\ m_kind t = KData /\ fget FProtocolData (m_f t) = None.
Proof.
  eexists _, _. split; [vm_compute; reflexivity|]. split; [vm_compute; reflexivity|]. split; [vm_compute; reflexivity|].
  repeat (split; [reflexivity|]). split; [vm_compute; lia|]. split; [split; vm_compute; reflexivity|]. split; reflexivity.
Qed.
