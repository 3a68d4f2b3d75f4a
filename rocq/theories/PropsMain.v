(** C107: the example server as a whole. *)
From Verif Require Import GoBase BaseProofs ParamsModel MessagesModel ConfigModel ConnModel ConnSpec ConnBase ConnInv ConnUser ConnExamples
  ProcModel ProcSpec ProcProofs DemoModel DemoSpec DemoProofs PropsDemo ConnStable MainModel MainSpec MainProofs.
From Coq Require Import Arith Lia.
Open Scope nat_scope.

(** Whatever peers, network and goroutines do, each association with its goroutine is an execution of serve on its own, ... *)
Theorem C107_refines : forall g s i c p, srv_reachable g s -> at_pair s i c p ->
  exists o ls, serve_run (start Server g o, serve_start 1500) ls = Some (c, p).
Proof. exact each_serves. Qed.
(** ... so that C101 holds for every one of them: the lines printed are those of the payloads handed over, *)
Theorem C107_prints : forall g s i c p, srv_reachable g s -> at_pair s i c p -> printed_right c p.
Proof. intros g s i c p R H. destruct (each_serves g s i c p R H) as (o & ls & E). apply (serve_prints 1500 Server g o ls c p); [lia|exact E]. Qed.
(** and no goroutine serve panics. *)
Theorem C107_no_panic : forall g s i s', srv_reachable g s -> srv_step s (VServe i) = Some s' -> alive (s_proc s') = true.
Proof. exact serve_never_panics. Qed.
(** At most one association is not established, the one that Accept has taken last. *)
Theorem C107_one_handshake : forall g s, srv_reachable g s ->
  match s_main s with
  | MListen => forall i c, conn_at (s_proc s) i = Some c -> dial c = DOk
  | MHandshake n => S n = accepted s /\ forall i c, conn_at (s_proc s) i = Some c -> i <> n -> dial c = DOk
  | MFatal => True
  end.
Proof. exact one_handshake. Qed.
(** With a peer that sends nothing the server accepts no other association, whatever else happens, until it ends. *)
Theorem C107_silent : forall g i xs s s', srv_reachable g s -> s_main s = MHandshake i -> nothing_yet s i -> nothing_arrives i xs -> srv_run s xs = Some s' ->
  accepted s' = accepted s /\ ((s_main s' = MHandshake i /\ nothing_yet s' i) \/ (s_main s' = MFatal /\ over s')).
Proof. exact silent_run. Qed.
(** Whenever the server waits for an association: any association whose Accept fails ends the server, and what the other associations have
    received and not yet read is lost. *)
Theorem C107_fails : forall g s o ls, srv_reachable g s -> alive (s_proc s) = true -> s_main s = MListen -> failing g o ls -> Forall lib_label ls ->
  exists s', srv_run s (VAssoc o :: map (VLib (accepted s)) ls ++ [VMain]) = Some s' /\ s_main s' = MFatal /\ over s' /\
    forall j x p, at_pair s j x p -> exists x', at_pair s' j x' p /\ dq x' = dq x /\ us x' = us x /\ log x' = log x /\ state x' = state x.
Proof. exact fails_all. Qed.
(** In particular one that sends nothing for ten seconds. *)
Theorem C107_ends : forall g s o, srv_reachable g s -> alive (s_proc s) = true -> s_main s = MListen ->
  exists s', srv_run s [VAssoc o; VLib (accepted s) LDialTimeout; VMain] = Some s' /\ s_main s' = MFatal /\ over s' /\
    forall j x p, at_pair s j x p -> exists x', at_pair s' j x' p /\ dq x' = dq x /\ us x' = us x /\ log x' = log x /\ state x' = state x.
Proof.
  intros g s o R A M. refine (fails_all g s o [LDialTimeout] R A M (failing_timeout g o) _). repeat constructor; discriminate.
Qed.
(** Without heartbeats, the default of the program, associations do not influence each other otherwise. *)
Theorem C107_apart : forall g s i x s' j c p, beats_enabled g = false -> srv_reachable g s -> (x = VServe i \/ exists l, x = VLib i l) -> srv_step s x = Some s' -> j <> i ->
  at_pair s j c p -> at_pair s' j c p.
Proof. exact apart. Qed.
Print Assumptions C107_refines.
Print Assumptions C107_prints.
Print Assumptions C107_no_panic.
Print Assumptions C107_one_handshake.
Print Assumptions C107_silent.
Print Assumptions C107_fails.
Print Assumptions C107_ends.
Print Assumptions C107_apart.

(** The first peer is established and its data has been received and queued when a second peer connects and sends nothing: the data is never printed. *)
Definition first_peer : list slabel :=
  VAssoc 3 :: map (VLib 0) server_up ++ [VMain] ++ map (VLib 0) (take 2 (bare_data [x61]) ++ [LData 0; LData 0; LData 0]).
Definition sv_after (xs : list slabel) : server := match srv_run (server_start sv_cfg) xs with Some s => s | None => server_start sv_cfg end.
Definition x_first : server := Eval vm_compute in sv_after first_peer.
Definition x_second : server := Eval vm_compute in sv_after (first_peer ++ [VAssoc 3]).
Theorem C107_survives_refuted : exists s s' c c' p, srv_reachable sv_cfg s /\ at_pair s 0 c p /\ state c = Active /\ map pd_data (dq c) = [[x61]] /\
  srv_run s [VAssoc 3; VLib 1 LDialTimeout; VMain] = Some s' /\ over s' /\ at_pair s' 0 c' p /\ dq c' = dq c /\ g_out p = [].
Proof.
  exists x_first. eexists _, _, _, _. split; [exists first_peer; vm_compute; reflexivity|]. split; [split; vm_compute; reflexivity|].
  split; [reflexivity|]. split; [reflexivity|]. split; [vm_compute; reflexivity|]. split; [now apply over_fatal|]. split; [split; vm_compute; reflexivity|]. split; reflexivity.
Qed.
Print Assumptions C107_survives_refuted.
(** the same with a second peer that behaves: both lines are printed *)
Definition both_peers : list slabel := first_peer ++ [VServe 0; VLib 0 (LUser 0 true); VLib 0 (LUser 0 true); VServe 0; VAssoc 3] ++ map (VLib 1) server_up ++ [VMain; VServe 1] ++
  map (VLib 1) (take 2 (bare_data [x62]) ++ [LData 0; LData 0; LData 0; LUser 0 true; LUser 0 true]) ++ [VServe 1].
Example C107_ex : exists s c d p q, srv_run (server_start sv_cfg) both_peers = Some s /\ alive (s_proc s) = true /\ s_main s = MListen /\ accepted s = 2 /\
  at_pair s 0 c p /\ at_pair s 1 d q /\ g_out p = [PRead [x61]] /\ g_out q = [PRead [x62]] /\ state c = Active /\ state d = Active.
Proof.
  eexists _, _, _, _, _. split; [vm_compute; reflexivity|]. split; [reflexivity|]. split; [reflexivity|]. split; [reflexivity|].
  split; [split; vm_compute; reflexivity|]. split; [split; vm_compute; reflexivity|]. repeat split.
Qed.
Example C107_ex_silent : srv_reachable sv_cfg x_second /\ s_main x_second = MHandshake 1 /\ nothing_yet x_second 1 /\ nothing_arrives 1 [VServe 0; VLib 0 (LArrive [x01]); VLib 1 LInit] /\
  exists s', srv_run x_second [VServe 0; VLib 0 (LArrive [x01]); VLib 1 LInit] = Some s'.
Proof.
  split; [exists (first_peer ++ [VAssoc 3]); vm_compute; reflexivity|]. split; [reflexivity|]. split; [eexists; split; [vm_compute; reflexivity|split; reflexivity]|].
  split; [intros p [H|[H|[H|[]]]]; discriminate|]. eexists. vm_compute. reflexivity.
Qed.
(** a peer that sends ASP Up and then ends the association *)
Definition leaves : list label := [LInit; LMon true] ++ reply 0 pk_up ++ [LMon false; LMon true; LDialClosed].
Example C107_ex_failing : failing sv_cfg 3 leaves /\ Forall lib_label leaves.
Proof.
  split; [intros d; eexists; split; [vm_compute; reflexivity|]; split; [reflexivity|]; left; reflexivity|].
  repeat constructor; discriminate.
Qed.
Example C107_ex_apart : beats_enabled sv_cfg = false /\ srv_reachable sv_cfg x_second /\ exists s', srv_step x_second (VLib 1 LInit) = Some s' /\ s' <> x_second.
Proof. split; [reflexivity|]. split; [exists (first_peer ++ [VAssoc 3]); vm_compute; reflexivity|]. eexists. split; [vm_compute; reflexivity|]. discriminate. Qed.
