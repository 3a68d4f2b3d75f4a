(** Conservation of user data, liveness of reception, handshake counts, end-to-end delivery: C37, C40, C54, C57, C58. *)
From Verif Require Import GoBase ParamsModel MessagesModel ConfigModel ConnModel CfgSpec ConnSpec
  ConnBase ConnInv ConnTrace ConnUser ConnCodec ConnMacro ConnMore ConnStable ConnData ConnLive ConnCount ConnExamples PropsFsm PropsUser.
From Coq Require Import Arith Lia Permutation.
Open Scope nat_scope.

(** C37: the payloads handed to the user are a sub-multiset of the payloads of the DATA packets read. *)
Theorem C37_no_invention : forall c, reachable c ->
  exists rest, Permutation (delivered (log c) ++ rest) (flat_map payload (reads (log c))).
Proof. exact no_invention. Qed.
Print Assumptions C37_no_invention.
(** two DATA packets with the same payload and a NTFY are read, one payload is delivered *)
(** a NTFY is read by goroutine i *)
Definition notified (i : nat) : list label := [LArrive pk_notify; LMon true] ++ hand i 5 ++ [LMon true].
Definition twice : list label :=
  take 2 (pk_data [x61]) ++ notified 3 ++ take 4 (pk_data [x61]) ++ [LData 0; LData 0; LData 0; LData 1; LData 1; LData 1;
    LCall OpReadPD; LUser 0 true; LUser 0 true].
Example C37_ex : exists c pd, run x_server twice = Some c /\ delivered (log c) = [pd] /\
  flat_map payload (reads (log c)) = [pd; pd] /\ pd_data pd = [x61].
Proof. eexists _, _. split; [vm_compute; reflexivity|]. split; [vm_compute; reflexivity|]. split; [vm_compute; reflexivity|reflexivity]. Qed.

(** C57: without cancellation and panic, every payload read is accounted for; at rest it has been delivered, waits in
    the buffer, or was refused with an Error. *)
Theorem C57_accounting : forall c, reachable c -> crash c = None -> ctxd c = false ->
  Permutation (delivered (log c) ++ refused_data (log c) ++ dq c ++ in_flight c) (flat_map payload (reads (log c))).
Proof. exact accounting. Qed.
Theorem C57_nothing_lost : forall c, reachable c -> crash c = None -> ctxd c = false -> mon c = MRead -> Forall (fun d => d = DDone) (ds c) ->
  Permutation (delivered (log c) ++ dq c ++ refused_data (log c)) (flat_map payload (reads (log c))).
Proof. exact nothing_lost. Qed.
Print Assumptions C57_accounting.
Print Assumptions C57_nothing_lost.
(** delivered, buffered and (after ASP Inactive) refused *)
Example C57_ex : exists c p q r, run x_server (twice ++ reply 5 pk_inactive ++
    [LArrive (pk_data [x62]); LMon true] ++ hand 6 2 ++ [LData 2; LData 2; LMon true] ++ hand 6 2 ++ [LMon true]) = Some c /\ crash c = None /\
  ctxd c = false /\ mon c = MRead /\ Forall (fun d => d = DDone) (ds c) /\
  delivered (log c) = [p] /\ dq c = [q] /\ refused_data (log c) = [r] /\ pd_data p = [x61] /\ pd_data q = [x61] /\ pd_data r = [x62].
Proof.
  eexists _, _, _, _. split; [vm_compute; reflexivity|]. do 3 (split; [reflexivity|]). split; [repeat constructor|].
  split; [vm_compute; reflexivity|]. split; [vm_compute; reflexivity|]. split; [vm_compute; reflexivity|]. repeat split.
Qed.

(** C40: valid traffic (packets of at most 1500 octets that decode, of version 1, no BEAT ACK, DATA with a decodable
    Protocol Data), no Close, no cancellation, no failing system call and no timer: *)
Theorem C40_reception_lives : forall m g o ls c, run (start m g o) ls = Some c -> Forall good ls -> crash c = None ->
  exists ls' c', run c ls' = Some c' /\ Forall internal ls' /\ crash c' = None /\ sopen c' = true /\
    (mon c' = MRead \/ (mon c' = MEst /\ dial c' <> DWait)).
Proof.
  intros m g o ls c R F C. destruct (keeps_reading c) as (ls' & c' & R' & F' & Re & C' & G'); auto.
  - exists m, g, o, ls; exact R.
  - eapply G_run; eauto.
  - exists ls', c'. repeat split; auto. apply G'.
Qed.
(** ... where the next packet is then read (the alternative is the re-activation of C41) ... *)
Theorem C40_next_read : forall c raw q, crash c = None -> mon c = MRead -> sopen c = true -> inq c = raw :: q ->
  exists c', step c (LMon true) = Some c' /\ reads (log c') = reads (log c) ++ [firstn 1500 raw].
Proof.
  intros c raw q C M So Q. eexists. split; [apply stepR_step; [exact C|eapply S_read; eauto|exact C]|].
  cb. unfold reads. rewrite flat_map_app. reflexivity.
Qed.
(** ... and the only panic is that of a Write on an association with a single outbound stream. *)
Theorem C40_no_panic : forall m g o ls c p, run (start m g o) ls = Some c -> Forall good ls -> crash c = Some p ->
  p = PIntn /\ maxs c = 0%N.
Proof. exact good_crash. Qed.
Print Assumptions C40_reception_lives.
Print Assumptions C40_next_read.
Print Assumptions C40_no_panic.
Definition lively : list label :=
  server_up ++ [LArrive (pk_data [x61]); LMon true] ++ hand 2 1 ++ [LArrive pk_duna].
Example C40_ex : exists c, run (start Server x_cfg 3) lively = Some c /\ Forall good lively /\ crash c = None /\
  mon c = MSelect /\ inq c = [pk_duna].
Proof.
  eexists. split; [vm_compute; reflexivity|]. split; [|repeat split].
  assert (P : forall raw m, (N.of_nat (length raw) <= 1500)%N -> Parse raw = Ok m -> b2n (Version m) = 1%N -> good_msg m -> good (LArrive raw)).
  { intros raw m L P V Gm. split; [lia|]. exists m. split; [split; auto|exact Gm]. }
  unfold lively, server_up, boot_server, reply, hand. cbn [app repeat].
  repeat match goal with
  | |- Forall good [] => constructor
  | |- Forall good (LArrive _ :: _) => constructor; [eapply P; [vm_compute; discriminate|vm_compute; reflexivity|reflexivity|]|]
  | |- Forall good (_ :: _) => constructor; [exact Logic.I|]
  end; cbn [good_msg m_kind]; (split; [discriminate|]); try discriminate.
  intros _. eexists _, _. split; [reflexivity|vm_compute; reflexivity].
Qed.

(** C54: a packet that leaves a client in Inactive (Down) makes it send ASP Active (ASP Up) once more ... *)
Theorem C54_resend : forall c raw q m s hm, reachable c -> crash c = None -> mon c = MRead -> sopen c = true -> ctxd c = false ->
  mode c = Client -> inq c = raw :: q -> length raw <= 1500 -> valid raw m -> (forall t, m = Typed t -> m_kind t <> KHeartbeatAck) ->
  next_state m (state c) = s -> initial Client (cfg c) s = Some hm ->
  exists ls c' evs b, run c ls = Some c' /\ Forall smooth ls /\ crash c' = None /\ mon c' = MRead /\ state c' = s /\
    encodes hm b /\ log c' = log c ++ ERead raw :: evs ++ [EUpd s; ESend OMon 0 hm b].
Proof. exact resend. Qed.
(** ... and their number is that of the updates to the state (minus the failed sends; one may be about to be sent). *)
Theorem C54_count : forall g o s ls c, s = Down \/ s = Inactive -> run (start Client g o) ls = Some c -> crash c = None ->
  exists lost, sent s (log c) + pending s (mon c) + lost = updated s (log c) /\ (Forall work ls -> sopen c = true -> lost = 0).
Proof. exact count_run. Qed.
Theorem C54_server : forall g o s ls c, s = Down \/ s = Inactive -> run (start Server g o) ls = Some c -> crash c = None ->
  sent s (log c) = 0.
Proof. exact count_server. Qed.
Print Assumptions C54_resend.
Print Assumptions C54_count.
Print Assumptions C54_server.
(** two NTFY in Inactive: three ASP Active *)
Example C54_ex : exists c, run (start Client x_cfg 3) (boot_client ++ take 0 pk_up_ack ++ [LMon true] ++
    notified 1 ++ [LMon true] ++ notified 2 ++ [LMon true]) = Some c /\ sopen c = true /\ crash c = None /\
  updates (log c) = [Down; Inactive; Inactive; Inactive] /\ sent Inactive (log c) = 3 /\ sent Down (log c) = 1.
Proof. eexists. split; [vm_compute; reflexivity|]. repeat split. Qed.
Example C54_ex_resend : exists c m hm, run (start Client x_cfg 3) (boot_client ++ take 0 pk_up_ack ++ [LMon true; LArrive pk_notify]) = Some c /\
  crash c = None /\ mon c = MRead /\ sopen c = true /\ ctxd c = false /\ inq c = [pk_notify] /\ valid pk_notify m /\
  next_state m (state c) = Inactive /\ initial Client (cfg c) Inactive = Some hm.
Proof.
  eexists _, _, _. split; [vm_compute; reflexivity|]. do 5 (split; [reflexivity|]). split; [split; vm_compute; reflexivity|]. split; reflexivity.
Qed.

(** C58: a Write(b) on an active connection sends a packet that makes an idle active peer deliver exactly b. *)
Theorem C58_write : forall c b rnd s, reachable c -> crash c = None -> unlocked c = true -> state c = Active -> dial c = DOk -> sopen c = true ->
  choose_stream (maxs c) rnd = Ok (Some s) ->
  exists bs c', encodes (user_data (cfg c) b) bs /\
    run c (LCall (OpWrite b rnd) :: repeat (LUser (length (us c)) true) 3) = Some c' /\
    log c' = log c ++ [ESend (OUser (length (us c))) s (user_data (cfg c) b) bs].
Proof.
  intros c b rnd s R C U St Di So Ch.
  assert (N1 : forall x, nth_error (us c ++ [x]) (length (us c)) = Some x) by (intros; rewrite nth_error_app2, Nat.sub_diag by lia; reflexivity).
  destruct (wire_total (user_data (cfg c) b)) as [bs W]. apply wire_encodes in W. destruct W as [m' W].
  exists bs. eexists. split; [exists m'; exact W|]. split.
  - eapply go; [exact C|eapply S_call; exact Di|exact C|].
    eapply go; [exact C|eapply S_write; [cb; apply N1|exact Ch]|exact C|].
    eapply go; [exact C|eapply S_check; [cb; eapply upd_nth_same; apply N1|reflexivity|exact U|exact St]|exact C|].
    eapply go; [exact C|eapply S_usend; [cb; eapply upd_nth_same; eapply upd_nth_same; apply N1|exact W|reflexivity|exact So]|exact C|]. reflexivity.
  - cb. reflexivity.
Qed.
Theorem C58_delivered : forall g b bs c buf, cfg_ok g -> data_overhead g + length b <= 1500 -> encodes (user_data g b) bs ->
  reachable c -> crash c = None -> mon c = MRead -> sopen c = true -> ctxd c = false -> closed c = false -> state c = Active -> dial c = DOk ->
  inq c = [] -> dq c = [] -> length b <= length buf ->
  exists ls c1 c2, run c (LArrive bs :: ls) = Some c1 /\ Forall smooth_data ls /\ mon c1 = MRead /\
    dq c1 = [mkPD (cf_opc g) (cf_dpc g) (cf_si g) (cf_ni g) (cf_mp g) (cf_sls g) b] /\
    run c1 [LCall (OpRead buf); LUser (length (us c)) true; LUser (length (us c)) true] = Some c2 /\
    nth_error (us c2) (length (us c)) = Some (UDone (RRead (length b) (b ++ skipn (length b) buf))) /\ dq c2 = [].
Proof.
  intros g b bs c buf Ok Ln En R C M So Cx Cl St Di Q Dq Lb.
  destruct (payload_delivered g b Ok) as (bs' & t & p & En' & V & K & F & P); [pose proof (Nat.le_add_l (length b) (data_overhead g)); lia|].
  rewrite (encodes_fun _ _ _ En' En) in V. clear bs' En'.
  set (ca := set_inq [bs] c).
  assert (Ra : run c [LArrive bs] = Some ca).
  { eapply go; [exact C|apply S_arrive|exact C|]. rewrite Q. reflexivity. }
  assert (Rc : reachable ca) by (eapply reachable_run; eauto).
  assert (L0 : length bs <= 1500) by (apply (data_fits g b bs En); exact Ln).
  assert (Dc : (N.of_nat (length (dq ca)) < data_cap)%N) by (unfold ca; cb; rewrite Dq; reflexivity).
  destruct (deliver ca bs [] t p _ Rc C M So Cx Cl St Dc eq_refl L0 V K F P)
    as (ls & c1 & R1 & F1 & C1 & M1 & So1 & Cx1 & Cl1 & S1 & D1 & U1 & Q1 & Dq1 & L1).
  assert (dq ca = []) as Dqa by exact Dq. rewrite Dqa in Dq1. cbn [app] in Dq1. assert (us ca = us c) as Ua by reflexivity.
  assert (Rr : run c (LArrive bs :: ls) = Some c1) by (change (LArrive bs :: ls) with ([LArrive bs] ++ ls); eapply run_trans; eauto).
  assert (Un : unlocked c1 = true) by (unfold unlocked; now rewrite M1).
  destruct (read_now c1 buf _ [] (reachable_run _ _ _ R Rr) C1 Un S1 (eq_trans D1 Di) Dq1) as (c2 & R2 & N2 & _ & D2).
  rewrite U1, Ua in *. exists ls, c1, c2. repeat split; auto.
  rewrite N2. cbn [pd_data]. rewrite firstn_all2 by exact Lb. reflexivity.
Qed.
Print Assumptions C58_write.
Print Assumptions C58_delivered.
(** the client writes "hello", the server reads it *)
Definition hello : list byte := [x68; x65; x6c; x6c; x6f].
Example C58_ex : exists c s, run x_client (LCall (OpWrite hello 0) :: repeat (LUser 0 true) 3) = Some c /\
  log c = log x_client ++ [ESend (OUser 0) 1 (user_data x_cfg hello) (pk_data hello)] /\
  run x_server (take 2 (pk_data hello) ++ [LData 0; LData 0; LData 0; LCall (OpRead (repeat x00 8)); LUser 0 true; LUser 0 true]) = Some s /\
  us s = [UDone (RRead 5 (hello ++ [x00; x00; x00]))].
Proof. eexists _, _. split; [vm_compute; reflexivity|]. split; [vm_compute; reflexivity|]. split; vm_compute; reflexivity. Qed.
Example C58_ex_hyp : reachable x_server /\ crash x_server = None /\ mon x_server = MRead /\ sopen x_server = true /\ ctxd x_server = false /\
  closed x_server = false /\ state x_server = Active /\ dial x_server = DOk /\ inq x_server = [] /\ dq x_server = [] /\
  data_overhead x_cfg + length hello <= 1500 /\ cfg_ok x_cfg.
Proof. split; [apply x_server_reachable|]. do 9 (split; [reflexivity|]). split; [vm_compute; lia|apply C31_ex_cfg]. Qed.
