(** C113, C114: the example client alone, and the octets that the example programs send. *)
From Verif Require Import GoBase BaseProofs ParamsModel MessagesModel WireSpec ConfigModel
  ConnModel CfgSpec ConnSpec ConnBase ConnInv ConnUser ConnExamples DemoModel DemoSpec DemoProofs CliSpec CliProofs.
From Coq Require Import Arith Lia.
Open Scope nat_scope.

(** ** C113 *)
(** The example client with any peer, any network and any order of the goroutines: the lines "Sent" are exactly the DATA messages written, one
    for each; a Write returns without error, or with ErrNotEstablished, or with an error of the association; every Write before the last has
    succeeded, so that the first error is the last line of the process. *)
Theorem C113_prints : forall d m g o ls c p, client_run d (start m g o, client_start) ls = Some (c, p) -> sent_right d c p.
Proof. exact client_prints. Qed.
Print Assumptions C113_prints.

Definition cl_cfg : config := Eval vm_compute in match check_interval (Some (client_config 0)) with Ok g => g | _ => x_cfg end.
Definition clib (ls : list label) : list clabel := map CLib ls.
Definition beef : list byte := [xde; xad; xbe; xef].
(** Dial, two messages, ASP Inactive Ack from the peer without a request, and the error *)
Definition client_two : list clabel := clib client_up ++ [CProg 0] ++
  [CProg 0] ++ clib [LUser 0 true; LUser 0 true; LUser 0 true] ++ [CProg 0] ++ [CProg 1] ++ clib [LUser 1 true; LUser 1 true; LUser 1 true] ++ [CProg 0].
Definition pk_inactive_ack := bytes_of (Typed (NewAspInactiveAck None None)).
Definition client_error : list clabel := clib (take 2 pk_inactive_ack ++ [LMon true]) ++ [CProg 0] ++ clib [LUser 2 true; LUser 2 true] ++ [CProg 0].
Example C113_ex_two : exists c p, client_run beef (start Client cl_cfg 3, client_start) client_two = Some (c, p) /\
  g_at p = ACall /\ g_out p = [PSent beef; PSent beef] /\ writes (log c) = [(1%N, w_data beef); (2%N, w_data beef)].
Proof. eexists _, _. split; [vm_compute; reflexivity|]. repeat split; vm_compute; reflexivity. Qed.
Example C113_ex_error : exists c p, client_run beef (start Client cl_cfg 3, client_start) (client_two ++ client_error) = Some (c, p) /\
  g_at p = AEnd /\ g_out p = [PSent beef; PSent beef; PFatalWrite] /\ length (writes (log c)) = 2 /\ closed c = false.
Proof. eexists _, _. split; [vm_compute; reflexivity|]. repeat split; vm_compute; reflexivity. Qed.
(** a Write that has returned and whose line is not printed yet *)
Example C113_ex_between : exists c p, client_run beef (start Client cl_cfg 3, client_start)
    (clib client_up ++ [CProg 0; CProg 0] ++ clib [LUser 0 true; LUser 0 true; LUser 0 true]) = Some (c, p) /\
  g_at p = AReturn 0 /\ g_out p = [] /\ length (writes (log c)) = 1.
Proof. eexists _, _. split; [vm_compute; reflexivity|]. repeat split; vm_compute; reflexivity. Qed.
(** a peer that does not answer *)
Example C113_ex_silent : exists c p, client_run beef (start Client cl_cfg 3, client_start) (clib (boot_client ++ [LDialTimeout]) ++ [CProg 0]) = Some (c, p) /\
  g_at p = AEnd /\ g_out p = [PFatalEstablish] /\ log c = [EUpd Down; ESend OMon 0 (asp_up cl_cfg) w_up].
Proof. eexists _, _. split; [vm_compute; reflexivity|]. repeat split; vm_compute; reflexivity. Qed.

(** ** C114 *)
(** Every packet that the example client ever sends, for all values of its flags, any peer, any network: the literal octets. *)
Theorem C114_client : forall h g d o ls c p, check_interval (Some (client_config h)) = Ok g -> (N.of_nat (length d) <= 65519)%N ->
  client_run d (start Client g o, client_start) ls = Some (c, p) ->
  forall w s m b, In (ESend w s m b) (log c) -> client_says d (maxs c) w s b.
Proof. exact client_packets. Qed.
(** Every packet that one association of the example server ever sends. *)
Theorem C114_server : forall h t g o ls c p, check_interval (Some (server_config h t)) = Ok g ->
  serve_run (start Server g o, serve_start 1500) ls = Some (c, p) ->
  forall w s m b, In (ESend w s m b) (log c) -> server_says w s b.
Proof. exact server_packets. Qed.
(** The two configurations mirror each other: the point codes are exchanged and the rest is the same. *)
Theorem C114_mirror : forall h h' t gc gs, check_interval (Some (client_config h)) = Ok gc -> check_interval (Some (server_config h' t)) = Ok gs ->
  cf_opc gs = cf_dpc gc /\ cf_dpc gs = cf_opc gc /\ cf_opc gc <> cf_dpc gc /\
  cf_si gs = cf_si gc /\ cf_ni gs = cf_ni gc /\ cf_mp gs = cf_mp gc /\ cf_sls gs = cf_sls gc /\
  cf_tmt gs = cf_tmt gc /\ cf_na gs = cf_na gc /\ cf_rc gs = cf_rc gc /\ cf_corr gs = None /\ cf_corr gc = None.
Proof.
  intros h h' t gc gs A B. apply check_plain in A, B. 
  assert (F : forall T (f : config -> T), f (plain gc) = f (plain (client_config h)) /\ f (plain gs) = f (plain (server_config h' t))) by (intros; now rewrite A, B).
  repeat split.
  - transitivity 0x22222222%N; [exact (proj2 (F _ cf_opc))|symmetry; exact (proj1 (F _ cf_dpc))].
  - transitivity 0x11111111%N; [exact (proj2 (F _ cf_dpc))|symmetry; exact (proj1 (F _ cf_opc))].
  - intros E. assert (X : cf_opc gc = 0x11111111%N) by exact (proj1 (F _ cf_opc)). assert (Y : cf_dpc gc = 0x22222222%N) by exact (proj1 (F _ cf_dpc)). rewrite X, Y in E. discriminate E.
  - transitivity x03; [exact (proj2 (F _ cf_si))|symmetry; exact (proj1 (F _ cf_si))].
  - transitivity x00; [exact (proj2 (F _ cf_ni))|symmetry; exact (proj1 (F _ cf_ni))].
  - transitivity x00; [exact (proj2 (F _ cf_mp))|symmetry; exact (proj1 (F _ cf_mp))].
  - transitivity x01; [exact (proj2 (F _ cf_sls))|symmetry; exact (proj1 (F _ cf_sls))].
  - transitivity (cf_tmt (client_config h)); [exact (proj2 (F _ cf_tmt))|symmetry; exact (proj1 (F _ cf_tmt))].
  - transitivity (cf_na (client_config h)); [exact (proj2 (F _ cf_na))|symmetry; exact (proj1 (F _ cf_na))].
  - transitivity (cf_rc (client_config h)); [exact (proj2 (F _ cf_rc))|symmetry; exact (proj1 (F _ cf_rc))].
  - exact (proj2 (F _ cf_corr)).
  - exact (proj1 (F _ cf_corr)).
Qed.
(** Heartbeats are enabled exactly when the flag -hb-interval is not zero, with the interval and the timer of the flags (the client's timer is ten seconds). *)
Theorem C114_heartbeats : forall h t g,
  (check_interval (Some (client_config h)) = Ok g -> (beats_enabled g = true <-> h <> 0%Z) /\ exists e, cf_hb g = Some e /\ hb_interval e = h /\ hb_timer e = 10000000000%Z) /\
  (check_interval (Some (server_config h t)) = Ok g -> (beats_enabled g = true <-> h <> 0%Z) /\ exists e, cf_hb g = Some e /\ hb_interval e = h /\ hb_timer e = t).
Proof.
  intros h t g. split; intros E; unfold check_interval in E; cbn in E; destruct (Z.eqb_spec h 0) as [Z0|Z0]; injection E as <-;
    (split; [unfold beats_enabled; cbn; split; [intros X; try discriminate X; exact Z0|intros X; try (contradiction (X Z0)); reflexivity]|eexists; cbn; repeat split]).
Qed.
Example C114_ex_heartbeats : (exists g, check_interval (Some (client_config 5)) = Ok g /\ beats_enabled g = true) /\
  (exists g, check_interval (Some (server_config 5 7)) = Ok g /\ beats_enabled g = true) /\ exists g, check_interval (Some (server_config 0 7)) = Ok g /\ beats_enabled g = false.
Proof. repeat split; eexists; split; reflexivity. Qed.
Print Assumptions C114_heartbeats.
Print Assumptions C114_client.
Print Assumptions C114_server.
Print Assumptions C114_mirror.

(** what is in the logs: the whole exchange of the client above *)
Definition sent (l : list event) : list (N * list byte) := flat_map (fun e => match e with ESend _ s _ b => [(s, b)] | _ => [] end) l.
Example C114_ex_client : check_interval (Some (client_config 0)) = Ok cl_cfg /\
  exists c p, client_run beef (start Client cl_cfg 3, client_start) (client_two ++ clib (refuse 2 pk_duna ++ refuse 3 pk_up)) = Some (c, p) /\
  sent (log c) = [(0%N, w_up); (0%N, w_active); (1%N, w_data beef); (2%N, w_data beef);
                  (0%N, w_unsupported [x01; x00; x02; x01; x00; x00; x00; x08]); (0%N, w_unexpected x11)].
Proof. split; [reflexivity|]. eexists _, _. split; vm_compute; reflexivity. Qed.
Definition sv_cfg : config := Eval vm_compute in match check_interval (Some (server_config 0 (5 * second))) with Ok g => g | _ => x_cfg end.
Definition slib (ls : list label) : list alabel := map ALib ls.
Example C114_ex_server : check_interval (Some (server_config 0 (5 * second))) = Ok sv_cfg /\
  exists c p, serve_run (start Server sv_cfg 3, serve_start 1500) (slib (server_up ++ echo 2 pk_beat ++ reply 3 pk_inactive ++ refuse 4 pk_up_ack ++ reply 5 pk_down)) = Some (c, p) /\
  sent (log c) = [(0%N, w_up_ack); (0%N, w_active_ack); (0%N, upd pk_beat 3 x06); (0%N, w_inactive_ack); (0%N, w_unexpected x22); (0%N, w_down_ack)].
Proof. split; [reflexivity|]. eexists _, _. split; vm_compute; reflexivity. Qed.
(** the octets of DATA as a packet capture shows them *)
Example C114_ex_data : w_data beef =
  [x01; x00; x01; x01; x00; x00; x00; x30; x02; x00; x00; x08; x00; x00; x00; x00; x00; x06; x00; x0c; x00; x00; x00; x01; x00; x00; x00; x02;
   x02; x10; x00; x14; x11; x11; x11; x11; x22; x22; x22; x22; x03; x00; x00; x01; xde; xad; xbe; xef].
Proof. reflexivity. Qed.
