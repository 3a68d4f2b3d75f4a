(** C115: the order in which received data are delivered. *)
From Verif Require Import GoBase BaseProofs ParamsModel MessagesModel ConfigModel ConnModel ConnSpec ConnBase ConnInv ConnTrace CfgSpec ConnUser
  ConnCodec ConnMacro ConnMore ConnExamples ConnStable ConnData ConnPieces ConnLive OrderSpec OrderProofs PropsUser PropsFsm.
From Coq Require Import Arith Lia Permutation.
Open Scope nat_scope.

(** Any order is possible: an established connection that waits for packets and whose queue has room; DATA messages arrive, one after the
    other; then, without any failure, cancellation or Close and without any other packet, the payloads can be queued in any order
    whatsoever, and the user's calls of Read get them in that order. *)
Theorem C115_any : forall c rps pds buf, reachable c -> crash c = None -> mon c = MRead -> sopen c = true -> ctxd c = false -> closed c = false ->
  state c = Active -> inq c = [] -> dial c = DOk -> dq c = [] -> Forall (fun d => d = DDone) (ds c) ->
  Forall (fun x => data_packet (fst x) (snd x)) rps -> Permutation pds (map snd rps) -> (N.of_nat (length pds) <= 65535)%N ->
  exists ls c1 ls' c', run c ls = Some c1 /\ Forall (fun l => smooth_data l \/ exists r, l = LArrive r) ls /\ arrivals ls = map fst rps /\
    dq c1 = pds /\ crash c1 = None /\
    run c1 ls' = Some c' /\ Forall (fun l => l = LCall (OpRead buf) \/ exists i, l = LUser i true) ls' /\ crash c' = None /\
    reads (log c') = reads (log c) ++ map fst rps /\ delivered (log c') = delivered (log c) ++ pds.
Proof.
  intros c rps pds buf R C M So Cx Cl St Q D Dq Dn F P Cap.
  assert (W : waits c) by (constructor; auto).
  destruct (any_order c rps pds R W Dn F P) as (ls & c1 & R1 & A1 & F1 & W1 & U1 & D1 & Rd1 & Dl1 & Q1 & _); [rewrite Dq; exact Cap|].
  rewrite Dq in Q1. cbn [app] in Q1.
  destruct (read_all buf pds c1 (reachable_run _ _ _ R R1) W1 (eq_trans D1 D) Q1) as (ls' & c' & R2 & F2 & W2 & Rd2 & Dl2 & _).
  exists ls, c1, ls', c'. do 4 (split; [assumption|]). split; [apply W1|]. do 2 (split; [assumption|]). split; [apply W2|].
  split; congruence.
Qed.
(** What the packets written by a peer (C31) are: *)
Theorem C115_packets : forall g b, cfg_ok g -> data_overhead g + length b <= 1500 ->
  exists bs, encodes (user_data g b) bs /\ data_packet bs (mkPD (cf_opc g) (cf_dpc g) (cf_si g) (cf_ni g) (cf_mp g) (cf_sls g) b).
Proof. exact written_packet. Qed.
(** The order of arrival is kept if no packet is read before the goroutines of the earlier DATA messages have ended. *)
Theorem C115_kept : forall m g o ls c, run (start m g o) ls = Some c -> unhurried (start m g o) ls ->
  picked (delivered (log c)) (flat_map payload (reads (log c))).
Proof. exact order_kept. Qed.
(** ... and nothing is left out when all goroutines have ended, unless it was refused. *)
Theorem C115_exact : forall m g o ls c, run (start m g o) ls = Some c -> unhurried (start m g o) ls -> crash c = None -> ctxd c = false -> mon c = MRead ->
  Forall (fun d => d = DDone) (ds c) -> refused_data (log c) = [] -> delivered (log c) ++ dq c = flat_map payload (reads (log c)).
Proof. exact order_exact. Qed.
Print Assumptions C115_any.
Print Assumptions C115_packets.
Print Assumptions C115_kept.
Print Assumptions C115_exact.

(** the hypotheses of C115_any: an established server and the packets of three Writes *)
Definition x_pd (b : list byte) : pdpayload := mkPD (cf_opc x_cfg) (cf_dpc x_cfg) (cf_si x_cfg) (cf_ni x_cfg) (cf_mp x_cfg) (cf_sls x_cfg) b.
Definition x_three : list (list byte * pdpayload) := map (fun b => (pk_data b, x_pd b)) [[x61]; [x62]; [x63]].
Example C115_ex : reachable x_server /\ waits x_server /\ dial x_server = DOk /\ dq x_server = [] /\ ds x_server = [] /\
  Forall (fun x => data_packet (fst x) (snd x)) x_three /\ Permutation [x_pd [x63]; x_pd [x61]; x_pd [x62]] (map snd x_three).
Proof.
  split; [apply x_server_reachable|]. split; [constructor; reflexivity|]. do 3 (split; [reflexivity|]). split.
  - unfold x_three. cbn [map]. repeat constructor; cbn [fst snd]; try (apply Nat.leb_le; vm_compute; reflexivity);
      (eexists _, _; split; [split; vm_compute; reflexivity|]; split; [reflexivity|]; split; vm_compute; reflexivity).
  - cbn [x_three map snd]. apply Permutation_sym. eapply perm_trans; [apply perm_skip, perm_swap|apply perm_swap].
Qed.
(** an unhurried execution: the second packet has arrived, but is read when the first payload is in the queue *)
Definition x_calm : list label := server_up ++ [LArrive (pk_data [x61]); LArrive (pk_data [x62]); LMon true] ++ hand 2 4 ++ [LMon true; LData 0; LData 0; LData 0] ++
  [LMon true] ++ hand 3 4 ++ [LMon true; LData 1; LData 1; LData 1].
(** decides [unhurried] *)
Fixpoint calm_run (c : conn) (ls : list label) : bool :=
  match ls with
  | [] => true
  | l :: ls => match step c l with
               | None => true
               | Some b => (if Nat.eqb (length (reads (log b))) (length (reads (log c))) then true
                            else forallb (fun d => match d with DDone => true | _ => false end) (ds c)) && calm_run b ls
               end
  end.
Lemma calm_run_ok ls : forall c, calm_run c ls = true -> unhurried c ls.
Proof.
  induction ls as [|l ls IH]; intros c H pre x post a b E Ra S N; [destruct pre; discriminate|]. cbn [calm_run] in H.
  destruct pre as [|p pre]; cbn [app] in E; injection E as -> E.
  - injection Ra as ->. rewrite S in H. apply andb_prop in H as [H _].
    destruct (Nat.eqb _ _) eqn:Q.
    + exfalso. apply Nat.eqb_eq in Q. destruct (log_grows a x b S) as [es L]. rewrite L in *. rewrite reads_app in *. rewrite app_length in Q.
      destruct (reads es); [apply N; apply app_nil_r|cbn in Q; lia].
    + apply Forall_forall. intros d I. rewrite forallb_forall in H. specialize (H d I). destruct d; congruence.
  - cbn [run] in Ra. destruct (step c p) as [c1|] eqn:Sp; [|discriminate]. apply andb_prop in H as [_ H].
    eapply IH; eauto.
Qed.
Example C115_ex_calm : exists c, run (start Server x_cfg 3) x_calm = Some c /\ unhurried (start Server x_cfg 3) x_calm /\ crash c = None /\ ctxd c = false /\
  mon c = MRead /\ ds c = [DDone; DDone] /\ refused_data (log c) = [] /\ dq c = [x_pd [x61]; x_pd [x62]].
Proof.
  eexists. split; [vm_compute; reflexivity|]. split; [apply calm_run_ok; vm_compute; reflexivity|]. do 4 (split; [reflexivity|]). split; vm_compute; reflexivity.
Qed.
(** the execution of C38 is not: there the second packet is read before *)
Example C115_ex_hurried : calm_run (start Server x_cfg 3) (server_up ++ take 2 (pk_data [x61]) ++ take 3 (pk_data [x62])) = false.
Proof. vm_compute. reflexivity. Qed.
