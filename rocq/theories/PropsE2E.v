(** C75: user data between two endpoints of the library. *)
From Verif Require Import GoBase ParamsModel MessagesModel WireSpec ParamsSpec MsgSpec ConfigModel ConnModel ConnSpec ConnBase ConnInv ConnTrace CfgSpec ConnUser ConnCodec
  ConnMore ConnExamples ConnData ConnPair ConnPieces ConnE2E PropsUser PropsFsm.
From Coq Require Import Arith Lia Permutation.
Open Scope nat_scope.
Opaque max_value_len.

(** C75: endpoint b receives, each at most once and in any order, packets that endpoint a sent, none of them longer than
    1500 octets. What b hands to its user was written at a, as often as it was written. *)
Theorem C75_authentic : forall ma ga oa lsa a mb gb ob lsb b lost,
  run (start ma ga oa) lsa = Some a -> run (start mb gb ob) lsb = Some b -> cfg_ok ga -> Forall plain (calls lsa) ->
  Forall (fun p => length p <= 1500) (packets (log a)) -> Permutation (arrivals lsb ++ lost) (packets (log a)) ->
  exists rest, Permutation (delivered (log b) ++ rest) (map (pd_of ga) (accepted (calls lsa) (us a))).
Proof. exact end_to_end_sub. Qed.
(** If no packet is lost, then once b is at rest everything whose Write returned without error at a has been delivered,
    waits for a Read, or was refused with an Error. *)
Theorem C75_complete : forall ma ga oa lsa a mb gb ob lsb b,
  run (start ma ga oa) lsa = Some a -> run (start mb gb ob) lsb = Some b -> cfg_ok ga -> Forall plain (calls lsa) ->
  Forall (fun p => length p <= 1500) (packets (log a)) -> Permutation (arrivals lsb ++ []) (packets (log a)) ->
  crash b = None -> ctxd b = false -> mon b = MRead -> Forall (fun d => d = DDone) (ds b) -> inq b = [] ->
  Permutation (delivered (log b) ++ dq b ++ refused_data (log b)) (map (pd_of ga) (accepted (calls lsa) (us a))).
Proof. exact end_to_end_all. Qed.
Print Assumptions C75_authentic.
Print Assumptions C75_complete.

(** the messages of client and server with configuration x_cfg *)
Definition b_up := bytes_of (asp_up x_cfg).
Definition b_up_ack := bytes_of (up_ack x_cfg).
Definition b_act := bytes_of (asp_active x_cfg).
Definition b_act_ack := bytes_of (active_ack x_cfg).
Definition b_data (d : list byte) := bytes_of (data_msg x_cfg d).
Definition writes (i : nat) (d : list byte) : list label := [LCall (OpWrite d 0); LUser i true; LUser i true; LUser i true].
(** a client that writes twice and a server that gets the second packet first *)
Definition ls_client : list label :=
  boot_client ++ take 0 b_up_ack ++ [LMon true] ++ take 1 b_act_ack ++ [LMon true] ++ writes 0 [x61] ++ writes 1 [x62; x63].
Definition data_in (i j : nat) (d : list byte) : list label := take i (b_data d) ++ [LData j; LData j; LData j].
Definition ls_server : list label :=
  boot_server ++ reply 0 b_up ++ reply 1 b_act ++ [LMon true] ++ data_in 2 0 [x62; x63] ++ data_in 3 1 [x61] ++ [LCall OpReadPD; LUser 0 true; LUser 0 true].
Definition e_client : conn := Eval vm_compute in after (start Client x_cfg 3) ls_client.
Definition e_server : conn := Eval vm_compute in after (start Server x_cfg 3) ls_server.
Example C75_ex : run (start Client x_cfg 3) ls_client = Some e_client /\ run (start Server x_cfg 3) ls_server = Some e_server /\ cfg_ok x_cfg /\
  Forall plain (calls ls_client) /\ Forall (fun p => length p <= 1500) (packets (log e_client)) /\
  Permutation (arrivals ls_server ++ []) (packets (log e_client)) /\
  crash e_server = None /\ ctxd e_server = false /\ mon e_server = MRead /\ Forall (fun d => d = DDone) (ds e_server) /\ inq e_server = [] /\
  accepted (calls ls_client) (us e_client) = [[x61]; [x62; x63]] /\ delivered (log e_server) = [pd_of x_cfg [x62; x63]] /\ dq e_server = [pd_of x_cfg [x61]].
Proof.
  split; [vm_compute; reflexivity|]. split; [vm_compute; reflexivity|]. split; [apply C31_ex_cfg|]. split; [repeat constructor|].
  split; [apply Forall_forall; intros p I; vm_compute in I; apply Nat.leb_le; intuition (subst; reflexivity)|].
  split.
  - assert (E1 : arrivals ls_server ++ [] = [b_up; b_act; b_data [x62; x63]; b_data [x61]]) by (vm_compute; reflexivity).
    assert (E2 : packets (log e_client) = [b_up; b_act; b_data [x61]; b_data [x62; x63]]) by (vm_compute; reflexivity).
    rewrite E1, E2. do 2 apply perm_skip. apply perm_swap.
  - do 3 (split; [reflexivity|]). split; [repeat constructor|]. split; [reflexivity|]. split; [vm_compute; reflexivity|]. split; vm_compute; reflexivity.
Qed.

(** Refusal does happen: the server's user writes as soon as Accept has returned; the DATA, sent on another stream, overtakes
    the ASP Active Ack, and the client refuses it. All packets of the server arrive, and the client receives nothing else. *)
Definition ls_sv : list label := boot_server ++ reply 0 b_up ++ reply 1 b_act ++ [LMon true] ++ writes 0 [x61].
Definition ls_cl : list label :=
  boot_client ++ take 0 b_up_ack ++ [LMon true] ++
  [LArrive (b_data [x61]); LMon true] ++ hand 1 2 ++ [LData 0; LData 0; LMon true] ++ hand 1 2 ++ [LMon true; LMon true] ++
  take 2 b_act_ack ++ [LMon true].
Definition r_sv : conn := Eval vm_compute in after (start Server x_cfg 3) ls_sv.
Definition r_cl : conn := Eval vm_compute in after (start Client x_cfg 3) ls_cl.
Theorem C75_delivered_refuted : exists rest,
  run (start Server x_cfg 3) ls_sv = Some r_sv /\ run (start Client x_cfg 3) ls_cl = Some r_cl /\
  Permutation (arrivals ls_cl) (packets (log r_sv)) /\ arrivals ls_sv ++ rest = packets (log r_cl) /\
  crash r_cl = None /\ state r_cl = Active /\ dial r_cl = DOk /\ mon r_cl = MRead /\ ds r_cl = [DDone] /\
  accepted (calls ls_sv) (us r_sv) = [[x61]] /\ delivered (log r_cl) = [] /\ dq r_cl = [] /\ refused_data (log r_cl) = [pd_of x_cfg [x61]].
Proof.
  exists (skipn 2 (packets (log r_cl))).
  split; [vm_compute; reflexivity|]. split; [vm_compute; reflexivity|]. split.
  - assert (E1 : arrivals ls_cl = [b_up_ack; b_data [x61]; b_act_ack]) by (vm_compute; reflexivity).
    assert (E2 : packets (log r_sv) = [b_up_ack; b_act_ack; b_data [x61]]) by (vm_compute; reflexivity).
    rewrite E1, E2. apply perm_skip, perm_swap.
  - split; [vm_compute; reflexivity|]. do 5 (split; [reflexivity|]). split; [vm_compute; reflexivity|]. split; [reflexivity|]. split; [reflexivity|vm_compute; reflexivity].
Qed.
Print Assumptions C75_delivered_refuted.
