(** C116: the order of user data between two endpoints. *)
From Verif Require Import GoBase BaseProofs ParamsModel MessagesModel ConfigModel ConnModel ConnSpec ConnBase ConnInv ConnTrace CfgSpec ConnUser
  ConnCodec ConnMacro ConnMore ConnExamples ConnStable ConnData ConnPair ConnPieces ConnE2E OrderSpec OrderProofs FlowSpec FlowProofs PropsUser PropsE2E PropsOrder.
From Coq Require Import Arith Lia Permutation.
Open Scope nat_scope.

(** Endpoint a, whose user writes one payload after the other; a network that may lose packets but not reorder them; endpoint b, which
    reads no packet before the goroutines of the earlier DATA messages have ended.  What b's user gets is, in this order, a part of what
    a's user wrote, with the labels of a's configuration. *)
Theorem C116_order : forall ma ga oa lsa a mb gb ob lsb b,
  run (start ma ga oa) lsa = Some a -> run (start mb gb ob) lsb = Some b -> cfg_ok ga -> Forall plain (calls lsa) -> in_turn (start ma ga oa) lsa ->
  Forall (fun p => length p <= 1500) (packets (log a)) -> picked (arrivals lsb) (packets (log a)) -> unhurried (start mb gb ob) lsb ->
  picked (delivered (log b)) (map (pd_of ga) (accepted (calls lsa) (us a))).
Proof. exact order_end_to_end. Qed.
(** If nothing is lost or refused and b is at rest: all of it. *)
Theorem C116_all : forall ma ga oa lsa a mb gb ob lsb b,
  run (start ma ga oa) lsa = Some a -> run (start mb gb ob) lsb = Some b -> cfg_ok ga -> Forall plain (calls lsa) -> in_turn (start ma ga oa) lsa ->
  Forall (fun p => length p <= 1500) (packets (log a)) -> arrivals lsb = packets (log a) -> unhurried (start mb gb ob) lsb ->
  crash b = None -> ctxd b = false -> mon b = MRead -> Forall (fun d => d = DDone) (ds b) -> inq b = [] -> refused_data (log b) = [] ->
  delivered (log b) ++ dq b = map (pd_of ga) (accepted (calls lsa) (us a)).
Proof. exact order_end_to_end_all. Qed.
(** On the wire the order of the calls is kept in any case. *)
Theorem C116_wire : forall m g o ls c, run (start m g o) ls = Some c -> cfg_ok g -> Forall plain (calls ls) -> in_turn (start m g o) ls ->
  Forall (fun p => length p <= 1500) (packets (log c)) -> flat_map payload (packets (log c)) = map (pd_of g) (accepted (calls ls) (us c)).
Proof. intros m g o ls c R Ok Pl It Sz. apply (in_call_order m g o ls c R Ok Pl It Sz). Qed.
Print Assumptions C116_order.
Print Assumptions C116_all.
Print Assumptions C116_wire.

(** decides [in_turn] *)
Fixpoint turn_run (c : conn) (ops : list uop) (ls : list label) : bool :=
  match ls with
  | [] => true
  | l :: ls =>
      match l with
      | LCall op => if a_write op then forallb (fun x => negb (a_write (fst x)) || match snd x with UDone _ => true | _ => false end) (List.combine ops (us c)) else true
      | _ => true
      end && match step c l with None => true | Some b => turn_run b (ops ++ calls [l]) ls end
  end.
Lemma combine_at {A B} (la : list A) : forall (lb : list B) i a b, nth_error la i = Some a -> nth_error lb i = Some b -> In (a, b) (List.combine la lb).
Proof.
  induction la as [|x la IH]; intros lb i a b Na Nb; [destruct i; discriminate|]. destruct lb as [|y lb]; [destruct i; discriminate|].
  destruct i as [|i]; cbn in *; [left; congruence|right; eapply IH; eauto].
Qed.
Lemma turn_run_sound ls : forall c ops, turn_run c ops ls = true -> forall pre op post a, ls = pre ++ LCall op :: post -> run c pre = Some a -> a_write op = true ->
  forall i op' u, nth_error (ops ++ calls pre) i = Some op' -> a_write op' = true -> nth_error (us a) i = Some u -> exists r, u = UDone r.
Proof.
  induction ls as [|l ls IH]; intros c ops H pre op post a E R W i op' u N W' Nu; [destruct pre; discriminate|]. cbn [turn_run] in H.
  apply andb_prop in H as [H1 H2]. destruct pre as [|p pre]; cbn [app] in E; injection E as -> E.
  - injection R as ->. rewrite W in H1. rewrite forallb_forall in H1. cbn [calls flat_map] in N. rewrite app_nil_r in N.
    specialize (H1 _ (combine_at _ _ _ _ _ N Nu)). cbn [fst snd] in H1. rewrite W' in H1. destruct u; try discriminate. eauto.
  - cbn [run] in R. destruct (step c p) as [c1|]; [|discriminate].
    eapply (IH c1 _ H2 pre op post a E R W i op' u); eauto. rewrite <- app_assoc, <- calls_app. exact N.
Qed.
Lemma turn_run_ok c ls : turn_run c [] ls = true -> in_turn c ls.
Proof. intros H pre op post a E R W i op' u N. eapply (turn_run_sound ls c [] H); eauto. Qed.

(** two payloads written one after the other; the server, which has both packets waiting, reads the second when the first is queued *)
Definition ls_slow : list label :=
  boot_server ++ reply 0 b_up ++ reply 1 b_act ++ [LMon true] ++ [LArrive (b_data [x61]); LArrive (b_data [x62; x63]); LMon true] ++ hand 2 4 ++
  [LMon true; LData 0; LData 0; LData 0; LMon true] ++ hand 3 4 ++ [LMon true; LData 1; LData 1; LData 1] ++ [LCall OpReadPD; LUser 0 true; LUser 0 true].
Definition e_slow : conn := Eval vm_compute in after (start Server x_cfg 3) ls_slow.
Example C116_ex : run (start Client x_cfg 3) ls_client = Some e_client /\ run (start Server x_cfg 3) ls_slow = Some e_slow /\ cfg_ok x_cfg /\
  Forall plain (calls ls_client) /\ in_turn (start Client x_cfg 3) ls_client /\ Forall (fun p => length p <= 1500) (packets (log e_client)) /\
  arrivals ls_slow = packets (log e_client) /\ unhurried (start Server x_cfg 3) ls_slow /\ 
  crash e_slow = None /\ ctxd e_slow = false /\ mon e_slow = MRead /\ Forall (fun d => d = DDone) (ds e_slow) /\ inq e_slow = [] /\ refused_data (log e_slow) = [] /\
  accepted (calls ls_client) (us e_client) = [[x61]; [x62; x63]] /\ delivered (log e_slow) = [pd_of x_cfg [x61]] /\ dq e_slow = [pd_of x_cfg [x62; x63]].
Proof.
  split; [vm_compute; reflexivity|]. split; [vm_compute; reflexivity|]. split; [apply C31_ex_cfg|]. split; [repeat constructor|].
  split; [apply turn_run_ok; vm_compute; reflexivity|].
  split; [apply Forall_forall; intros p I; vm_compute in I; apply Nat.leb_le; intuition (subst; reflexivity)|].
  split; [vm_compute; reflexivity|]. split; [apply calm_run_ok; vm_compute; reflexivity|].
  do 3 (split; [reflexivity|]). split; [repeat constructor|]. split; [reflexivity|]. split; [vm_compute; reflexivity|]. split; [vm_compute; reflexivity|]. split; vm_compute; reflexivity.
Qed.
(** "What is written one after the other, over a network that keeps the order, is read in this order" is false: the same packets in the same
    order, but the second is read before the goroutine of the first has ended. *)
Definition ls_fast : list label :=
  boot_server ++ reply 0 b_up ++ reply 1 b_act ++ [LMon true] ++ take 2 (b_data [x61]) ++ take 3 (b_data [x62; x63]) ++
  [LData 1; LData 1; LData 1; LData 0; LData 0; LData 0; LCall OpReadPD; LUser 0 true; LUser 0 true; LCall OpReadPD; LUser 1 true; LUser 1 true].
Theorem C116_hurried_refuted : exists b, run (start Client x_cfg 3) ls_client = Some e_client /\ run (start Server x_cfg 3) ls_fast = Some b /\
  in_turn (start Client x_cfg 3) ls_client /\ arrivals ls_fast = packets (log e_client) /\ crash b = None /\ refused_data (log b) = [] /\
  accepted (calls ls_client) (us e_client) = [[x61]; [x62; x63]] /\ delivered (log b) = [pd_of x_cfg [x62; x63]; pd_of x_cfg [x61]].
Proof.
  eexists. split; [vm_compute; reflexivity|]. split; [vm_compute; reflexivity|]. split; [apply turn_run_ok; vm_compute; reflexivity|].
  split; [vm_compute; reflexivity|]. split; [vm_compute; reflexivity|]. split; [vm_compute; reflexivity|]. split; vm_compute; reflexivity.
Qed.
Print Assumptions C116_hurried_refuted.
