(** Property C99: received data that nobody reads. *)
From Verif Require Import GoBase ParamsModel MessagesModel ConfigModel ConnModel ConnSpec ConnBase ConnInv ConnData ConnTrace ConnExamples ConnStable ConnPieces WorkSpec ConnUser ServeSpec ConnServe
  PropsServe FullSpec ConnFull.
From Coq Require Import Arith Lia Permutation.
Open Scope nat_scope.

(** The queue of received payloads never holds more than 65535. *)
Theorem C99_queue : forall c, reachable c -> (N.of_nat (length (dq c)) <= 65535)%N.
Proof. exact queue_cap. Qed.
(** Without a Read, an established connection that has come to rest holds all payloads it has received: in the queue, and when that is full
    each in a goroutine of its own. *)
Theorem C99_held : forall c ls c', reachable c -> serving c -> no_calls c -> run c ls = Some c' -> Forall peaceful ls -> Forall (fun l => forall op, l <> LCall op) ls ->
  Forall carries_data (arrivals ls) -> crash c' = None -> at_rest c' ->
  length (dq c') + stuck_data c' = length (dq c) + length (arrivals ls) /\ ((N.of_nat (length (dq c')) < 65535)%N -> stuck_data c' = 0).
Proof.
  intros c ls c' R V N Ru P Nc F C A. pose proof (rest_served c ls c' R V Ru P C A) as Ad. split; [eapply done_stuck; eauto|].
  intros L. destruct Ad as [_ _ (new & _ & _ & H)]. rewrite <- waiting_stuck, (H L). reflexivity.
Qed.
(** Nothing slows the peer down: whatever the number of DATA messages, the connection can read them all, and all goroutines beyond the queue exist. *)
Theorem C99_pile : forall c rs, reachable c -> serving c -> no_calls c -> Forall carries_data rs ->
  exists ls c', run c (map LArrive rs ++ ls) = Some c' /\ forallb inner ls = true /\ crash c' = None /\ state c' = Active /\
    reads (log c') = reads (log c) ++ rs /\ (N.of_nat (length rs) <= N.of_nat (stuck_data c') + 65535)%N.
Proof.
  intros c rs R V N F. destruct (pile_up c rs R V N F) as (ls & c' & R' & Fi & _ & C & A & Rd & L). exists ls, c'. repeat (split; [assumption|]).
  assert (Q : (N.of_nat (length (dq c')) <= 65535)%N) by (apply queue_cap; eapply reachable_run; eauto). lia.
Qed.
(** So it is not the case that the goroutines of a connection, or the memory held for it, are bounded. *)
Theorem C99_unbounded_refuted : forall n, exists c, reachable c /\ crash c = None /\ state c = Active /\ n <= stuck_data c.
Proof.
  intros n.
  assert (F : forall k, Forall carries_data (repeat (pk_data [x61]) k)).
  { intros k. apply Forall_forall. intros raw I. apply repeat_spec in I. subst raw. split; [apply Nat.leb_le; vm_compute; reflexivity|].
    eexists _, _, _. split; [split; vm_compute; reflexivity|]. repeat split; vm_compute; reflexivity. }
  assert (P : forall k, exists c, reachable c /\ crash c = None /\ state c = Active /\ (N.of_nat k <= N.of_nat (stuck_data c) + 65535)%N).
  { intros k. destruct (C99_pile x_client _ x_client_reachable x_client_serving (Forall_nil _) (F k)) as (ls & c & R & _ & C & A & _ & L).
    exists c. split; [eapply reachable_run; [exact x_client_reachable|exact R]|]. repeat (split; [assumption|]). now rewrite repeat_length in L. }
  destruct (P (N.to_nat (N.of_nat n + 65535))) as (c & R & C & A & L). rewrite N2Nat.id in L. exists c. repeat (split; [assumption|]). lia.
Qed.
(** Close with such a goroutine waiting is the end of the process: nothing that happens afterwards, short of the context being cancelled, lets the goroutine
    end, and its only step is a panic, which it can make at any time. *)
Theorem C99_close : forall c i pd, crash c = None -> dial c = DOk -> unlocked c = true -> state c = Active -> closed c = false -> ctxd c = false ->
  nth_error (ds c) i = Some (DSend pd) ->
  exists c1, run c [LCall OpClose; LUser (length (us c)) true] = Some c1 /\ crash c1 = None /\
    forall ls c', run c1 ls = Some c' -> ~ In LCancel ls -> crash c' = None ->
      nth_error (ds c') i = Some (DSend pd) /\ exists c2, step c' (LData i) = Some c2 /\ crash c2 = Some PSendClosed.
Proof.
  intros c i pd C D U A K X N. destruct (close_dooms c i pd C D U A K X N) as (c1 & R & C1 & Do). exists c1. split; [exact R|]. split; [exact C1|].
  intros ls c' R' Ni C'. destruct (doomed_run ls c1 c' i pd Do Ni R' C') as (K' & _ & N'). split; [exact N'|]. eapply send_closed; eauto.
Qed.
Print Assumptions C99_queue.
Print Assumptions C99_held.
Print Assumptions C99_pile.
Print Assumptions C99_unbounded_refuted.
Print Assumptions C99_close.

(** a client whose user reads nothing: two DATA messages *)
Definition f_ls : list label := [LArrive (pk_data [x61]); LMon true] ++ hand 2 4 ++ [LData 0; LArrive (pk_data [x62]); LData 0; LMon true; LMon true; LData 0] ++
  hand 3 4 ++ [LMon true] ++ [LData 1; LData 1; LData 1; LHb true].
Definition f_end : conn := Eval vm_compute in after x_client f_ls.
Lemma f_run : run x_client f_ls = Some f_end. Proof. vm_compute. reflexivity. Qed.
Example C99_held_ex : reachable x_client /\ serving x_client /\ no_calls x_client /\ run x_client f_ls = Some f_end /\ arrivals f_ls = [pk_data [x61]; pk_data [x62]] /\
  Forall carries_data (arrivals f_ls) /\ at_rest f_end /\ map pd_data (dq f_end) = [[x61]; [x62]] /\ stuck_data f_end = 0.
Proof.
  split; [exact x_client_reachable|]. split; [exact x_client_serving|]. split; [apply Forall_nil|]. split; [exact f_run|]. split; [reflexivity|].
  split; [|split; [|split; vm_compute; reflexivity]].
  - repeat (apply Forall_cons; [split; [apply Nat.leb_le; vm_compute; reflexivity|]; eexists _, _, _; split; [split; vm_compute; reflexivity|]; repeat split; vm_compute; reflexivity|]). apply Forall_nil.
  - intros l I P. destruct l; try discriminate I; try (vm_compute; reflexivity); try (destruct ok; [|contradiction P]); try (vm_compute; reflexivity).
    + do 4 (destruct i as [|i]; [vm_compute; reflexivity|]). vm_compute. destruct i; reflexivity.
    + do 2 (destruct i as [|i]; [vm_compute; reflexivity|]). vm_compute. destruct i; reflexivity.
    + do 2 (destruct i as [|i]; [vm_compute; reflexivity|]). vm_compute. destruct i; reflexivity.
    + vm_compute. destruct i; reflexivity.
Qed.
(** the situation of C99_close, here before the goroutine has tried to send *)
Definition f_ls2 : list label := [LArrive (pk_data [x61]); LMon true] ++ hand 2 4 ++ [LData 0; LData 0; LMon true].
Definition f_mid : conn := Eval vm_compute in after x_client f_ls2.
Lemma f_run2 : run x_client f_ls2 = Some f_mid. Proof. vm_compute. reflexivity. Qed.
Example C99_close_ex : crash f_mid = None /\ dial f_mid = DOk /\ unlocked f_mid = true /\ state f_mid = Active /\ closed f_mid = false /\ ctxd f_mid = false /\
  exists pd, nth_error (ds f_mid) 0 = Some (DSend pd).
Proof. do 6 (split; [reflexivity|]). eexists. vm_compute. reflexivity. Qed.
