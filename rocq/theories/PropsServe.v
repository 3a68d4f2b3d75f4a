(** Property C94: an established connection serves the traffic of its peer. *)
From Verif Require Import GoBase ParamsModel MessagesModel ConfigModel ConnModel ConnSpec ConnInv ConnData ConnTrace ConnExamples ConnPieces WorkSpec ServeSpec ConnServe.
From Coq Require Import Arith Lia Permutation.
Open Scope nat_scope.

(** It stays established, in every interleaving of the goroutines, of the packets that arrive and of the user's calls. *)
Theorem C94_stays_up : forall c ls c', reachable c -> serving c -> run c ls = Some c' -> Forall peaceful ls -> crash c' = None ->
  state c' = Active /\ dial c' = DOk /\ closed c' = false /\ sopen c' = true /\ ctxd c' = false.
Proof. exact stays_up. Qed.
(** A panic can only be that of a Write without an outbound stream for data. *)
Theorem C94_no_panic : forall c ls c' p, reachable c -> serving c -> run c ls = Some c' -> Forall peaceful ls -> crash c' = Some p ->
  p = PIntn /\ maxs c = 0%N.
Proof. exact serve_crash. Qed.
(** When it comes to rest, all that arrived has been served. *)
Theorem C94_at_rest : forall c ls c', reachable c -> serving c -> run c ls = Some c' -> Forall peaceful ls -> crash c' = None -> at_rest c' ->
  all_done c (arrivals ls) c'.
Proof. exact rest_served. Qed.
(** It can always get there by itself (and by C89 cannot go on for ever without). *)
Theorem C94_gets_there : forall c ls c', reachable c -> serving c -> run c ls = Some c' -> Forall peaceful ls -> crash c' = None ->
  exists ls' c'', run c' ls' = Some c'' /\ forallb inner ls' = true /\ Forall peaceful ls' /\ crash c'' = None /\ all_done c (arrivals ls) c''.
Proof. exact gets_served. Qed.
Print Assumptions C94_stays_up.
Print Assumptions C94_no_panic.
Print Assumptions C94_at_rest.
Print Assumptions C94_gets_there.

(** a client that gets a BEAT, a DUNA, a DATA message and a NTFY, one after the other and two at once, while its user reads *)
Definition x_traffic : list label :=
  [LArrive pk_beat; LArrive pk_duna; LMon true] ++ hand 2 6 ++ [LMon true; LCall (OpRead (repeat x00 4)); LUser 0 true; LArrive (pk_data [x61])] ++
  [LMon true] ++ hand 3 3 ++ [LMon true] ++ hand 3 2 ++ [LMon true; LMon true] ++ hand 4 4 ++ [LData 0; LArrive pk_notify; LData 0; LMon true; LData 0; LMon true] ++
  hand 5 5 ++ [LUser 0 true; LMon true; LHb true].
Definition x_served : conn := Eval vm_compute in after x_client x_traffic.
Lemma x_served_run : run x_client x_traffic = Some x_served. Proof. vm_compute. reflexivity. Qed.
Lemma x_client_reachable : reachable x_client.
Proof. exists Client, x_cfg, 3%N, client_up. vm_compute. reflexivity. Qed.
Lemma x_client_serving : serving x_client.
Proof. constructor; try (vm_compute; reflexivity); try (vm_compute; repeat split; reflexivity); try (vm_compute; repeat constructor). vm_compute. discriminate. Qed.
Lemma x_traffic_ok raw m : length raw <= 1500 -> Parse raw = Ok m -> b2n (Version m) = 1%N -> traffic_msg m -> traffic raw.
Proof. intros L P V T. split; [exact L|]. exists m. repeat split; assumption. Qed.
Lemma x_traffic_peaceful : Forall peaceful x_traffic.
Proof.
  unfold x_traffic, hand. cbn [repeat app].
  repeat (constructor; [first [exact Logic.I | eapply x_traffic_ok; [apply Nat.leb_le; vm_compute; reflexivity|vm_compute; reflexivity|reflexivity|
    first [exact Logic.I | vm_compute; reflexivity | vm_compute; eexists _, _; split; reflexivity]]]|]). constructor.
Qed.
Lemma x_served_rests : at_rest x_served.
Proof.
  intros l I P. destruct l; try discriminate I; try (vm_compute; reflexivity); try (destruct ok; [|contradiction P]); try (vm_compute; reflexivity).
  - do 7 (destruct i as [|i]; [vm_compute; reflexivity|]). vm_compute. reflexivity.
  - destruct i as [|i]; [vm_compute; reflexivity|]. vm_compute. destruct i; reflexivity.
  - destruct i as [|i]; [vm_compute; reflexivity|]. vm_compute. destruct i; reflexivity.
  - destruct i as [|i]; [vm_compute; reflexivity|]. vm_compute. destruct i; reflexivity.
Qed.
Example C94_ex : reachable x_client /\ serving x_client /\ run x_client x_traffic = Some x_served /\ Forall peaceful x_traffic /\
  crash x_served = None /\ at_rest x_served /\ arrivals x_traffic = [pk_beat; pk_duna; pk_data [x61]; pk_notify] /\
  own (log x_served) = own (log x_client) ++ [upd pk_beat 3 x06; bytes_of (Typed (NewError (Some (NewErrorCode 4)) None None None (Some (NewDiagnosticInformation pk_duna))))] /\
  map pd_data (delivered (log x_served)) = [[x61]].
Proof.
  split; [exact x_client_reachable|]. split; [exact x_client_serving|]. split; [exact x_served_run|]. split; [exact x_traffic_peaceful|].
  split; [reflexivity|]. split; [exact x_served_rests|]. split; [reflexivity|]. split; vm_compute; reflexivity.
Qed.
