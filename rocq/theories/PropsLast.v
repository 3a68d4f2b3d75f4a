(** C106: the end of a connection and the data received before it. *)
From Verif Require Import GoBase BaseProofs ParamsModel MessagesModel ConfigModel ConnModel ConnSpec ConnBase ConnInv ConnUser ConnMacro
  ConnMore ConnExamples ConnStable ConnData LastSpec ConnLast ConnPair.
From Coq Require Import Arith Lia.
Open Scope nat_scope.

(** * C106 *)
(** The peer ends the association while an established connection waits for
    a packet: the monitor closes the connection and ends, without a panic. *)
Theorem C106_peer_ends : forall c ok, reachable c -> listening c -> exists c', run c [LMon false; LMon ok] = Some c' /\
  ended c' /\ crash c' = None /\ mon c' = MExit /\ us c' = us c /\ dq c' = dq c /\ delivered (log c') = delivered (log c).
Proof. exact peer_ends. Qed.
Print Assumptions C106_peer_ends.
(** The user closes it: the same. *)
Theorem C106_user_ends : forall c i ok, reachable c -> listening c -> nth_error (us c) i = Some (UGo OpClose) ->
  exists c', step c (LUser i ok) = Some c' /\
  ended c' /\ crash c' = None /\ nth_error (us c') i = Some (UDone (RClosed (sopen c))) /\ blocked c' = blocked c /\ dq c' = dq c /\
  delivered (log c') = delivered (log c).
Proof. exact user_ends. Qed.
Print Assumptions C106_user_ends.

(** After the end, as long as nothing panics: what is delivered is a part of
    what was queued, in order, one payload for each call that was waiting. *)
Theorem C106_after : forall c ls c', ended c -> crash c = None -> run c ls = Some c' -> crash c' = None ->
  ended c' /\ exists j, delivered (log c') = delivered (log c) ++ firstn j (dq c) /\ dq c' = skipn j (dq c) /\ j <= length (dq c) /\
    blocked c' + j <= blocked c /\ (blocked c' + j < blocked c -> dq c' = []).
Proof. exact ended_run. Qed.
Print Assumptions C106_after.
(** Once no call waits any more: exactly as many payloads as calls were waiting
    have been delivered, and the others never are. *)
Theorem C106_rest : forall c ls c', ended c -> crash c = None -> run c ls = Some c' -> crash c' = None -> blocked c' = 0 ->
  delivered (log c') = delivered (log c) ++ firstn (blocked c) (dq c) /\ dq c' = skipn (blocked c) (dq c).
Proof. exact ended_rest. Qed.
Print Assumptions C106_rest.
(** Every call that waits can return, at once and whatever else happens. *)
Theorem C106_returns : forall c i buf ok, ended c -> crash c = None -> nth_error (us c) i = Some (URecv buf) ->
  exists c' r, step c (LUser i ok) = Some c' /\ crash c' = None /\ ended c' /\ nth_error (us c') i = Some (UDone r) /\ S (blocked c') = blocked c /\
    r = match dq c with pd :: _ => read_result buf pd | [] => RNotEstablished end.
Proof. exact ended_returns. Qed.
Print Assumptions C106_returns.
Theorem C106_drains : forall c, ended c -> crash c = None -> exists ls c', run c ls = Some c' /\ length ls = blocked c /\
  Forall (fun l => exists i, l = LUser i true) ls /\ crash c' = None /\ blocked c' = 0.
Proof. exact ended_drains. Qed.
Print Assumptions C106_drains.
(** A call made after the end never gets data. *)
Theorem C106_late : forall c op ls c', ended c -> run c (LCall op :: ls) = Some c' ->
  exists u, nth_error (us c') (length (us c)) = Some u /\ 
  match u with
  | UDone r =>
      match op with
      | OpState => exists s, r = RState s /\ s <> Active
      | OpClose => r = RClosed false
      | OpWriteSignal _ => r = RWriteError
      | _ => r = RNotEstablished
      end
  | UGo _ => True
  | _ => False
  end.
Proof.
  intros c op ls c' E R. destruct (ended_late c op ls c' E R) as (u & N & L). exists u. split; [exact N|].
  destruct u; cbn in L |- *; auto.
Qed.
Print Assumptions C106_late.
(** A payload that was not queued yet is worse than lost: its goroutine panics. *)
Theorem C106_in_flight : forall c i pd, ended c -> crash c = None -> nth_error (ds c) i = Some (DSend pd) ->
  exists c', step c (LData i) = Some c' /\ crash c' = Some PSendClosed.
Proof. exact late_data. Qed.
Print Assumptions C106_in_flight.

(** "What was received before the end can be read" is false.  The client's Write
    has returned without error and then it closes; the server has taken the packet
    and queued its payload; Read reports that the connection is not established,
    and no call ever gets the payload. *)
Definition l_take (p : list byte) : list label := take 2 p ++ [LData 0; LData 0; LData 0].
Definition l_server (p : list byte) : list label := l_take p ++ [LMon false; LMon true; LCall (OpRead (zeros 4)); LUser 0 true].
Theorem C106_lost_refuted : exists a p b pd,
  run x_client [LCall (OpWriteTo [x61] 1); LUser 0 true; LUser 0 true; LCall OpClose; LUser 1 true] = Some a /\
  (exists n, us a = [UDone (RWrote n); UDone (RClosed true)]) /\ packets (log a) = packets (log x_client) ++ [p] /\
  run x_server (l_server p) = Some b /\ crash b = None /\ us b = [UDone RNotEstablished] /\ dq b = [pd] /\ pd_data pd = [x61] /\
  forall ls b', run b ls = Some b' -> crash b' = None -> delivered (log b') = [].
Proof.
  eexists _, _, _, _. split; [vm_compute; reflexivity|]. split; [eexists; vm_compute; reflexivity|].
  split; [vm_compute; reflexivity|]. split; [vm_compute; reflexivity|]. split; [reflexivity|]. split; [reflexivity|]. split; [reflexivity|].
  split; [reflexivity|]. intros ls b' R C.
  refine (let X := ended_run _ ls b' _ _ R C in _).
  destruct X as (_ & j & D & _ & _ & B & _).
  assert (J : j = 0). { clear D. unfold blocked in B at 2. cbn in B. lia. }
  rewrite J in D. cbn [firstn] in D. rewrite app_nil_r in D. rewrite D. reflexivity.
  Unshelve.
  - constructor; cbn; auto; try discriminate.
  - reflexivity.
Qed.
Print Assumptions C106_lost_refuted.

(** one Read waiting, two payloads queued *)
Definition l_two : list label :=
  [LCall (OpRead (zeros 4)); LUser 0 true] ++ l_take (pk_data [x61]) ++
  take 3 (pk_data [x62]) ++ [LData 1; LData 1; LData 1].
Example C106_ex : exists c, run x_server l_two = Some c /\ listening c /\ blocked c = 1 /\ map pd_data (dq c) = [[x61]; [x62]].
Proof. eexists. split; [vm_compute; reflexivity|]. split; [constructor; reflexivity || discriminate|]. split; reflexivity. Qed.
Example C106_ex_end : exists c c', run x_server (l_two ++ [LMon false; LMon true]) = Some c /\ blocked c = 1 /\ ended c /\
  run c [LUser 0 true] = Some c' /\ us c' = [UDone (RRead 1 [x61; x00; x00; x00])] /\ map pd_data (dq c') = [[x62]].
Proof. eexists _, _. split; [vm_compute; reflexivity|]. split; [reflexivity|]. split; [constructor; cbn; auto; try discriminate; repeat constructor|]. split; [vm_compute; reflexivity|]. split; reflexivity. Qed.
(** a payload still on its way to the queue *)
Example C106_ex_flight : exists c pd, run x_server (take 2 (pk_data [x61]) ++ [LData 0; LData 0; LMon false; LMon true]) = Some c /\
  nth_error (ds c) 0 = Some (DSend pd) /\ ended c /\ crash c = None.
Proof. eexists _, _. split; [vm_compute; reflexivity|]. split; [reflexivity|]. split; [constructor; cbn; auto; try discriminate; repeat constructor|reflexivity]. Qed.
