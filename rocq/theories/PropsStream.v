(** C122: the streams of all packets. *)
From Verif Require Import GoBase BaseProofs ParamsModel MessagesModel ConfigModel ConnModel ConnSpec ConnBase ConnInv ConnTrace ConnUser
  ConnCodec ConnExamples ConnStable ConnData ConnE2E StreamSpec StreamProofs.
From Coq Require Import Arith Lia.
Open Scope nat_scope.

(** In any execution every call has sent what [carried] says: one packet if it is a write or WriteSignal that has returned without error, none otherwise, on
    stream 0 for WriteSignal, on the stream given for WriteToStream and WritePDToStream, on one from 1 to MaxMessageStreamID for Write and WritePD. *)
Theorem C122_calls : forall m g o ls c i op u, run (start m g o) ls = Some c -> nth_error (calls ls) i = Some op -> nth_error (us c) i = Some u ->
  carried g (maxs c) op u (usends i (log c)).
Proof.
  intros m g o ls c i op u R N N'. destruct (staged _ _ _ _ _ R) as (_ & _ & T). replace g with (cfg c) by exact (proj1 (proj2 (static_run _ _ _ R))).
  apply stage_carried. now apply T.
Qed.
(** What the library sends on its own account is on stream 0 and never DATA; an ERR has the code 1, 4 or 6, whatever stream the peer has used: the code for an
    invalid stream identifier (9) is never sent. *)
Theorem C122_own : forall c o s m b, reachable c -> In (ESend o s m b) (log c) -> by_user o = false ->
  s = 0%N /\ encodes m b /\ octets b <> data_octets /\
  (octets b = (0, 0)%N -> exists x k, m = Typed x /\ m_kind x = KError /\ fget FErrorCode (m_f x) = Some (NewErrorCode k) /\ In k [1; 4; 6]%N).
Proof. exact own_sends. Qed.
(** Hence a packet on a stream other than 0 is the DATA message of exactly one call that has returned its size without error. *)
Theorem C122_other_streams : forall mo g o ls c w s m b, run (start mo g o) ls = Some c -> In (ESend w s m b) (log c) -> s <> 0%N ->
  exists i op, w = OUser i /\ nth_error (calls ls) i = Some op /\ carries g op m /\ encodes m b /\ stream_for (maxs c) op s /\
    nth_error (us c) i = Some (UDone (RWrote (2 * length b))) /\ usends i (log c) = [(s, m, b)].
Proof.
  intros mo g o ls c w s m b R I Ns. destruct (each_stream _ _ _ _ _ _ _ _ _ R I) as [(_ & -> & _)|(i & op & -> & N & N' & Us & En & [[_ ->]|[Ca Sf]])]; try (now elim Ns).
  exists i, op. replace g with (cfg c) by exact (proj1 (proj2 (static_run _ _ _ R))). auto 8.
Qed.
(** And if the user only calls Write and WritePD to send data, every DATA packet is on a stream from 1 to the largest one, and everything else on stream 0. *)
Definition lets_choose (op : uop) : Prop := match op with OpWriteTo _ _ | OpWritePDTo _ _ | OpWriteSignal _ => False | _ => True end.
Theorem C122_chosen : forall mo g o ls c w s m b, run (start mo g o) ls = Some c -> In (ESend w s m b) (log c) -> Forall lets_choose (calls ls) ->
  (octets b = data_octets /\ (1 <= s <= maxs c)%N) \/ (octets b <> data_octets /\ s = 0%N).
Proof.
  intros mo g o ls c w s m b R I F. destruct (each_stream _ _ _ _ _ _ _ _ _ R I) as [(_ & -> & D)|(i & op & -> & N & N' & Us & En & K)]; [auto|].
  rewrite Forall_forall in F. specialize (F op (nth_error_In _ _ N)). destruct K as [[-> _]|[Ca Sf]]; [contradiction|].
  left. destruct Ca; cbn in F, Sf; try contradiction; (split; [exact (new_msg_octets _ _ _ En)|exact Sf]).
Qed.
Print Assumptions C122_calls.
Print Assumptions C122_own.
Print Assumptions C122_other_streams.
Print Assumptions C122_chosen.

Definition ended_in (c0 : conn) (ls : list label) : conn := match run c0 ls with Some c => c | None => c0 end.
(** Write on stream 2 *)
Definition ls_write : list label := server_up ++ echo 2 pk_beat ++ [LCall (OpWrite [x61] 1); LUser 0 true; LUser 0 true; LUser 0 true].
Definition e_write : conn := Eval vm_compute in ended_in (start Server x_cfg 3) ls_write.
Example C122_ex : run (start Server x_cfg 3) ls_write = Some e_write /\ Forall lets_choose (calls ls_write) /\ maxs e_write = 2%N /\
  (exists b, usends 0 (log e_write) = [(2%N, data_msg x_cfg [x61], b)] /\ octets b = data_octets) /\ exists m b, In (ESend (OHand 2) 0 m b) (log e_write) /\ octets b = (3, 6)%N.
Proof.
  split; [vm_compute; reflexivity|]. split; [vm_compute; repeat constructor|]. split; [reflexivity|].
  split; [eexists; split; vm_compute; reflexivity|]. eexists _, _. split; [vm_compute; tauto|reflexivity].
Qed.
(** "DATA goes out on the streams 1 to the largest one" is false: WriteToStream passes on any number, and WriteSignal sends DATA on stream 0. *)
Definition ls_streams : list label := server_up ++ [LCall (OpWriteTo [x61] 9); LUser 0 true; LUser 0 true; LCall (OpWriteSignal (data_msg x_cfg [x62])); LUser 1 true].
Definition e_streams : conn := Eval vm_compute in ended_in (start Server x_cfg 3) ls_streams.
Theorem C122_range_refuted : run (start Server x_cfg 3) ls_streams = Some e_streams /\ maxs e_streams = 2%N /\
  exists b b' m m', In (ESend (OUser 0) 9 m b) (log e_streams) /\ octets b = data_octets /\ In (ESend (OUser 1) 0 m' b') (log e_streams) /\ octets b' = data_octets.
Proof.
  split; [vm_compute; reflexivity|]. split; [reflexivity|]. eexists _, _, _, _. split; [vm_compute; tauto|]. split; [reflexivity|]. split; [vm_compute; tauto|reflexivity].
Qed.
Print Assumptions C122_range_refuted.
(** "What the library sends on its own account is never of the class of DATA" is false: a packet of class 1 and type 0x23 is taken for a BEAT (C18) and
    answered with its own class octet. *)
Definition ls_alias : list label := server_up ++ echo 2 (upd (upd pk_beat 2 x01) 3 x23).
Definition e_alias : conn := Eval vm_compute in ended_in (start Server x_cfg 3) ls_alias.
Theorem C122_class_refuted : run (start Server x_cfg 3) ls_alias = Some e_alias /\ exists m b, In (ESend (OHand 2) 0 m b) (log e_alias) /\ octets b = (1, 6)%N.
Proof. split; [vm_compute; reflexivity|]. eexists _, _. split; [vm_compute; tauto|reflexivity]. Qed.
Print Assumptions C122_class_refuted.
