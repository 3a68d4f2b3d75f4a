(** C127: packets between which an endpoint makes no difference. *)
From Verif Require Import GoBase BaseProofs WireSpec ParamsModel ParamsSpec MessagesModel MsgSpec NormSpec ConfigModel ConnModel ConnSpec ConnBase ConnInv ConnTrace ConnExamples ConnPair ConnPieces
  PeerSpec ConnPeer ExactSpec ConnExact PropsPeer PropsExact ChangeSpec ChangeProofs ConnData PropsLive OrderSpec OrderProofs PropsOrder EchoSpec EchoProofs.
From Coq Require Import Arith Lia Permutation.
Open Scope nat_scope.

(** Replacing packets by packets with the same effect changes nothing in the octets sent, nor in what becomes of the endpoint (C98). *)
Theorem C127_octets : forall mo g d rs rs' bs f, Forall2 same_effect rs rs' -> transcript mo g d rs bs f -> transcript mo g d rs' bs f.
Proof. intros mo g d rs rs' bs f F T. exact (same_transcript mo g d rs bs f T rs' F). Qed.
(** In executions: two endpoints with the same configuration that receive such packets have sent the same octets in the same order when neither can go on. *)
Theorem C127_runs : forall mo g o o' ls ls' c c', beats_enabled g = false -> run (start mo g o) ls = Some c -> run (start mo g o') ls' = Some c' ->
  Forall (fun l => benign l \/ exists raw, l = LArrive raw) ls -> Forall (fun l => benign l \/ exists raw, l = LArrive raw) ls' ->
  Forall2 same_effect (flat_map chunks (arrivals ls)) (flat_map chunks (arrivals ls')) -> Forall (fun raw => ~ is_data raw) (flat_map chunks (arrivals ls)) ->
  (forall l d, benign l -> step c l <> Some d) -> (forall l d, benign l -> step c' l <> Some d) -> packets (log c) = packets (log c').
Proof.
  intros mo g o o' ls ls' c c' Ho R R' F F' E Nd N N'.
  assert (Nd' : Forall (fun raw => ~ is_data raw) (flat_map chunks (arrivals ls'))).
  { clear -E Nd. induction E as [|x y a b M E IH]; [constructor|]. inversion Nd; subst. constructor; [eapply same_not_data; eauto|auto]. }
  destruct (C98_exact mo g o ls c Ho R F Nd) as (bs & f & T & _ & _ & [(l & d & B & S)|[<- _]]); [destruct (N _ _ B S)|].
  destruct (C98_exact mo g o' ls' c' Ho R' F' Nd') as (bs & f' & T' & _ & _ & [(l & d & B & S)|[<- _]]); [destruct (N' _ _ B S)|].
  apply (same_transcript _ _ _ _ _ _ T) in E. now destruct (transcript_det _ _ _ _ _ _ _ _ E T') as [-> _].
Qed.
(** Which packets these are, among others: with other padding, ... *)
Theorem C127_padding : forall b m l k x, Parse b = Ok m -> TLVs (skipn 8 b) l -> 8 + k < length b -> spot_at 0 l k = SPad -> same_effect b (changed (8 + k) x b).
Proof. intros b m l k x P T H S. destruct (change_pad b m l k x P T H S) as (m' & P' & C). left. left. eauto. Qed.
(** ... with the parameters of a known message in another order, ... *)
Theorem C127_order : forall v r c ty len body body' l l' m, (len < 4294967296)%N -> TLVs body l -> TLVs body' l' -> Permutation l l' -> NoDup (map fst l) ->
  Parse (packet v r c ty len body) = Ok (Typed m) -> same_effect (packet v r c ty len body) (packet v r c ty len body').
Proof. intros v r c ty len body body' l l' m Hl T T' P D Pm. left. eapply permuted; eauto. Qed.
(** ... with other parameters, in the messages of ASP state and traffic maintenance (BEAT and BEAT ACK apart), Error and Notify. *)
Theorem C127_parameters : forall b b' m m', Parse b = Ok (Typed m) -> Parse b' = Ok (Typed m') -> b2n (h_version (m_hdr m)) = 1%N -> b2n (h_version (m_hdr m')) = 1%N ->
  m_kind m = m_kind m' -> In (m_kind m) unread_kinds -> same_effect b b'.
Proof. intros b b' m m' P P' V V' K I. right. exists m, m'. repeat split; auto. Qed.

(** DATA: the user is given the same, in whatever executions, if the DATA messages have the same Protocol Data; nobody looks at their network appearance, routing context
    or correlation. *)
Definition quiet (c : conn) : Prop := crash c = None /\ ctxd c = false /\ mon c = MRead /\ Forall (fun d => d = DDone) (ds c) /\ refused_data (log c) = [].
Theorem C127_data : forall mo g o ls c mo' g' o' ls' c', run (start mo g o) ls = Some c -> run (start mo' g' o') ls' = Some c' -> quiet c -> quiet c' ->
  Forall2 (fun r r' => same_data r r' \/ not_data r /\ not_data r') (reads (log c)) (reads (log c')) ->
  Permutation (delivered (log c) ++ dq c) (delivered (log c') ++ dq c') /\
  (unhurried (start mo g o) ls -> unhurried (start mo' g' o') ls' -> delivered (log c) ++ dq c = delivered (log c') ++ dq c').
Proof.
  intros mo g o ls c mo' g' o' ls' c' R R' (C & X & M & D & F) (C' & X' & M' & D' & F') E. apply same_payloads in E.
  pose proof (C57_nothing_lost c (ex_intro _ mo (ex_intro _ g (ex_intro _ o (ex_intro _ ls R)))) C X M D) as A.
  pose proof (C57_nothing_lost c' (ex_intro _ mo' (ex_intro _ g' (ex_intro _ o' (ex_intro _ ls' R')))) C' X' M' D') as A'.
  rewrite F, app_nil_r in A. rewrite F', app_nil_r in A'. split; [rewrite A, A', E; reflexivity|].
  intros U U'. now rewrite (C115_exact _ _ _ _ _ R U C X M D F), (C115_exact _ _ _ _ _ R' U' C' X' M' D' F').
Qed.

(** The length in the header makes a difference: a BEAT is sent back with it. *)
Definition l_rs (b : list byte) : list (list byte) := [pk_up; pk_active; b].
Theorem C127_length_refuted : exists b' m m', Parse pk_beat = Ok (Typed m) /\ Parse b' = Ok (Typed m') /\ same_inside (Typed m) (Typed m') /\
  exists c c', run (start Server x_cfg 3) (feed Server (l_rs pk_beat)) = Some c /\ run (start Server x_cfg 3) (feed Server (l_rs b')) = Some c' /\
  length (packets (log c)) = length (packets (log c')) /\ packets (log c) <> packets (log c').
Proof.
  exists (changed 7 x00 pk_beat). eexists _, _. split; [vm_compute; reflexivity|]. split; [vm_compute; reflexivity|]. split; [split; vm_compute; reflexivity|].
  exists (after (start Server x_cfg 3) (feed Server (l_rs pk_beat))), (after (start Server x_cfg 3) (feed Server (l_rs (changed 7 x00 pk_beat)))).
  split; [vm_compute; reflexivity|]. split; [vm_compute; reflexivity|]. split; [vm_compute; reflexivity|]. vm_compute. discriminate.
Qed.
(** two messages of one kind with different parameters *)
Definition either (k : kind) (b : bool) : list byte :=
  let i := if b then Some (NewInfoString [x61]) else Some (NewInfoString [x62]) in
  let h := if b then Some (NewHeartbeatData [x61]) else Some (NewHeartbeatData [x62]) in
  bytes_of (Typed match k with
  | KHeartbeat => NewHeartbeat h | KHeartbeatAck => NewHeartbeatAck h
  | KDUNA => NewDestinationUnavailable None None None i | KDAVA => NewDestinationAvailable None None None i
  | KDAUD => NewDestinationStateAudit None None None i | KDRST => NewDestinationRestricted None None None i
  | KSCON => NewSignallingCongestion None None None None None i | _ => NewDestinationUserPartUnavailable None None None None i end).
Definition y_cfg : config := NewClientConfig (Some (mkHbInfo false 0 0 [x61])) 0x11111111 0x22222222 1 2 0 0 [1; 2]%N x03 x00 x00 x01.
Definition feed_y (rs : list (list byte)) : list label := map LArrive rs ++ drain 999 (after (start Server y_cfg 3) (map LArrive rs)).
Definition answering (k : kind) (b : bool) : conn := after (start Server y_cfg 3) (feed_y (l_rs (either k b))).
Definition read_kinds : list kind := [KHeartbeat; KHeartbeatAck; KDUNA; KDAVA; KDAUD; KDRST; KSCON; KDUPU].
Lemma other_kinds k : ~ In k unread_kinds -> k <> KData -> In k read_kinds.
Proof. intros H D. destruct k; try (now destruct D); try (cbn; tauto); exfalso; apply H; cbn; tauto. Qed.
(** nothing is left to do in [c] *)
Definition resting (c : conn) : bool :=
  match crash c, sopen c, (ctxd c, closed c), inq c, ds c, us c, hb c, dial c, ini c with
  | None, true, (false, false), [], [], [], BDone, DOk, false =>
      match mon c with MRead | MSelect => true | _ => false end && forallb (fun h => match h with [] | IBeatAck :: _ => true | _ => false end) (hs c)
  | _, _, _, _, _, _, _, _, _ => false
  end.
Lemma resting_over c l d : resting c = true -> benign l -> step c l <> Some d.
Proof.
  unfold resting, step. destruct (crash c); [discriminate|]. destruct (sopen c) eqn:O; try discriminate. destruct (ctxd c) eqn:X; try discriminate.
  destruct (closed c) eqn:Z; try discriminate. destruct (inq c) eqn:Q; try discriminate.
  destruct (ds c) eqn:D; try discriminate. destruct (us c) eqn:U; try discriminate. destruct (hb c) eqn:H; try discriminate.
  destruct (dial c); try discriminate. destruct (ini c) eqn:I0; try discriminate. intros F B S. apply andb_prop in F as [M F]. rewrite forallb_forall in F.
  destruct l; cbn in B; try contradiction; try discriminate.
  - unfold step_mon in S. destruct ok; [|contradiction]. destruct (mon c); try discriminate. rewrite Q, O in S. discriminate.
  - destruct (mon c); discriminate.
  - unfold step_hand in S. destruct (nth_error (hs c) i) as [[|x k]|] eqn:N0; try discriminate. apply nth_error_In in N0. apply F in N0.
    destruct x; try discriminate. rewrite Z, H in S. discriminate.
  - unfold step_data in S. rewrite D in S. destruct i; discriminate.
  - destruct i; discriminate.
  - unfold step_hb in S. rewrite H in S. discriminate.
  - unfold step_user in S. rewrite U in S. destruct i; discriminate.
Qed.
Definition named (k : kind) (b : bool) : msg := match Parse (either k b) with Ok (Typed m) => m | _ => NewAspUp None None end.
(** The list of kinds is exact: for every other kind but DATA (above) the parameters make a difference in the octets sent, with the same header. *)
Theorem C127_kinds : forall k, ~ In k unread_kinds -> k <> KData -> exists b b' a a', valid b (Typed a) /\ valid b' (Typed a') /\ m_kind a = k /\ m_kind a' = k /\ firstn 8 b = firstn 8 b' /\
  exists c c', run (start Server y_cfg 3) (feed_y (l_rs b)) = Some c /\ run (start Server y_cfg 3) (feed_y (l_rs b')) = Some c' /\
  (forall l d, benign l -> step c l <> Some d) /\ (forall l d, benign l -> step c' l <> Some d) /\ packets (log c) <> packets (log c').
Proof.
  intros k H D. apply (other_kinds _ H) in D. clear H. exists (either k true), (either k false), (named k true), (named k false).
  assert (A : forall b, valid (either k b) (Typed (named k b)) /\ m_kind (named k b) = k /\ run (start Server y_cfg 3) (feed_y (l_rs (either k b))) = Some (answering k b) /\ resting (answering k b) = true).
  { cbn in D. repeat (destruct D as [<-|D]); try contradiction; intros []; (split; [split; vm_compute; reflexivity|]); (split; [vm_compute; reflexivity|]); split; vm_compute; reflexivity. }
  assert (E : packets (log (answering k true)) <> packets (log (answering k false))).
  { clear A. cbn in D. repeat (destruct D as [<-|D]); try contradiction; vm_compute; discriminate. }
  assert (G : firstn 8 (either k true) = firstn 8 (either k false)).
  { clear A E. cbn in D. repeat (destruct D as [<-|D]); try contradiction; vm_compute; reflexivity. }
  destruct (A true) as (V & K & R & Q), (A false) as (V' & K' & R' & Q'). do 4 (split; [assumption|]). split; [exact G|].
  exists (answering k true), (answering k false). do 2 (split; [assumption|]). split; [intros l d; now apply resting_over|]. split; [intros l d; now apply resting_over|exact E].
Qed.
Print Assumptions C127_octets.
Print Assumptions C127_runs.
Print Assumptions C127_padding.
Print Assumptions C127_order.
Print Assumptions C127_parameters.
Print Assumptions C127_length_refuted.
Print Assumptions C127_data.
Print Assumptions C127_kinds.

(** ASP Up without identifier, ASP Active with unknown routing contexts, BEAT with other padding *)
Definition up2 : list byte := Eval vm_compute in bytes_of (Typed (NewAspUp None (Some (NewInfoString [x61])))).
Definition active2 : list byte := Eval vm_compute in bytes_of (Typed (NewAspActive (Some (NewTrafficModeType 3)) (Some (NewRoutingContext [99; 100]%N)) None)).
Definition beat2 : list byte := Eval vm_compute in changed 15 xff pk_beat.
Definition rs1 : list (list byte) := Eval vm_compute in [pk_up; pk_active; pk_beat].
Definition rs2 : list (list byte) := [up2; active2; beat2].
Example C127_ex : Forall2 same_effect rs1 rs2 /\ pk_beat <> beat2 /\
  packets (log (after (start Server x_cfg 3) (feed Server rs1))) = packets (log (after (start Server x_cfg 3) (feed Server rs2))) /\
  length (packets (log (after (start Server x_cfg 3) (feed Server rs1)))) = 3.
Proof.
  split; [|split; [vm_compute; discriminate|split; vm_compute; reflexivity]].
  constructor; [|constructor; [|constructor; [|constructor]]].
  - right. eexists _, _. split; [split; vm_compute; reflexivity|]. split; [split; vm_compute; reflexivity|]. split; [reflexivity|]. cbn. auto.
  - right. eexists _, _. split; [split; vm_compute; reflexivity|]. split; [split; vm_compute; reflexivity|]. split; [reflexivity|]. cbn. auto 12.
  - left. left. eexists _, _. split; [vm_compute; reflexivity|]. split; [vm_compute; reflexivity|]. vm_compute. auto 12.
Qed.
Example C127_ex_order : exists m, let l := [(11%N, [x00; x00; x00; x02]); (6%N, [x00; x00; x00; x07])] in
  Parse (packet x01 x00 x04 x01 24 (body_of l)) = Ok (Typed m) /\ Permutation l (rev l) /\ NoDup (map fst l).
Proof.
  eexists. split; [vm_compute; reflexivity|]. split; [apply Permutation_rev|]. repeat constructor; cbn; intuition discriminate.
Qed.
(** DATA for another routing context and network, as given to the user as the one for its own *)
Definition foreign_data (d : list byte) : list byte :=
  bytes_of (Typed (NewData (Some (NewNetworkAppearance 77)) (Some (NewRoutingContext [99%N])) (Some (NewProtocolData (cf_opc x_cfg) (cf_dpc x_cfg) (cf_si x_cfg) (cf_ni x_cfg) (cf_mp x_cfg) (cf_sls x_cfg) d)) None)).
Definition data_run (f : list byte -> list byte) : list label :=
  server_up ++ [LArrive (f [x61]); LArrive (f [x62]); LMon true] ++ hand 2 4 ++ [LMon true; LData 0; LData 0; LData 0] ++
  [LMon true] ++ hand 3 4 ++ [LMon true; LData 1; LData 1; LData 1].
Definition data_end (f : list byte -> list byte) : conn := after (start Server x_cfg 3) (data_run f).
Example C127_ex_data : run (start Server x_cfg 3) (data_run pk_data) = Some (data_end pk_data) /\ run (start Server x_cfg 3) (data_run foreign_data) = Some (data_end foreign_data) /\
  quiet (data_end pk_data) /\ quiet (data_end foreign_data) /\ unhurried (start Server x_cfg 3) (data_run foreign_data) /\
  same_data (pk_data [x61]) (foreign_data [x61]) /\ skipn 2 (reads (log (data_end foreign_data))) = [foreign_data [x61]; foreign_data [x62]] /\
  pk_data [x61] <> foreign_data [x61] /\ dq (data_end foreign_data) = [x_pd [x61]; x_pd [x62]].
Proof.
  split; [vm_compute; reflexivity|]. split; [vm_compute; reflexivity|].
  split; [do 3 (split; [vm_compute; reflexivity|]); split; [vm_compute; repeat constructor|vm_compute; reflexivity]|].
  split; [do 3 (split; [vm_compute; reflexivity|]); split; [vm_compute; repeat constructor|vm_compute; reflexivity]|].
  split; [apply calm_run_ok; vm_compute; reflexivity|].
  split; [eexists _, _; split; [split; vm_compute; reflexivity|]; split; [split; vm_compute; reflexivity|]; do 2 (split; [reflexivity|]); vm_compute; reflexivity|].
  split; [vm_compute; reflexivity|]. split; [vm_compute; discriminate|vm_compute; reflexivity].
Qed.
