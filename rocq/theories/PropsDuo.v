(** C79, C80: what one more signal does to two established endpoints. *)
From Verif Require Import GoBase ParamsModel MessagesModel WireSpec ParamsSpec MsgSpec ConfigModel ConnModel ConnSpec ConnBase ConnInv ConnTrace CfgSpec ConnUser ConnCodec
  ConnMore ConnExamples ConnPair DialogSpec ConnDialog ConnDuo PropsUser PropsFsm PropsClose PropsPair.
From Coq Require Import Arith Lia.
Open Scope nat_scope.
Opaque max_value_len.

(** C79: a client and a server of the library, heartbeats disabled, connected to each other. At any time after its Dial or Accept has
    returned the user of one of them calls WriteSignal once. [fate_of] (DialogSpec) tells from the side and the type of the message
    what comes of it: for these messages the exchange ends, with both endpoints waiting for packets in the states given ... *)
Theorem C79_ends : forall gc gs oc os m x by_cl n0 p p1 sc ss,
  cfg_ok gc -> cfg_ok gs -> signals_fit gc -> signals_fit gs -> beats_enabled gc = false -> beats_enabled gs = false ->
  psteps n0 (pstart gc gs oc os) p -> says m x -> signal_by m by_cl p p1 -> fate_of by_cl x = Ends sc ss ->
  (exists n p', psteps n p1 p' /\ at_rest p') /\
  forall n p', psteps n p1 p' -> n <= 212 /\ sound (p_cl p') /\ sound (p_sv p') /\
    (at_rest p' -> mon (p_cl p') = MRead /\ state (p_cl p') = sc /\ dial (p_cl p') = DOk /\ mon (p_sv p') = MRead /\ state (p_sv p') = ss /\ dial (p_sv p') = DOk).
Proof.
  intros gc gs oc os m x by_cl n0 p p1 sc ss Oc Os Fc Fs Hc Hs R0 Sy Sg Fa.
  pose proof (signal_fate gc gs oc os m x by_cl n0 p p1 Oc Os Fc Fs Hc Hs Sy R0 Sg) as H. rewrite Fa in H. split.
  - apply (runs_out 212); intros n p' R; apply (H n p' R).
  - intros n p' R. destruct (H n p' R) as (A & B & _ & L & E). repeat (split; [assumption|]). intros At. destruct (E At) as [(E1 & E2 & E3) (E4 & E5 & E6)]. auto 6.
Qed.
(** ... these block both endpoints for ever: the exchange ends with both monitors waiting for a second caller of Dial or Accept,
    no packet is read any more and no call but WriteSignal returns, neither one made before nor one made later ... *)
Theorem C79_hang : forall gc gs oc os m x by_cl n0 p p1,
  cfg_ok gc -> cfg_ok gs -> signals_fit gc -> signals_fit gs -> beats_enabled gc = false -> beats_enabled gs = false ->
  psteps n0 (pstart gc gs oc os) p -> says m x -> signal_by m by_cl p p1 -> fate_of by_cl x = BothHang ->
  (exists n p', psteps n p1 p' /\ at_rest p') /\
  forall n p', psteps n p1 p' -> n <= 212 /\ (at_rest p' -> forall c ls c', c = p_cl p' \/ c = p_sv p' -> run c ls = Some c' ->
    reads (log c') = reads (log c) /\ updates (log c') = updates (log c) /\
    forall op ls' c'' r, (forall m, op <> OpWriteSignal m) -> run c' (LCall op :: ls') = Some c'' -> nth_error (us c'') (length (us c')) <> Some (UDone r)).
Proof.
  intros gc gs oc os m x by_cl n0 p p1 Oc Os Fc Fs Hc Hs R0 Sy Sg Fa.
  pose proof (signal_fate gc gs oc os m x by_cl n0 p p1 Oc Os Fc Fs Hc Hs Sy R0 Sg) as H. rewrite Fa in H. split.
  - apply (runs_out 212); intros n p' R; apply (H n p' R).
  - intros n p' R. destruct (H n p' R) as ((_ & K1 & _) & (_ & K2 & _) & _ & L & E). split; [exact L|]. intros At c ls c' Wh Ru.
    assert (Mc : mon c = MEst /\ dial c = DOk /\ closed c = false).
    { destruct (E At) as [(E1 & _ & E3) (E4 & _ & E6)]. destruct Wh as [-> | ->]; auto. }
    destruct Mc as (M & D & K). assert (D' : dial c <> DWait) by congruence.
    destruct (C41_stuck c ls c' M D' K Ru) as (M1 & D1 & Cl1 & Rd & Up). split; [exact Rd|]. split; [exact Up|].
    intros op ls' c'' r No Ru2. cbn [run] in Ru2. destruct (step c' (LCall op)) as [c1|] eqn:S; [|discriminate].
    pose proof S as S'. unfold step in S'. destruct (crash c'); [discriminate|]. destruct (dial c') eqn:Dc'; try discriminate. apply some_inj in S'.
    eapply (C41_calls c1 ls' c'' (length (us c')) op); subst c1; cb; auto; try congruence. now rewrite nth_error_app2, Nat.sub_diag by lia.
Qed.
(** C80: ... and after these the exchange never ends: whatever has happened, some step is possible, and n steps involve at least
    (n - 69) / 13 packets delivered. *)
Theorem C80_endless : forall gc gs oc os m x by_cl n0 p p1,
  cfg_ok gc -> cfg_ok gs -> signals_fit gc -> signals_fit gs -> beats_enabled gc = false -> beats_enabled gs = false ->
  psteps n0 (pstart gc gs oc os) p -> says m x -> signal_by m by_cl p p1 -> fate_of by_cl x = Endless ->
  (forall n, exists p', psteps n p1 p') /\
  forall n p', psteps n p1 p' -> sound (p_cl p') /\ sound (p_sv p') /\ ~ at_rest p' /\ n <= 69 + 13 * (p_ab p' + p_ba p').
Proof.
  intros gc gs oc os m x by_cl n0 p p1 Oc Os Fc Fs Hc Hs R0 Sy Sg Fa.
  pose proof (signal_fate gc gs oc os m x by_cl n0 p p1 Oc Os Fc Fs Hc Hs Sy R0 Sg) as H. rewrite Fa in H. split.
  - apply runs_on. intros n p' R. apply (H n p' R).
  - intros n p' R. destruct (H n p' R) as (A & B & _ & [p'' S] & L). repeat (split; [assumption|]). split; [|exact L]. intros At. exact (At _ S).
Qed.
Print Assumptions C79_ends.
Print Assumptions C79_hang.
Print Assumptions C80_endless.

(** the table, and messages of each kind *)
Example C79_ex_table :
  map (fate_of true) [SUp; SUpAck; SDown; SDownAck; SActive; SActiveAck; SInactive; SInactiveAck; SErr; SNtfy; SOther] =
    [Ends Active Inactive; Ends Active Inactive; BothHang; Ends Active Down; Ends Active Active; Ends Active Active; BothHang; Ends Active Inactive;
     Ends Active Active; Ends Active Active; Ends Active Active] /\
  map (fate_of false) [SUp; SUpAck; SDown; SDownAck; SActive; SActiveAck; SInactive; SInactiveAck; SErr; SNtfy; SOther] =
    [Endless; Endless; BothHang; Endless; Ends Active Active; Ends Active Active; BothHang; Endless; Ends Active Active; Ends Active Active; Ends Active Active].
Proof. split; reflexivity. Qed.
Definition x_signals : list (m3ua * sig) :=
  [(Typed (NewAspUp None None), SUp); (Typed (NewAspUpAck None None), SUpAck); (Typed (NewAspDown None), SDown); (Typed (NewAspDownAck None), SDownAck);
   (Typed (NewAspActive None None None), SActive); (Typed (NewAspActiveAck None None None), SActiveAck); (Typed (NewAspInactive None None), SInactive);
   (Typed (NewAspInactiveAck None None), SInactiveAck); (Typed (NewError None None None None None), SErr); (Typed (NewNotify None None None None), SNtfy);
   (Typed (NewDestinationUnavailable None None None None), SOther)].
Example C79_ex_says : Forall (fun e => says (fst e) (snd e)) x_signals.
Proof. repeat constructor; (eexists; split; [vm_compute; reflexivity|eexists; split; [split; vm_compute; reflexivity|split; [reflexivity|apply Nat.leb_le; reflexivity]]]). Qed.
Example C79_ex_cfg : cfg_ok x_cfg /\ signals_fit x_cfg /\ beats_enabled x_cfg = false.
Proof. destruct C49_ex_cfg as (A & B & C). split; [exact A|]. split; [|exact C]. split; [exact B|]. split; apply Nat.leb_le; vm_compute; reflexivity. Qed.
(** each of these messages, sent by either side after a handshake *)
Example C79_ex : exists p, psteps (length handshake_moves) (pstart x_cfg x_cfg 3 3) p /\
  forall by_cl, Forall (fun e => exists p1, signal_by (fst e) by_cl p p1) x_signals.
Proof.
  destruct (pexec (pstart x_cfg x_cfg 3 3) handshake_moves) as [p|] eqn:E; [|vm_compute in E; discriminate].
  exists p. split.
  - apply (pexec_psteps handshake_moves 0 _ _ _ (PS_0 _)) in E; [exact E|].
    unfold handshake_moves. cbn [map app hand repeat boot_client boot_server]. repeat constructor.
  - vm_compute in E. injection E as <-. intros [|]; repeat constructor.
    all: eexists; [apply SB_client|| apply SB_server]; eexists; split; vm_compute; reflexivity.
Qed.
(** C80: a second ASP Up Ack sent by the server. After 200 further steps packets are still being exchanged. *)
Definition x_picks : list move :=
  flat_map (fun l => [MC l; MS l]) (LHb true :: LInit :: LMon true :: map (fun i => LHand i true) (seq 0 30)) ++ [MtoS; MtoC].
Fixpoint x_go (n : nat) (p : pair) : pair :=
  match n with
  | 0 => p
  | S n => match find (fun m => match pmove p m with Some _ => true | None => false end) x_picks with
           | Some m => match pmove p m with Some q => x_go n q | None => p end
           | None => p
           end
  end.
Example C80_ex : exists p p1 c1, pexec (pstart x_cfg x_cfg 3 3) handshake_moves = Some p /\
  run (p_sv p) [LCall (OpWriteSignal (Typed (NewAspUpAck None None))); LUser 0 true] = Some c1 /\
  p1 = mkPair (p_cl p) c1 (p_ab p) (p_ba p) /\ fate_of false SUpAck = Endless /\
  map (fun n => let q := x_go n p1 in (p_ab q + p_ba q) - (p_ab p + p_ba p)) [0; 50; 100; 150; 200] = [0; 6; 12; 17; 23].
Proof.
  eexists _, _, _. split; [vm_compute; reflexivity|]. split; [vm_compute; reflexivity|]. split; [reflexivity|]. split; [reflexivity|]. vm_compute. reflexivity.
Qed.
