(** C111, C112: two clients, or two servers, connected to each other. *)
From Verif Require Import GoBase ParamsModel MessagesModel WireSpec ParamsSpec MsgSpec ConfigModel ConnModel ConnSpec ConnBase ConnInv ConnTrace CfgSpec ConnUser ConnCodec
  ConnMore ConnExamples ConnPair DialogSpec ConnDialog ConnDuo ConnRole PropsUser PropsFsm PropsClose PropsPair PropsDuo.
From Coq Require Import Arith Lia.
Open Scope nat_scope.
Opaque max_value_len.

(** C111: both sides of an association call Dial, heartbeats disabled. In every interleaving the exchange ends, after at most 224 steps,
    and then both calls of Dial have returned the connection and both endpoints are Active and wait for packets; on the way neither panics,
    closes the connection or blocks, and each has sent exactly the messages of [said_by_client_to_client] (DialogSpec), in this order. *)
Theorem C111_dial : forall ga gb oa ob,
  cfg_ok ga -> cfg_ok gb -> signals_fit ga -> signals_fit gb -> beats_enabled ga = false -> beats_enabled gb = false ->
  (exists n p, psteps n (pstart2 Client Client ga gb oa ob) p /\ at_rest p) /\
  forall n p, psteps n (pstart2 Client Client ga gb oa ob) p -> n <= 224 /\ sound (p_cl p) /\ sound (p_sv p) /\
    (at_rest p -> mon (p_cl p) = MRead /\ state (p_cl p) = Active /\ dial (p_cl p) = DOk /\ mon (p_sv p) = MRead /\ state (p_sv p) = Active /\ dial (p_sv p) = DOk /\
      Forall2 denotes (packets (log (p_cl p))) said_by_client_to_client /\ Forall2 denotes (packets (log (p_sv p))) said_by_client_to_client).
Proof.
  intros ga gb oa ob Oa Ob Fa Fb Ha Hb. split.
  - apply (runs_out 224); intros n p R; apply (clients_meet ga gb oa ob n p Oa Ob Fa Fb Ha Hb R).
  - intros n p R. destruct (clients_meet ga gb oa ob n p Oa Ob Fa Fb Ha Hb R) as (L & A & B & _ & E). repeat (split; [assumption|]).
    intros At. destruct (E At) as ((E1 & E2 & E3) & (E4 & E5 & E6) & E7 & E8). auto 9.
Qed.
(** ... a client and a server send four messages altogether, whatever the interleaving ... *)
Theorem C111_mixed : forall ga gb oa ob n p,
  cfg_ok ga -> cfg_ok gb -> signals_fit ga -> signals_fit gb -> beats_enabled ga = false -> beats_enabled gb = false ->
  psteps n (pstart ga gb oa ob) p -> at_rest p ->
  Forall2 denotes (packets (log (p_cl p))) [SUp; SActive] /\ Forall2 denotes (packets (log (p_sv p))) [SUpAck; SActiveAck].
Proof.
  intros ga gb oa ob n p Oa Ob Fa Fb Ha Hb R At. destruct (meet Client Server 4 ga gb oa ob _ _ n p mixed_end Oa Ob Fa Fb Ha Hb R) as (_ & _ & _ & _ & E).
  apply (E At).
Qed.
(** ... and if both sides call Accept, nothing is ever sent: with whatever configurations both stay Down, and neither call returns
    before its context is cancelled or its deadline passes. *)
Theorem C111_accept : forall ga gb oa ob,
  (exists n p, psteps n (pstart2 Server Server ga gb oa ob) p /\ at_rest p) /\
  forall n p, psteps n (pstart2 Server Server ga gb oa ob) p -> n <= 10 /\ forall c, c = p_cl p \/ c = p_sv p ->
    sound c /\ state c = Down /\ dial c = DWait /\ packets (log c) = [].
Proof.
  intros ga gb oa ob. split.
  - exists 6, (mkPair (srv ga oa 2 BWait) (srv gb ob 2 BWait) 0 0). split.
    + apply (pexec_psteps [MC (LHb true); MC LInit; MC (LMon true); MS (LHb true); MS LInit; MS (LMon true)] 0 _ _ _ (PS_0 _)); [repeat constructor|reflexivity].
    + intros p' S.
      inversion S as [? ? ? ? l a' B St|? ? ? ? l b' B St|? ? ? ? raw b' N St|? ? ? ? raw a' N St]; subst; clear S; [| |discriminate N|discriminate N].
      * destruct (srv_step _ _ 2 BWait _ _ (or_intror eq_refl) (le_n 2) B St) as (k & h & K & E & _ & W). destruct E as [-> | ->]; cbn [hw] in W; lia.
      * destruct (srv_step _ _ 2 BWait _ _ (or_intror eq_refl) (le_n 2) B St) as (k & h & K & E & _ & W). destruct E as [-> | ->]; cbn [hw] in W; lia.
  - intros n p R. destruct (servers_wait ga gb oa ob n p R) as (ka & ha & kb & hb & -> & La & Lb & _ & _ & L). split; [lia|].
    cbn [p_cl p_sv]. intros c Wh.
    assert (H : forall g o k h, sound (srv g o k h) /\ state (srv g o k h) = Down /\ dial (srv g o k h) = DWait /\ packets (log (srv g o k h)) = []).
    { intros g o [|[|k]] h; repeat split. }
    destruct Wh as [-> | ->]; apply H.
Qed.
Print Assumptions C111_dial.
Print Assumptions C111_mixed.
Print Assumptions C111_accept.

(** C112: two clients whose exchange has ended; then the user of one of them calls WriteSignal once. [fate2_of] (DialogSpec) tells from the
    type of the message what comes of it. After these the exchange ends with both endpoints waiting for packets ... *)
Theorem C112_ends : forall ga gb oa ob m x by_1 n0 p p1 s,
  cfg_ok ga -> cfg_ok gb -> signals_fit ga -> signals_fit gb -> beats_enabled ga = false -> beats_enabled gb = false ->
  psteps n0 (pstart2 Client Client ga gb oa ob) p -> at_rest p -> says m x -> signal_by m by_1 p p1 -> fate2_of x = Both s ->
  (exists n p', psteps n p1 p' /\ at_rest p') /\
  forall n p', psteps n p1 p' -> n <= 368 /\ sound (p_cl p') /\ sound (p_sv p') /\
    (at_rest p' -> mon (p_cl p') = MRead /\ state (p_cl p') = s /\ mon (p_sv p') = MRead /\ state (p_sv p') = s).
Proof.
  intros ga gb oa ob m x by_1 n0 p p1 s Oa Ob Fa Fb Ha Hb R0 At0 Sy Sg Fx.
  pose proof (clients_signal ga gb oa ob m x by_1 n0 p p1 Oa Ob Fa Fb Ha Hb Sy R0 At0 Sg) as H. rewrite Fx in H. split.
  - apply (runs_out 368); intros n p' R; apply (H n p' R).
  - intros n p' R. destruct (H n p' R) as (A & B & _ & L & E). repeat (split; [assumption|]). intros At.
    destruct (E At) as [(E1 & E2 & _) (E3 & E4 & _)]. destruct by_1; auto.
Qed.
(** ... these block endpoints for ever ([blocked_now]: the monitor waits for a second caller of Dial, which Dial never is): both of them,
    or the one that receives the signal while the other one waits for packets ... *)
Definition blocked_now (c : conn) : Prop := forall ls c', run c ls = Some c' ->
  reads (log c') = reads (log c) /\ updates (log c') = updates (log c) /\
  forall op ls' c'' r, (forall m, op <> OpWriteSignal m) -> run c' (LCall op :: ls') = Some c'' -> nth_error (us c'') (length (us c')) <> Some (UDone r).
Lemma hung_blocked c : closed c = false -> resting c Hung -> blocked_now c.
Proof.
  intros K (M & _ & D) ls c' Ru. assert (D' : dial c <> DWait) by congruence.
  destruct (C41_stuck c ls c' M D' K Ru) as (M1 & D1 & Cl1 & Rd & Up). split; [exact Rd|]. split; [exact Up|].
  intros op ls' c'' r No Ru2. cbn [run] in Ru2. destruct (step c' (LCall op)) as [c1|] eqn:S; [|discriminate].
  pose proof S as S'. unfold step in S'. destruct (crash c'); [discriminate|]. destruct (dial c') eqn:Dc'; try discriminate. apply some_inj in S'.
  eapply (C41_calls c1 ls' c'' (length (us c')) op); subst c1; cb; auto; try congruence. now rewrite nth_error_app2, Nat.sub_diag by lia.
Qed.
Theorem C112_hang : forall ga gb oa ob m x by_1 n0 p p1,
  cfg_ok ga -> cfg_ok gb -> signals_fit ga -> signals_fit gb -> beats_enabled ga = false -> beats_enabled gb = false ->
  psteps n0 (pstart2 Client Client ga gb oa ob) p -> at_rest p -> says m x -> signal_by m by_1 p p1 ->
  fate2_of x = AllHang \/ fate2_of x = PeerHangs Inactive ->
  (exists n p', psteps n p1 p' /\ at_rest p') /\
  forall n p', psteps n p1 p' -> n <= 368 /\ sound (p_cl p') /\ sound (p_sv p') /\ (at_rest p' -> blocked_now (hearer by_1 p') /\
    match fate2_of x with AllHang => blocked_now (sender by_1 p') | _ => mon (sender by_1 p') = MRead /\ state (sender by_1 p') = Inactive end).
Proof.
  intros ga gb oa ob m x by_1 n0 p p1 Oa Ob Fa Fb Ha Hb R0 At0 Sy Sg Fx.
  pose proof (clients_signal ga gb oa ob m x by_1 n0 p p1 Oa Ob Fa Fb Ha Hb Sy R0 At0 Sg) as H.
  destruct Fx as [Fx|Fx]; rewrite Fx in *; (split; [apply (runs_out 368); intros n p' R; apply (H n p' R)|]);
    intros n p' R; destruct (H n p' R) as (A & B & _ & L & E); (repeat (split; [assumption|])); intros At; destruct (E At) as [E1 E2].
  - pose proof A as (_ & K1 & _). pose proof B as (_ & K2 & _). split; apply hung_blocked; auto; destruct by_1; auto.
  - pose proof A as (_ & K1 & _). pose proof B as (_ & K2 & _). split; [apply hung_blocked; auto; destruct by_1; auto|]. destruct E1 as (M & S & _). auto.
Qed.
(** ... and after these the exchange never ends. *)
Theorem C112_endless : forall ga gb oa ob m x by_1 n0 p p1,
  cfg_ok ga -> cfg_ok gb -> signals_fit ga -> signals_fit gb -> beats_enabled ga = false -> beats_enabled gb = false ->
  psteps n0 (pstart2 Client Client ga gb oa ob) p -> at_rest p -> says m x -> signal_by m by_1 p p1 -> fate2_of x = Forever ->
  (forall n, exists p', psteps n p1 p') /\
  forall n p', psteps n p1 p' -> sound (p_cl p') /\ sound (p_sv p') /\ ~ at_rest p' /\ n <= 225 + 13 * (p_ab p' + p_ba p').
Proof.
  intros ga gb oa ob m x by_1 n0 p p1 Oa Ob Fa Fb Ha Hb R0 At0 Sy Sg Fx.
  pose proof (clients_signal ga gb oa ob m x by_1 n0 p p1 Oa Ob Fa Fb Ha Hb Sy R0 At0 Sg) as H. rewrite Fx in H. split.
  - apply runs_on. intros n p' R. apply (H n p' R).
  - intros n p' R. destruct (H n p' R) as (A & B & _ & [p'' S] & L). repeat (split; [assumption|]). split; [|exact L]. intros At. exact (At _ S).
Qed.
Print Assumptions C112_ends.
Print Assumptions C112_hang.
Print Assumptions C112_endless.

(** a complete exchange of two clients: the first possible move of a list is made, again and again *)
Definition x_choices : list move :=
  flat_map (fun l => [MC l; MS l]) ([LHb true; LInit; LMon true] ++ map (fun i => LHand i true) (seq 0 9)) ++ [MtoS; MtoC].
Fixpoint x_drive (n : nat) (p : pair) : list move :=
  match n with
  | 0 => []
  | S n => match find (fun m => match pmove p m with Some _ => true | None => false end) x_choices with
           | Some m => m :: match pmove p m with Some q => x_drive n q | None => [] end
           | None => []
           end
  end.
Definition x_meeting : list move := Eval vm_compute in x_drive 224 (pstart2 Client Client x_cfg x_cfg 3 3).
Definition kinds (c : conn) : list (option kind) :=
  flat_map (fun e => match e with ESend _ _ m _ => [match m with Typed t => Some (m_kind t) | Gen _ => None end] | _ => [] end) (log c).
Example C111_ex : exists p, psteps (length x_meeting) (pstart2 Client Client x_cfg x_cfg 3 3) p /\
  state (p_cl p) = Active /\ dial (p_cl p) = DOk /\ state (p_sv p) = Active /\ dial (p_sv p) = DOk /\
  length x_meeting = 150 /\ kinds (p_cl p) = kinds (p_sv p) /\
  kinds (p_cl p) = map Some [KAspUp; KAspUpAck; KAspActive; KError; KAspActive; KAspActiveAck; KError; KError].
Proof.
  destruct (pexec (pstart2 Client Client x_cfg x_cfg 3 3) x_meeting) as [p|] eqn:E; [|vm_compute in E; discriminate]. exists p. split.
  - apply (pexec_psteps x_meeting 0 _ _ _ (PS_0 _)) in E; [exact E|]. unfold x_meeting. repeat constructor.
  - vm_compute in E. injection E as <-. repeat split; vm_compute; reflexivity.
Qed.
(** two servers: the six steps they make, and then nothing *)
Example C111_ex_accept : exists p, psteps 6 (pstart2 Server Server x_cfg x_cfg_hb 3 3) p /\
  log (p_cl p) = [EUpd Down] /\ log (p_sv p) = [EUpd Down] /\ dial (p_cl p) = DWait /\ dial (p_sv p) = DWait.
Proof.
  eexists. split.
  - apply (pexec_psteps [MC (LHb true); MC LInit; MC (LMon true); MS (LHb true); MS LInit; MS (LMon true)] 0 _ _ _ (PS_0 _)); [repeat constructor|vm_compute; reflexivity].
  - repeat split.
Qed.
(** the fates, and after an exchange has ended each client can send each of the messages *)
Example C112_ex_table : map fate2_of [SUp; SUpAck; SDown; SDownAck; SActive; SActiveAck; SInactive; SInactiveAck; SErr; SNtfy; SOther] =
  [Forever; Forever; AllHang; PeerHangs Inactive; Both Active; Both Active; AllHang; Forever; Both Active; Both Active; Both Active].
Proof. reflexivity. Qed.
Lemma can_signal c m b : sound c -> dial c = DOk -> wire m = Ok b -> exists c', signalled c c' m.
Proof.
  intros (Cr & K & X & So) Dl W. eexists. unfold signalled. eexists. split.
  - unfold step. rewrite Cr, Dl. reflexivity.
  - unfold step, step_user. change (crash (set_us (us c ++ [UGo (OpWriteSignal m)]) c)) with (crash c). rewrite Cr.
    change (us (set_us (us c ++ [UGo (OpWriteSignal m)]) c)) with (us c ++ [UGo (OpWriteSignal m)]). rewrite nth_last. cbv beta iota.
    rewrite (signal_wire _ _ _ _ W) by exact So. reflexivity.
Qed.
Example C112_ex : exists n p, psteps n (pstart2 Client Client x_cfg x_cfg 3 3) p /\ at_rest p /\
  forall by_1, Forall (fun e => exists p1, signal_by (fst e) by_1 p p1) x_signals.
Proof.
  destruct C79_ex_cfg as (Oc & Fc & Hc). destruct (C111_dial x_cfg x_cfg 3 3 Oc Oc Fc Fc Hc Hc) as [(n & p & R & At) H].
  exists n, p. split; [exact R|]. split; [exact At|]. destruct (H n p R) as (_ & Sa & Sb & E). destruct (E At) as (_ & _ & Da & _ & _ & Db & _).
  intros by_1. eapply Forall_impl; [|exact C79_ex_says]. intros [m x] (b & W & _). cbn [fst snd] in *. destruct p as [a c u v]. cbn [p_cl p_sv] in *.
  destruct by_1.
  - destruct (can_signal a m b Sa Da W) as [a' S]. eexists. apply SB_client. exact S.
  - destruct (can_signal c m b Sb Db W) as [c' S]. eexists. apply SB_server. exact S.
Qed.
