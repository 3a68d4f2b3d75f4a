(** C82, C83, C84: an endpoint and whatever peer it has. *)
From Verif Require Import GoBase ParamsModel MessagesModel WireSpec ConfigModel ConnModel ConnSpec CfgSpec ConnBase ConnInv ConnTrace ConnUser ConnCodec ConnMore ConnExamples
  ConnPair ConnPieces ConnE2E DialogSpec ConnDialog ConnDuo PeerSpec ConnPeer PropsUser PropsFsm PropsClose PropsPair PropsE2E PropsDuo.
From Coq Require Import Arith Lia.
Open Scope nat_scope.
Opaque max_value_len.

(** C82: an endpoint with heartbeats disabled, whose user makes no calls, receives packets that are messages other than DATA, BEAT and
    BEAT ACK; [xs] tells their kinds. However its goroutines and the arrivals are interleaved, it makes at most 8 + 14 steps per packet,
    the kinds of the packets it sends are the beginning of one list that depends on xs only, and when it can do nothing more it has sent all of that
    list and is in the state that xs leads to. *)
Theorem C82_machine : forall mo g o ls xs c, cfg_ok g -> signals_fit g -> beats_enabled g = false ->
  run (start mo g o) ls = Some c -> Forall (fun l => benign l \/ exists raw, l = LArrive raw) ls -> Forall2 denotes (arrivals ls) xs ->
  sound c /\ length ls <= 8 + 14 * length xs /\ (exists ys zs, Forall2 denotes (packets (log c)) ys /\ speech mo xs = ys ++ zs) /\
  ((exists l c', benign l /\ step c l = Some c') \/
   (Forall2 denotes (packets (log c)) (speech mo xs) /\
    match outcome mo xs with
    | Rest s t => mon c = MRead /\ state c = s /\ dial c = (if t then DOk else DWait)
    | Hung => mon c = MEst /\ state c = Active /\ dial c = DOk
    end)).
Proof.
  intros mo g o ls xs c Ok Fi Ho R F D. destruct (endpoint_machine mo g o ls xs c Ok Fi Ho R F D) as (A & B & C & [E|[E1 E2]]); repeat (split; [assumption|]); [now left|].
  right. split; [exact E2|]. destruct (outcome mo xs); exact E1.
Qed.
(** Two schedules of the same packets end alike. *)
Theorem C82_confluent : forall mo g o ls ls' xs c c', cfg_ok g -> signals_fit g -> beats_enabled g = false ->
  run (start mo g o) ls = Some c -> Forall (fun l => benign l \/ exists raw, l = LArrive raw) ls -> Forall2 denotes (arrivals ls) xs ->
  run (start mo g o) ls' = Some c' -> Forall (fun l => benign l \/ exists raw, l = LArrive raw) ls' -> Forall2 denotes (arrivals ls') xs ->
  (forall l d, benign l -> step c l <> Some d) -> (forall l d, benign l -> step c' l <> Some d) ->
  mon c' = mon c /\ state c' = state c /\ dial c' = dial c /\ exists ys, Forall2 denotes (packets (log c)) ys /\ Forall2 denotes (packets (log c')) ys.
Proof.
  intros mo g o ls ls' xs c c' Ok Fi Ho R F D R' F' D' N N'.
  destruct (C82_machine mo g o ls xs c Ok Fi Ho R F D) as (_ & _ & _ & [(l & d & B & S)|[E1 E2]]); [destruct (N _ _ B S)|].
  destruct (C82_machine mo g o ls' xs c' Ok Fi Ho R' F' D') as (_ & _ & _ & [(l & d & B & S)|[E3 E4]]); [destruct (N' _ _ B S)|].
  destruct (outcome mo xs); destruct E2 as (A1 & A2 & A3), E4 as (B1 & B2 & B3); repeat split; try congruence; eauto.
Qed.
(** C83: Dial succeeds. A client meets a gateway that follows the ASP Up and ASP Active procedures of RFC 4666 ([sgp]) and besides sends any k
    messages NTFY, ERR, SSNM or RKM, whenever it likes. However the two are interleaved the client never panics or closes, Dial never fails, and
    after at most 128 + 161 k steps, which never run into a deadlock, client and gateway are both Active and Dial has returned. *)
Theorem C83_dial : forall g o n k m, cfg_ok g -> signals_fit g -> beats_enabled g = false -> msteps n k (mstart g o) m ->
  n <= 128 + 161 * k /\ sound (m_cl m) /\ (dial (m_cl m) = DWait \/ dial (m_cl m) = DOk) /\
  ((exists j m', mstep j m m') \/
   (mon (m_cl m) = MRead /\ state (m_cl m) = Active /\ dial (m_cl m) = DOk /\ m_sg m = Active /\ m_dn m = [] /\ m_got m = length (packets (log (m_cl m))))).
Proof. exact gateway_meets. Qed.
(** C84: Accept succeeds. A peer sends ASP Up and ASP Active, each as often as its timers expire: the server ends in Active and Accept returns. It
    answers only the first of each as RFC 4666 says; each repetition is answered by ERR. *)
Theorem C84_accept : forall g o ls i j c, cfg_ok g -> signals_fit g -> beats_enabled g = false ->
  run (start Server g o) ls = Some c -> Forall (fun l => benign l \/ exists raw, l = LArrive raw) ls ->
  Forall2 denotes (arrivals ls) (SUp :: repeat SUp i ++ SActive :: repeat SActive j) ->
  sound c /\ length ls <= 36 + 14 * (i + j) /\
  ((exists l c', benign l /\ step c l = Some c') \/
   (Forall2 denotes (packets (log c)) (SUpAck :: repeat SErr i ++ SActiveAck :: repeat SErr j) /\ mon c = MRead /\ state c = Active /\ dial c = DOk)).
Proof.
  intros g o ls i j c Ok Fi Ho R F D. destruct (C82_machine Server g o ls _ c Ok Fi Ho R F D) as (A & B & _ & E). split; [exact A|]. split.
  { cbn [length] in B. rewrite app_length in B. cbn [length] in B. rewrite !repeat_length in B. lia. }
  assert (U : forall i xs, utter Server (Rest Inactive false) (repeat SUp i ++ xs) =
                (repeat SErr i ++ fst (utter Server (Rest Inactive false) xs), snd (utter Server (Rest Inactive false) xs))).
  { clear. induction i as [|i IH]; intros xs; cbn [repeat app].
    - now destruct (utter Server (Rest Inactive false) xs).
    - cbn [utter]. change (hears Server Inactive false SUp) with ([SErr], Rest Inactive false). cbn [fst snd]. rewrite IH. reflexivity. }
  assert (V : forall j, utter Server (Rest Active true) (repeat SActive j) = (repeat SErr j, Rest Active true)).
  { clear. induction j as [|j IH]; cbn [repeat utter]; [reflexivity|]. change (hears Server Active true SActive) with ([SErr], Rest Active true). cbn. now rewrite IH. }
  destruct E as [E|E]; [now left|]. right. unfold speech, outcome in E. cbn [utter] in E. change (hears Server Down false SUp) with ([SUpAck], Rest Inactive false) in E. cbn [fst snd] in E.
  rewrite U in E. cbn [utter] in E. change (hears Server Inactive false SActive) with ([SActiveAck], Rest Active true) in E. cbn [fst snd] in E. rewrite V in E. cbn in E. exact E.
Qed.
Print Assumptions C82_machine.
Print Assumptions C82_confluent.
Print Assumptions C83_dial.
Print Assumptions C84_accept.

(** ** Executions *)
(** a schedule that lets an endpoint do all it can *)
Fixpoint drain (f : nat) (c : conn) : list label :=
  match f with
  | 0 => []
  | S f =>
      let try := fix try (ls : list label) := match ls with [] => None | l :: ls => match step c l with Some c' => Some (l, c') | None => try ls end end in
      match try ([LInit; LHb true; LMon true] ++ map (fun i => LHand i true) (seq 0 (length (hs c)))) with
      | Some (l, c') => l :: drain f c'
      | None => []
      end
  end.
Definition b_ntfy : list byte := bytes_of (Typed (NewNotify None None None None)).
Definition s1 : conn := Eval vm_compute in after (start Client x_cfg 3) (drain 99 (start Client x_cfg 3)).
Definition rest (c : conn) (raw : list byte) : list label := LArrive raw :: drain 99 (after c [LArrive raw]).
Definition s2 : conn := Eval vm_compute in after s1 (rest s1 b_up_ack).
Definition s3 : conn := Eval vm_compute in after s2 (rest s2 b_ntfy).
Definition s4 : conn := Eval vm_compute in after s3 (rest s3 b_act_ack).
Definition s5 : conn := Eval vm_compute in after s4 (rest s4 b_act_ack).
Lemma run_msteps ls : forall n k m0 c s r d c', msteps n k m0 (mkMeet c s r d) -> run c ls = Some c' -> Forall benign ls -> msteps (length ls + n) k m0 (mkMeet c' s r d).
Proof.
  induction ls as [|l ls IH]; intros n k m0 c s r d c' M R F; cbn [run] in R; [now injection R as <-|].
  destruct (step c l) as [c1|] eqn:S; [|discriminate]. inversion F as [|? ? B F']; subst. cbn [length]. rewrite Nat.add_succ_comm.
  eapply IH; try exact R; auto. rewrite <- (Nat.add_0_r k). eapply MS_S; [exact M|]. eapply M_client; eauto.
Qed.
Lemma drain_benign f c : Forall benign (drain f c).
Proof.
  revert c. induction f as [|f IH]; intros c; cbn [drain]; [constructor|]. set (cand := [LInit; LHb true; LMon true] ++ _).
  assert (B : Forall benign cand).
  { apply Forall_app. split; [repeat constructor|]. apply Forall_forall. intros l I. apply in_map_iff in I as (i & <- & _). exact Logic.I. }
  induction B as [|l ls Bl B IHB]; [constructor|]. cbn iota. destruct (step c l); [constructor; auto|exact IHB].
Qed.
Ltac saying := eexists; split; [vm_compute; split; reflexivity|split; [reflexivity|apply Nat.leb_le; vm_compute; reflexivity]].
Lemma d_up : denotes b_up SUp. Proof. saying. Qed.
Lemma d_up_ack : denotes b_up_ack SUpAck. Proof. saying. Qed.
Lemma d_act : denotes b_act SActive. Proof. saying. Qed.
Lemma d_act_ack : denotes b_act_ack SActiveAck. Proof. saying. Qed.
Lemma d_ntfy : denotes b_ntfy SNtfy. Proof. saying. Qed.
Lemma msteps_eq n n' k k' m m' : msteps n k m m' -> n = n' -> k = k' -> msteps n' k' m m'.
Proof. intros M -> ->. exact M. Qed.
(** the gateway notifies the client of the state of the AS between the two acknowledgements; the client sends a second ASP Active, and
    answers the second acknowledgement by ERR *)
Example C83_ex : exists n m, msteps n 1 (mstart x_cfg 3) m /\ state (m_cl m) = Active /\ dial (m_cl m) = DOk /\ m_sg m = Active /\ m_dn m = [] /\
  m_got m = 3 /\ map (fun e => match e with ESend _ _ m _ => sym m | _ => None end) (filter (fun e => match e with ESend _ _ _ _ => true | _ => false end) (log (m_cl m))) =
    [Some SUp; Some SActive; Some SActive; Some SErr].
Proof.
  eexists. exists (mkMeet s5 Active 3 []). split; [|repeat split; reflexivity].
  assert (A1 : msteps (length (drain 99 (start Client x_cfg 3)) + 0) 0 (mstart x_cfg 3) (mkMeet s1 Down 0 [])).
  { eapply run_msteps; [apply MS_0|vm_compute; reflexivity|apply drain_benign]. }
  assert (A2 := MS_S _ _ _ _ _ _ A1 (M_gateway s1 Down 0 [] b_up SUp ([] ++ SUpAck :: [SNtfy]) Inactive [b_up_ack; b_ntfy] eq_refl d_up
                  (G_up Down [] [SNtfy] (or_introl eq_refl) (Forall_nil _) (Forall_cons SNtfy Logic.I (Forall_nil _)))
                  (Forall2_cons _ _ d_up_ack (Forall2_cons _ _ d_ntfy (Forall2_nil _))))).
  cbn [app] in A2. assert (A3 := MS_S _ _ _ _ _ _ A2 (M_arrive s1 Inactive 1 b_up_ack [b_ntfy] _ eq_refl)).
  assert (A4 := run_msteps (drain 99 (after s1 [LArrive b_up_ack])) _ _ _ _ _ _ _ s2 A3 ltac:(vm_compute; reflexivity) (drain_benign _ _)).
  assert (A5 := MS_S _ _ _ _ _ _ A4 (M_arrive s2 Inactive 1 b_ntfy [] _ eq_refl)).
  assert (A6 := run_msteps (drain 99 (after s2 [LArrive b_ntfy])) _ _ _ _ _ _ _ s3 A5 ltac:(vm_compute; reflexivity) (drain_benign _ _)).
  assert (A7 := MS_S _ _ _ _ _ _ A6 (M_gateway s3 Inactive 1 [] b_act SActive ([] ++ SActiveAck :: []) Active [b_act_ack] eq_refl d_act
                  (G_active Inactive [] [] (or_introl eq_refl) (Forall_nil _) (Forall_nil _)) (Forall2_cons _ _ d_act_ack (Forall2_nil _)))).
  assert (A8 := MS_S _ _ _ _ _ _ A7 (M_gateway s3 Active 2 [b_act_ack] b_act SActive ([] ++ SActiveAck :: []) Active [b_act_ack] eq_refl d_act
                  (G_active Active [] [] (or_intror eq_refl) (Forall_nil _) (Forall_nil _)) (Forall2_cons _ _ d_act_ack (Forall2_nil _)))).
  cbn [app] in A8. assert (A9 := MS_S _ _ _ _ _ _ A8 (M_arrive s3 Active 3 b_act_ack [b_act_ack] _ eq_refl)).
  assert (B1 := run_msteps (drain 99 (after s3 [LArrive b_act_ack])) _ _ _ _ _ _ _ s4 A9 ltac:(vm_compute; reflexivity) (drain_benign _ _)).
  assert (B2 := MS_S _ _ _ _ _ _ B1 (M_arrive s4 Active 3 b_act_ack [] _ eq_refl)).
  assert (B3 := run_msteps (drain 99 (after s4 [LArrive b_act_ack])) _ _ _ _ _ _ _ s5 B2 ltac:(vm_compute; reflexivity) (drain_benign _ _)).
  eapply msteps_eq; [exact B3|reflexivity|reflexivity].
Qed.
(** the same packets, all of them before the client does anything; they suffice for the hypotheses of C82 *)
Definition early : list label := map LArrive [b_up_ack; b_ntfy; b_act_ack; b_act_ack].
Definition ls_early : list label := Eval vm_compute in early ++ drain 99 (after (start Client x_cfg 3) early).
Definition ls_late : list label := Eval vm_compute in drain 99 (start Client x_cfg 3) ++ rest s1 b_up_ack ++ rest s2 b_ntfy ++ rest s3 b_act_ack ++ rest s4 b_act_ack.
Example C82_ex : run (start Client x_cfg 3) ls_late = Some s5 /\ (exists c, run (start Client x_cfg 3) ls_early = Some c) /\
  Forall (fun l => benign l \/ exists raw, l = LArrive raw) ls_late /\ Forall (fun l => benign l \/ exists raw, l = LArrive raw) ls_early /\
  Forall2 denotes (arrivals ls_late) [SUpAck; SNtfy; SActiveAck; SActiveAck] /\ Forall2 denotes (arrivals ls_early) [SUpAck; SNtfy; SActiveAck; SActiveAck] /\
  speech Client [SUpAck; SNtfy; SActiveAck; SActiveAck] = [SUp; SActive; SActive; SErr] /\ outcome Client [SUpAck; SNtfy; SActiveAck; SActiveAck] = Rest Active true /\
  outcome Server [SUp; SActive; SInactive; SActive] = Hung.
Proof.
  assert (P : forall l, (match l with LArrive _ => True | _ => benign l end) -> benign l \/ exists raw, l = LArrive raw) by (intros l H; destruct l; eauto).
  assert (D : Forall2 denotes [b_up_ack; b_ntfy; b_act_ack; b_act_ack] [SUpAck; SNtfy; SActiveAck; SActiveAck]).
  { repeat (apply Forall2_cons; [apply d_up_ack || apply d_ntfy || apply d_act_ack|]). apply Forall2_nil. }
  split; [vm_compute; reflexivity|]. split; [eexists; vm_compute; reflexivity|].
  split; [eapply Forall_impl; [exact P|]; repeat (apply Forall_cons; [exact Logic.I|]); apply Forall_nil|].
  split; [eapply Forall_impl; [exact P|]; repeat (apply Forall_cons; [exact Logic.I|]); apply Forall_nil|].
  split; [exact D|]. split; [exact D|]. repeat split; reflexivity.
Qed.
(** an ASP that repeats both of its requests *)
Definition asp_early : list label := map LArrive [b_up; b_up; b_act; b_act].
Definition ls_asp : list label := Eval vm_compute in asp_early ++ drain 99 (after (start Server x_cfg 3) asp_early).
Example C84_ex : exists c, run (start Server x_cfg 3) ls_asp = Some c /\ Forall (fun l => benign l \/ exists raw, l = LArrive raw) ls_asp /\
  Forall2 denotes (arrivals ls_asp) (SUp :: repeat SUp 1 ++ SActive :: repeat SActive 1) /\ state c = Active /\ dial c = DOk /\ length (packets (log c)) = 4.
Proof.
  assert (P : forall l, (match l with LArrive _ => True | _ => benign l end) -> benign l \/ exists raw, l = LArrive raw) by (intros l H; destruct l; eauto).
  eexists. split; [vm_compute; reflexivity|]. split; [eapply Forall_impl; [exact P|]; repeat (apply Forall_cons; [exact Logic.I|]); apply Forall_nil|].
  split; [|repeat split; reflexivity]. cbn [repeat app].
  assert (E : arrivals ls_asp = [b_up; b_up; b_act; b_act]) by (vm_compute; reflexivity). rewrite E.
  repeat (apply Forall2_cons; [apply d_up || apply d_act|]). apply Forall2_nil.
Qed.
