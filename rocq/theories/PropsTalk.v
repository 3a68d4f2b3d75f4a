(** C81: established endpoints carry user data. *)
From Verif Require Import GoBase ParamsModel MessagesModel WireSpec ConfigModel ConnModel ConnSpec CfgSpec ConnBase ConnInv ConnTrace ConnUser ConnCodec ConnMore ConnExamples
  ConnPair ConnE2E ConnDialog ConnDuo TalkSpec ConnTalk PropsUser PropsFsm PropsClose PropsPair PropsE2E.
From Coq Require Import Arith Lia Permutation.
Open Scope nat_scope.
Opaque max_value_len.

(** C81: a client and a server of the library, heartbeats disabled, connected to each other, whose handshake is over ([at_rest]). From then on
    the two users make any calls of Read, ReadPD, Write, WriteToStream and State, with any payloads that fit ([sane]), in any number and
    at any time; goroutines run in any order and packets overtake each other. Then
    - at most 13 steps are made per call;
    - neither endpoint panics, closes, or leaves the state Active, and no packet is refused;
    - as long as a step is possible nothing is stuck, and when none is
      every Write has returned without an error, every State has returned Active, every Read has returned data or found none,
      and what the users of one side wrote has been handed to the Reads of the other, or is queued for them: each payload once, under the
      point codes, service, priority and link selection of the writer's configuration. (Only 65535 payloads nobody reads stop this.) *)
Theorem C81_carries : forall gc gs oc os n0 p n ka kb t,
  cfg_ok gc -> cfg_ok gs -> handshake_fits gc -> handshake_fits gs -> beats_enabled gc = false -> beats_enabled gs = false ->
  psteps n0 (pstart gc gs oc os) p -> at_rest p -> talks n ka kb (mkTalk (p_cl p) (p_sv p) [] []) t ->
  n <= 13 * (length ka + length kb) /\ sound (t_cl t) /\ sound (t_sv t) /\ state (t_cl t) = Active /\ state (t_sv t) = Active /\
  (forall e, In e (log (t_cl t) ++ log (t_sv t)) -> match e with ERefused _ _ | EClosed => False | _ => True end) /\
  ((exists t', tstep t t') \/
   (Forall2 (answered (t_cl t)) ka (us (t_cl t)) /\ Forall2 (answered (t_sv t)) kb (us (t_sv t)) /\
    ((65535 <= N.of_nat (length (dq (t_sv t))))%N \/ Permutation (delivered (log (t_sv t)) ++ dq (t_sv t)) (map (pd_of gc) (written ka))) /\
    ((65535 <= N.of_nat (length (dq (t_cl t))))%N \/ Permutation (delivered (log (t_cl t)) ++ dq (t_cl t)) (map (pd_of gs) (written kb))))).
Proof. exact talk_fine. Qed.
(** The end is always reached: whatever has happened so far, the calls made so far are settled after finitely many steps, with no
    further call. *)
Theorem C81_settles : forall gc gs oc os n0 p n ka kb t,
  cfg_ok gc -> cfg_ok gs -> handshake_fits gc -> handshake_fits gs -> beats_enabled gc = false -> beats_enabled gs = false ->
  psteps n0 (pstart gc gs oc os) p -> at_rest p -> talks n ka kb (mkTalk (p_cl p) (p_sv p) [] []) t ->
  exists m t', n + m <= 13 * (length ka + length kb) /\ tsteps m t t' /\
    Forall2 (answered (t_cl t')) ka (us (t_cl t')) /\ Forall2 (answered (t_sv t')) kb (us (t_sv t')) /\
    ((65535 <= N.of_nat (length (dq (t_sv t'))))%N \/ Permutation (delivered (log (t_sv t')) ++ dq (t_sv t')) (map (pd_of gc) (written ka))) /\
    ((65535 <= N.of_nat (length (dq (t_cl t'))))%N \/ Permutation (delivered (log (t_cl t')) ++ dq (t_cl t')) (map (pd_of gs) (written kb))).
Proof. exact talk_settles. Qed.
Print Assumptions C81_carries.
Print Assumptions C81_settles.

(** ** An execution *)
Definition x_up : pair := Eval vm_compute in match pexec (pstart x_cfg x_cfg 3 3) handshake_moves with Some p => p | None => pstart x_cfg x_cfg 3 3 end.
Example C81_ex_up : psteps (length handshake_moves) (pstart x_cfg x_cfg 3 3) x_up /\ at_rest x_up.
Proof.
  split.
  - assert (E : pexec (pstart x_cfg x_cfg 3 3) handshake_moves = Some x_up) by (vm_compute; reflexivity).
    apply (pexec_psteps handshake_moves 0 _ _ _ (PS_0 _)) in E; [exact E|].
    unfold handshake_moves. cbn [map app hand repeat boot_client boot_server]. repeat constructor.
  - intros p' S. unfold x_up in S. inversion S as [a b x y l a' B St|a b x y l a' B St|a b x y raw b' N St|a b x y raw b' N St]; subst.
    3,4: vm_compute in N; discriminate.
    all: destruct l; cbn [benign] in B; try contradiction; try (vm_compute in St; discriminate).
    all: try (destruct ok; cbn [benign] in B; try contradiction; vm_compute in St; discriminate).
    all: destruct i as [|[|[|i]]]; try destruct ok; cbn [benign] in B; try contradiction; vm_compute in St; discriminate.
Qed.
Inductive tmove := TC (l : label) | TS (l : label) | TcallC (op : uop) | TcallS (op : uop) | TtoS (k : nat) | TtoC (k : nat).
Definition pick (k : nat) (l : list (list byte)) : option (list (list byte) * list byte * list (list byte)) :=
  match nth_error l k with Some x => Some (firstn k l, x, skipn (S k) l) | None => None end.
Definition tdo (t : talk) (m : tmove) : option talk :=
  let '(mkTalk a b u d) := t in
  match m with
  | TC l => match step a l with Some a' => Some (mkTalk a' b (u ++ skipn (length (packets (log a))) (packets (log a'))) d) | None => None end
  | TS l => match step b l with Some b' => Some (mkTalk a b' u (d ++ skipn (length (packets (log b))) (packets (log b')))) | None => None end
  | TcallC op => match step a (LCall op) with Some a' => Some (mkTalk a' b u d) | None => None end
  | TcallS op => match step b (LCall op) with Some b' => Some (mkTalk a b' u d) | None => None end
  | TtoS k => match pick k u with Some (u1, raw, u2) => match step b (LArrive raw) with Some b' => Some (mkTalk a b' (u1 ++ u2) d) | None => None end | None => None end
  | TtoC k => match pick k d with Some (d1, raw, d2) => match step a (LArrive raw) with Some a' => Some (mkTalk a' b u (d1 ++ d2)) | None => None end | None => None end
  end.
Fixpoint tdos (t : talk) (ms : list tmove) : option talk := match ms with [] => Some t | m :: ms => match tdo t m with Some t' => tdos t' ms | None => None end end.
Definition is_step (m : tmove) : bool := match m with TcallC _ | TcallS _ => false | _ => true end.
Definition cl_calls (ms : list tmove) := flat_map (fun m => match m with TcallC op => [op] | _ => [] end) ms.
Definition sv_calls (ms : list tmove) := flat_map (fun m => match m with TcallS op => [op] | _ => [] end) ms.
Definition fair_tmove (g : config) (m : tmove) : Prop :=
  match m with
  | TC l | TS l => fair l
  | TcallC op | TcallS op => sane (start Client g 3) op
  | _ => True
  end.
Lemma pick_spec k l l1 x l2 : pick k l = Some (l1, x, l2) -> l = l1 ++ x :: l2.
Proof.
  unfold pick. destruct (nth_error l k) as [y|] eqn:E; [|discriminate]. intros H. injection H as <- <- <-. revert l E. induction k as [|k IH]; intros [|z l] E; cbn in *; try discriminate.
  - injection E as <-. reflexivity.
  - f_equal. now apply IH.
Qed.
Lemma packets_grow c l c' : step c l = Some c' -> packets (log c') = packets (log c) ++ skipn (length (packets (log c))) (packets (log c')).
Proof. intros S. destruct (log_grows _ _ _ S) as [es ->]. rewrite packets_app, skipn_app, skipn_all, Nat.sub_diag. reflexivity. Qed.
Definition xsame (c : conn) : Prop := cfg c = x_cfg /\ maxs c = 2%N.
Lemma xsame_step c l c' : xsame c -> step c l = Some c' -> xsame c'.
Proof. intros [A B] S. destruct (static_step _ _ _ S) as (E1 & E2 & E3). split; congruence. Qed.
Lemma xsane c op : xsame c -> sane (start Client x_cfg 3) op -> sane c op.
Proof. intros [A B]. unfold sane. rewrite A, B. auto. Qed.
Lemma tdos_talks ms : forall n p q t0 t t', xsame (t_cl t) -> xsame (t_sv t) -> talks n p q t0 t -> Forall (fair_tmove x_cfg) ms -> tdos t ms = Some t' ->
  talks (n + length (filter is_step ms)) (p ++ cl_calls ms) (q ++ sv_calls ms) t0 t'.
Proof.
  induction ms as [|m ms IH]; intros n p q t0 t t' X Y T F E.
  - cbn in E. injection E as <-. cbn. now rewrite Nat.add_0_r, !app_nil_r.
  - inversion F as [|? ? Fm F']; subst. cbn [tdos] in E. destruct (tdo t m) as [t1|] eqn:M; [|discriminate]. destruct t as [a b u d]. cbn [t_cl t_sv] in *.
    destruct m as [l|l|op|op|k|k]; cbn [tdo fair_tmove] in M, Fm; cbn [filter is_step length cl_calls sv_calls flat_map app]; fold (cl_calls ms); fold (sv_calls ms).
    + destruct (step a l) as [a'|] eqn:S; [|discriminate]. injection M as <-. rewrite <- Nat.add_succ_comm.
      eapply IH; try exact E; cbn [t_cl t_sv]; auto; [eapply xsame_step; [|exact S]; assumption|]. eapply TS_S; [exact T|]. eapply T_client; eauto. eapply packets_grow; eauto.
    + destruct (step b l) as [b'|] eqn:S; [|discriminate]. injection M as <-. rewrite <- Nat.add_succ_comm.
      eapply IH; try exact E; cbn [t_cl t_sv]; auto; [eapply xsame_step; [|exact S]; assumption|]. eapply TS_S; [exact T|]. eapply T_server; eauto. eapply packets_grow; eauto.
    + destruct (step a (LCall op)) as [a'|] eqn:S; [|discriminate]. injection M as <-. change (op :: cl_calls ms) with ([op] ++ cl_calls ms). rewrite app_assoc.
      eapply IH; try exact E; cbn [t_cl t_sv]; auto; [eapply xsame_step; [|exact S]; assumption|]. eapply TS_client; eauto. now apply xsane.
    + destruct (step b (LCall op)) as [b'|] eqn:S; [|discriminate]. injection M as <-. change (op :: sv_calls ms) with ([op] ++ sv_calls ms). rewrite app_assoc.
      eapply IH; try exact E; cbn [t_cl t_sv]; auto; [eapply xsame_step; [|exact S]; assumption|]. eapply TS_server; eauto. now apply xsane.
    + destruct (pick k u) as [[[u1 raw] u2]|] eqn:P; [|discriminate]. apply pick_spec in P. subst u. destruct (step b (LArrive raw)) as [b'|] eqn:S; [|discriminate]. injection M as <-.
      rewrite <- Nat.add_succ_comm.
      eapply IH; try exact E; cbn [t_cl t_sv]; auto; [eapply xsame_step; [|exact S]; assumption|]. eapply TS_S; [exact T|]. now constructor.
    + destruct (pick k d) as [[[u1 raw] u2]|] eqn:P; [|discriminate]. apply pick_spec in P. subst d. destruct (step a (LArrive raw)) as [a'|] eqn:S; [|discriminate]. injection M as <-.
      rewrite <- Nat.add_succ_comm.
      eapply IH; try exact E; cbn [t_cl t_sv]; auto; [eapply xsame_step; [|exact S]; assumption|]. eapply TS_S; [exact T|]. now constructor.
Qed.
(** the client writes twice, the second packet overtakes the first, the server reads one of them and writes back *)
Definition talk_moves : list tmove :=
  [TcallC (OpWriteTo [x61] 1); TcallC (OpWrite [x62; x63] 1); TcallS OpReadPD; TcallC (OpRead (repeat x00 4)); TcallS (OpWrite [x64] 0)] ++
  map TC [LUser 0 true; LUser 1 true; LUser 0 true; LUser 1 true; LUser 1 true] ++ map TS [LUser 1 true; LUser 1 true; LUser 1 true; LUser 0 true] ++
  [TtoS 1; TS (LMon true)] ++ map TS (hand 2 4) ++ [TS (LMon true)] ++ map TS [LData 0; LData 0; LData 0; LUser 0 true] ++
  [TtoC 0; TC (LMon true)] ++ map TC (hand 2 4) ++ [TC (LMon true)] ++ map TC [LData 0; LUser 2 true; LData 0; LData 0; LUser 2 true] ++
  [TtoS 0; TS (LMon true)] ++ map TS (hand 3 4) ++ [TS (LMon true)] ++ map TS [LData 1; LData 1; LData 1].
Definition x_talk0 : talk := Eval vm_compute in mkTalk (p_cl x_up) (p_sv x_up) [] [].
Lemma x_talk0_eq : x_talk0 = mkTalk (p_cl x_up) (p_sv x_up) [] [].
Proof. vm_compute. reflexivity. Qed.
Definition x_talk1 : talk := Eval vm_compute in match tdos x_talk0 talk_moves with Some t => t | None => x_talk0 end.
Lemma x_talk1_eq : tdos x_talk0 talk_moves = Some x_talk1.
Proof. vm_compute. reflexivity. Qed.
Lemma talk_moves_fair : Forall (fair_tmove x_cfg) talk_moves.
Proof.
  unfold talk_moves. cbn [map app hand repeat].
  repeat (apply Forall_cons; [cbn [fair_tmove sane]; first [exact Logic.I|split; [exact Logic.I|discriminate]|apply Nat.leb_le; vm_compute; reflexivity
    |split; [apply Nat.leb_le; vm_compute; reflexivity|right; vm_compute; reflexivity]]|]). apply Forall_nil.
Qed.
Lemma tdos0 ms t0 t : xsame (t_cl t0) -> xsame (t_sv t0) -> Forall (fair_tmove x_cfg) ms -> tdos t0 ms = Some t ->
  talks (length (filter is_step ms)) (cl_calls ms) (sv_calls ms) t0 t.
Proof. intros X Y F E. exact (tdos_talks ms 0 [] [] t0 t0 t X Y (TS_0 t0) F E). Qed.
Lemma x_talk_run : talks (length (filter is_step talk_moves)) (cl_calls talk_moves) (sv_calls talk_moves) x_talk0 x_talk1.
Proof.
  apply tdos0.
  - split; vm_compute; reflexivity.
  - split; vm_compute; reflexivity.
  - exact talk_moves_fair.
  - exact x_talk1_eq.
Qed.
Example C81_ex : exists t, talks (length (filter is_step talk_moves)) (cl_calls talk_moves) (sv_calls talk_moves) (mkTalk (p_cl x_up) (p_sv x_up) [] []) t /\
  us (t_cl t) = [UDone (RWrote 112); UDone (RWrote 112); UDone (RRead 1 [x64; x00; x00; x00])] /\
  us (t_sv t) = [UDone (RPD (pd_of x_cfg [x62; x63])); UDone (RWrote 112)] /\ dq (t_sv t) = [pd_of x_cfg [x61]] /\ dq (t_cl t) = [] /\
  written (cl_calls talk_moves) = [[x61]; [x62; x63]] /\ written (sv_calls talk_moves) = [[x64]] /\ t_up t = [] /\ t_dn t = [].
Proof.
  exists x_talk1. split.
  - rewrite <- x_talk0_eq. exact x_talk_run.
  - repeat (split; [vm_compute; reflexivity|]). vm_compute. reflexivity.
Qed.
