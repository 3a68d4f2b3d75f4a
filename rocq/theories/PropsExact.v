(** C98: an endpoint that only answers is a function from the octets it receives to the octets it sends. *)
From Verif Require Import GoBase ParamsModel MessagesModel ConfigModel ConnModel ConnSpec ConnBase ConnInv ConnTrace ConnUser ConnCodec ConnMore ConnExamples ConnPair ConnPieces
  ConnDialog ConnDuo PeerSpec ConnPeer ExactSpec ConnExact PropsPeer.
From Coq Require Import Arith Lia.
Open Scope nat_scope.

(** C98: an endpoint of any configuration with heartbeats disabled, whose user makes no calls, receives any packets but DATA: valid or not, of any
    version, in any order and at any time. However its goroutines and the arrivals are interleaved, the packets it sends are, octet by octet, the
    beginning of one list [bs] that is determined by the pieces in which the packets are read; it makes boundedly many steps; and when it can do
    nothing more it has sent all of [bs] and is in the condition [f]. *)
Theorem C98_exact : forall mo g o ls c, beats_enabled g = false -> run (start mo g o) ls = Some c ->
  Forall (fun l => benign l \/ exists raw, l = LArrive raw) ls -> Forall (fun raw => ~ is_data raw) (flat_map chunks (arrivals ls)) ->
  exists bs f, transcript mo g (beat_text g) (flat_map chunks (arrivals ls)) bs f /\
    length ls <= 9 + 13 * length (flat_map chunks (arrivals ls)) + length (arrivals ls) /\
    (exists zs, bs = packets (log c) ++ zs) /\ ((exists l c', benign l /\ step c l = Some c') \/ (packets (log c) = bs /\ became c f)).
Proof. exact endpoint_exact. Qed.
(** The list and the condition exist for all packets but DATA, and there is only one of each. *)
Theorem C98_function : forall mo g d rs, Forall (fun raw => ~ is_data raw) rs ->
  exists bs f, transcript mo g d rs bs f /\ forall bs' f', transcript mo g d rs bs' f' -> bs' = bs /\ f' = f.
Proof.
  intros mo g d rs F. destruct (transcript_total mo g d rs F) as (bs & f & T). exists bs, f. split; [exact T|]. intros bs' f' T'.
  destruct (transcript_det _ _ _ _ _ _ _ _ T T') as [-> ->]. auto.
Qed.
(** Two schedules of the same packets send the same octets in the same order. *)
Theorem C98_confluent : forall mo g o o' ls ls' c c', beats_enabled g = false -> run (start mo g o) ls = Some c -> run (start mo g o') ls' = Some c' ->
  Forall (fun l => benign l \/ exists raw, l = LArrive raw) ls -> Forall (fun l => benign l \/ exists raw, l = LArrive raw) ls' ->
  flat_map chunks (arrivals ls) = flat_map chunks (arrivals ls') -> Forall (fun raw => ~ is_data raw) (flat_map chunks (arrivals ls)) ->
  (forall l d, benign l -> step c l <> Some d) -> (forall l d, benign l -> step c' l <> Some d) -> packets (log c) = packets (log c').
Proof.
  intros mo g o o' ls ls' c c' Ho R R' F F' E Nd N N'.
  destruct (C98_exact mo g o ls c Ho R F Nd) as (bs & f & T & _ & _ & [(l & d & B & S)|[<- _]]); [destruct (N _ _ B S)|]. rewrite E in Nd, T.
  destruct (C98_exact mo g o' ls' c' Ho R' F' Nd) as (bs & f' & T' & _ & _ & [(l & d & B & S)|[<- _]]); [destruct (N' _ _ B S)|].
  now destruct (transcript_det _ _ _ _ _ _ _ _ T T') as [-> _].
Qed.
(** A packet that cannot be decoded, one of another version, or a BEAT ACK makes the endpoint deaf for ever: what is received afterwards
    changes nothing, and it never reads again. *)
Theorem C98_deaf : forall mo g d rs raw rs' bs f,
  (forall m, valid raw m -> is_beat_ack m) -> transcript mo g d (rs ++ raw :: rs') bs f ->
  (forall s t, f <> Waits s t) /\ transcript mo g d (rs ++ [raw]) bs f.
Proof.
  intros mo g d rs raw rs' bs f H. revert bs f. induction rs' as [|r rs' IH] using rev_ind; intros bs f T.
  - split; [|exact T]. inversion T as [gs G E|rs0 b0 f0 raw0 o0 f1 T0 R E]; [destruct rs; discriminate|]. apply app_inj_tail in E as [-> ->].
    intros s t ->. inversion R as [| |s0 t0 rw m x bs0 gs Va Na| | | | |]; subst; try discriminate.
    + apply Na, H, Va.
    + match goal with N : forall a b, _ <> Waits a b |- _ => now apply (N s t) end.
  - rewrite app_comm_cons, app_assoc in T. inversion T as [gs G E|rs0 b0 f0 raw0 o0 f1 T0 R E]; [destruct rs; discriminate|]. apply app_inj_tail in E as [-> ->].
    destruct (IH _ _ T0) as [N T1]. destruct (responds_det _ _ _ _ _ _ _ _ _ R (RS_lost mo g d f0 r N)) as [-> ->]. rewrite app_nil_r. auto.
Qed.
Print Assumptions C98_exact.
Print Assumptions C98_function.
Print Assumptions C98_confluent.
Print Assumptions C98_deaf.

(** ** Executions *)
Ltac outsiders P := eapply Forall_impl; [exact P|]; repeat (apply Forall_cons; [exact Logic.I|]); apply Forall_nil.
Lemma other_kind raw t : Parse raw = Ok (Typed t) -> m_kind t <> KData -> ~ is_data raw.
Proof. intros P K (t' & [P' _] & K'). congruence. Qed.
Lemma garbage raw e : Parse raw = Err e -> ~ is_data raw.
Proof. intros P (t' & [P' _] & _). congruence. Qed.
Definition feed (mo : cmode) (rs : list (list byte)) : list label :=
  map LArrive rs ++ drain 999 (after (start mo x_cfg 3) (map LArrive rs)).
(** a server: ASP Up, ASP Active, BEAT, a message of version 2, and a BEAT that is no longer answered *)
Definition e_rs : list (list byte) := Eval vm_compute in [pk_up; pk_active; pk_beat; pk_v2; pk_beat].
Definition e_ls : list label := Eval vm_compute in feed Server e_rs.
Definition e_end : conn := Eval vm_compute in after (start Server x_cfg 3) e_ls.
Lemma e_run : run (start Server x_cfg 3) e_ls = Some e_end.
Proof. vm_compute. reflexivity. Qed.
Lemma e_arrivals : flat_map chunks (arrivals e_ls) = e_rs.
Proof. vm_compute. reflexivity. Qed.
Example C98_ex : beats_enabled x_cfg = false /\ run (start Server x_cfg 3) e_ls = Some e_end /\ Forall (fun l => benign l \/ exists raw, l = LArrive raw) e_ls /\
  Forall (fun raw => ~ is_data raw) (flat_map chunks (arrivals e_ls)) /\ length (packets (log e_end)) = 4 /\ mon e_end = MSelect /\ state e_end = Active /\ inq e_end = [pk_beat].
Proof.
  assert (P : forall l, (match l with LArrive _ => True | _ => benign l end) -> benign l \/ exists raw, l = LArrive raw) by (intros l H; destruct l; eauto).
  split; [reflexivity|]. split; [exact e_run|]. split; [outsiders P|]. split; [rewrite e_arrivals|vm_compute; auto].
  repeat (apply Forall_cons; [eapply other_kind; [vm_compute; reflexivity|discriminate]|]). apply Forall_nil.
Qed.
(** a packet of 3000 octets is two packets; the second cannot be decoded *)
Definition b_long : list byte := Eval vm_compute in bytes_of (Typed (NewHeartbeat (Some (NewHeartbeatData (repeat x61 (N.to_nat 2988)))))).
Definition l_rs : list (list byte) := [pk_up; pk_active].
Definition l_ls : list label := Eval vm_compute in feed Server (l_rs ++ [pk_beat_ack_empty]).
Definition l_end : conn := Eval vm_compute in after (start Server x_cfg 3) l_ls.
Lemma l_run : run (start Server x_cfg 3) l_ls = Some l_end.
Proof. vm_compute. reflexivity. Qed.
Example C98_panic_ex : run (start Server x_cfg 3) l_ls = Some l_end /\ crash l_end = Some PNil /\ length (packets (log l_end)) = 2.
Proof. split; [exact l_run|]. vm_compute. auto. Qed.
Example C98_long_ex : length (chunks b_long) = 2 /\ Parse (firstn 1500 b_long) <> Parse b_long.
Proof. split; [vm_compute; reflexivity|]. vm_compute. discriminate. Qed.
Example C98_deaf_ex : (forall m, valid pk_v2 m -> is_beat_ack m) /\ (forall m, valid pk_junk m -> is_beat_ack m) /\ (forall m, valid pk_beat_ack_empty m -> is_beat_ack m).
Proof.
  split; [intros m [P V]; exfalso; vm_compute in P; injection P as <-; vm_compute in V; discriminate|].
  split; [intros m [P V]; exfalso; vm_compute in P; discriminate|].
  intros m [P _]. vm_compute in P. injection P as <-. eexists. split; reflexivity.
Qed.
