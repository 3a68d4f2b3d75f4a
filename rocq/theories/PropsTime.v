(** Property C100: time. *)
From Verif Require Import GoBase ParamsModel MessagesModel ConfigModel ConnModel ConnSpec ConnBase ConnInv ConnUser ConnExamples PropsClose ConnBeat
  TimeModel TimeSpec TimeProofs TimeTight.
From Coq Require Import Arith ZArith Lia.
Open Scope Z_scope.

(** A run with a clock is a run of the connection, and every event has a time. *)
Theorem C100_timed : forall m g o t ls x, trun (tstart m g o t) ls = Some x ->
  map snd (tlog x) = log (tc x) /\ run (start m g o) (map snd ls) = Some (tc x) /\ Forall (fun e => t <= fst e <= now x) (tlog x).
Proof. exact timed_log. Qed.
(** Two BEATs of a connection are at least the configured Interval apart, whatever the peer sends ... *)
Theorem C100_spacing : forall m g o t ls x, trun (tstart m g o t) ls = Some x -> spaced (interval g) (beat_times (tlog x)).
Proof. exact beats_spaced. Qed.
(** ... so that a span of time sees at most one more than fit into it. *)
Theorem C100_rate : forall m g o t ls x a b, trun (tstart m g o t) ls = Some x -> a <= b ->
  interval g * (Z.of_nat (length (within a b (beat_times (tlog x)))) - 1) <= b - a.
Proof. exact beats_rate. Qed.
(** A peer is given Timer at least: an expiry is reported no earlier than that after the last BEAT. *)
Theorem C100_expiry : forall m g o t ls x l1 u l2, trun (tstart m g o t) ls = Some x ->
  tlog x = l1 ++ (u, ERefused OHb EHeartbeatExpired) :: l2 -> exists r a, beat_times l1 = r ++ [a] /\ a + patience g <= u.
Proof. exact expiry_late. Qed.
(** The timers do fire: once the goroutine has been waiting for Timer (Interval), it can report the expiry (send the next BEAT). *)
Theorem C100_on_time : forall m g o t ls1 x1 a l x2 ls2 x3 u d, trun (tstart m g o t) ls1 = Some x1 -> tstep x1 a l = Some x2 ->
  hb (tc x1) <> hb (tc x2) -> (hb (tc x2) = BAck /\ d = patience g) \/ (hb (tc x2) = BSleep /\ d = interval g) ->
  trun x2 ls2 = Some x3 -> stays (hb (tc x2)) x2 ls2 -> crash (tc x3) = None -> now x3 <= u -> a + d <= u ->
  exists x', tstep x3 u LHbTimer = Some x' /\
    hb (tc x') = (match hb (tc x2) with BAck => BErr EHeartbeatExpired | _ => BRand end).
Proof. exact timer_there. Qed.

(** The spacing cannot be improved: with any Interval z there are runs with n+1 BEATs exactly max(0,z) apart. *)
Definition hb_cfg (z : Z) : config :=
  NewClientConfig (Some (mkHbInfo true z 3 [])) 0x11111111 0x22222222 1 2 0 0 [1; 2]%N x03 x00 x00 x01.
Definition beating_conn (z : Z) : conn := Eval vm_compute in after (start Server (hb_cfg z) 3) server_hb.
Lemma beating_run z : run (start Server (hb_cfg z) 3) server_hb = Some (beating_conn z).
Proof. vm_compute. reflexivity. Qed.
Lemma beating_beats z t : beat_times (map (pair t) (log (beating_conn z))) = [t].
Proof. vm_compute. reflexivity. Qed.
Lemma beating_state z : beating x_beat (beating_conn z) /\ cfg (beating_conn z) = hb_cfg z.
Proof. unfold beating. repeat split. Qed.
Theorem C100_tight : forall z t n, exists ls x, trun (tstart Server (hb_cfg z) 3 t) ls = Some x /\
  now x = t + interval (hb_cfg z) * Z.of_nat n /\ beat_times (tlog x) = map (fun k => t + interval (hb_cfg z) * Z.of_nat k) (seq 0 (S n)).
Proof.
  intros z t n. destruct (beating_state z) as [B G].
  destruct (trun_at t server_hb (tstart Server (hb_cfg z) 3 t) _ (beating_run z)) as (x & R & X & N & Si & _ & es & L & T);
    [repeat constructor|cbn; lia|cbn; lia|discriminate|].
  cbn [tstart tlog tc start log app] in L, T. rewrite <- X in B, G. destruct (beats_exact n x_beat x (mkHbInfo true z 3 [])) as (ls & x' & R' & N' & T').
  - reflexivity.
  - exact B.
  - rewrite G. reflexivity.
  - lia.
  - exists (map (pair t) server_hb ++ ls), x'. split; [now rewrite (trun_app _ _ _ _ R)|]. split; [rewrite N', N, G; reflexivity|]. rewrite T', T, <- L, beating_beats, G, N.
    cbn [seq map app]. f_equal; [lia|]. rewrite <- seq_shift, map_map. reflexivity.
Qed.
(** With a negative Interval there is no limit: any number of BEATs within no time.  (An Interval of 0 turns heartbeats off: C51.) *)
Theorem C100_limit_refuted : exists g o t, check_interval (Some g) = Ok g /\ hb_on g = true /\
  forall n, exists ls x, trun (tstart Server g o t) ls = Some x /\ now x = t /\ length (beat_times (tlog x)) = S n.
Proof.
  exists (hb_cfg (-1)), 3%N, 0. split; [reflexivity|]. split; [reflexivity|]. intros n. destruct (C100_tight (-1) 0 n) as (ls & x & R & N & T).
  exists ls, x. split; [exact R|]. split; [exact N|]. rewrite T, map_length, seq_length. reflexivity.
Qed.

(** ** Dial and Accept *)
(** They give up no earlier than 10 seconds after the association is there ... *)
Theorem C100_patient : forall m g o t ls x, trun (tstart m g o t) ls = Some x -> dial (tc x) = DTimeout -> t + 10000000000 <= now x.
Proof. exact timeout_late. Qed.
(** ... and can do so from then on, whatever the connection is doing. *)
Theorem C100_gives_up : forall m g o t ls x u, trun (tstart m g o t) ls = Some x -> crash (tc x) = None -> dial (tc x) = DWait ->
  now x <= u -> t + 10000000000 <= u -> exists x', tstep x u LDialTimeout = Some x' /\ dial (tc x') = DTimeout /\ now x' = u.
Proof. exact timeout_there. Qed.
(** With a peer that says nothing this is how they end. *)
Theorem C100_silence : forall m g o t ls x, trun (tstart m g o t) ls = Some x -> Forall (fun e => hears_nothing (snd e)) ls ->
  dial (tc x) <> DWait -> dial (tc x) = DTimeout /\ t + 10000000000 <= now x.
Proof. exact silence. Qed.
(** A server accepts one peer after the other: every silent one ahead costs those behind it 10 seconds ... *)
Theorem C100_queue : forall g calls t ds t', accept_loop g t calls = Some (ds, t') -> Forall silent_call calls ->
  ds = repeat DTimeout (length calls) /\ t + 10000000000 * Z.of_nat (length calls) <= t'.
Proof. exact queue_waits. Qed.
(** ... which does happen, and need not be more. *)
Theorem C100_queue_tight : forall g (o : N) n t, exists calls, length calls = n /\ Forall silent_call calls /\
  accept_loop g t calls = Some (repeat DTimeout n, t + 10000000000 * Z.of_nat n).
Proof. exact queue_tight. Qed.

Print Assumptions C100_timed.
Print Assumptions C100_spacing.
Print Assumptions C100_rate.
Print Assumptions C100_expiry.
Print Assumptions C100_on_time.
Print Assumptions C100_tight.
Print Assumptions C100_limit_refuted.
Print Assumptions C100_patient.
Print Assumptions C100_gives_up.
Print Assumptions C100_silence.
Print Assumptions C100_queue.
Print Assumptions C100_queue_tight.

(** an Interval of 5: three BEATs, at 100, 105 and 110; within [100, 107] there are two *)
Example C100_ex : exists ls x, trun (tstart Server (hb_cfg 5) 3 100) ls = Some x /\ beat_times (tlog x) = [100; 105; 110] /\
  interval (hb_cfg 5) = 5 /\ length (within 100 107 (beat_times (tlog x))) = 2%nat.
Proof.
  destruct (C100_tight 5 100 2) as (ls & x & R & _ & T). exists ls, x. split; [exact R|]. rewrite T. repeat split.
Qed.
(** the ack of a BEAT sent at 100 does not come; Timer is 3: not reported at 102, reported at 103 when a packet arrives *)
Definition x_late_ack (u : Z) : list (Z * label) :=
  map (pair 100) server_hb ++ map (pair u) ([LHbTimer; LArrive pk_beat; LMon true; LHb true; LMon true]).
Definition x_expired : option tconn := Eval vm_compute in trun (tstart Server (hb_cfg 5) 3 100) (x_late_ack 103).
Example C100_ex_expiry : trun (tstart Server (hb_cfg 5) 3 100) (x_late_ack 102) = None /\
  trun (tstart Server (hb_cfg 5) 3 100) (x_late_ack 103) = x_expired /\
  match x_expired with Some x => exists l1 l2, tlog x = l1 ++ (103, ERefused OHb EHeartbeatExpired) :: l2 /\ beat_times l1 = [100] | None => False end.
Proof.
  split; [vm_compute; reflexivity|]. split; [vm_compute; reflexivity|]. unfold x_expired.
  match goal with |- context [tlog ?x] => exists (removelast (tlog x)), [] end. split; vm_compute; reflexivity.
Qed.
(** a client whose ASPUP is not answered *)
Definition x_unheard : list (Z * label) := [(0, LInit); (0, LMon true); (0, LMon true); (4, LHb true); (10000000000, LDialTimeout)].
Definition x_unheard_end : option tconn := Eval vm_compute in trun (tstart Client x_cfg 3 0) x_unheard.
Example C100_ex_silence : trun (tstart Client x_cfg 3 0) x_unheard = x_unheard_end /\ Forall (fun e => hears_nothing (snd e)) x_unheard /\
  match x_unheard_end with Some x => dial (tc x) = DTimeout /\ crash (tc x) = None /\ length (tlog x) = 2%nat | None => False end.
Proof. split; [vm_compute; reflexivity|]. split; [repeat constructor|]. repeat split. Qed.
(** a silent peer, and one that is served: Accept returns it after 10 seconds *)
Definition x_line : list (N * list (Z * label)) :=
  [(3%N, [(10000000000, LDialTimeout)]); (3%N, map (pair 10000000001) server_up)].
Example C100_ex_queue : accept_loop x_cfg 0 x_line = Some ([DTimeout; DOk], 10000000001).
Proof. vm_compute. reflexivity. Qed.
(** the BEAT goes out at 100, its data are noted at 101, a packet arrives at 103: the expiry is due at 104 *)
Definition x_wait0 := Eval vm_compute in trun (tstart Server (hb_cfg 5) 3 100) (map (pair 100) (removelast server_hb)).
Definition x_wait1 := Eval vm_compute in match x_wait0 with Some x => tstep x 101 (LHb true) | None => None end.
Example C100_ex_due : match x_wait0, x_wait1 with
  | Some x1, Some x2 => trun (tstart Server (hb_cfg 5) 3 100) (map (pair 100) (removelast server_hb)) = Some x1 /\ tstep x1 101 (LHb true) = Some x2 /\
      hb (tc x2) = BAck /\ stays BAck x2 [(103, LArrive pk_beat)] /\ trun x2 [(103, LArrive pk_beat); (103, LHbTimer)] = None /\
      exists x3, trun x2 [(103, LArrive pk_beat); (104, LHbTimer)] = Some x3 /\ hb (tc x3) = BErr EHeartbeatExpired
  | _, _ => False
  end.
Proof.
  cbv [x_wait0 x_wait1]. split; [vm_compute; reflexivity|]. split; [vm_compute; reflexivity|]. split; [reflexivity|].
  split; [vm_compute; auto|]. split; [vm_compute; reflexivity|]. eexists. split; [vm_compute; reflexivity|reflexivity].
Qed.
