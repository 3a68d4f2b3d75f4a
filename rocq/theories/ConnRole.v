(** Two endpoints of the same role connected to each other. *)
From Verif Require Import GoBase BaseProofs ParamsModel MessagesModel WireSpec ParamsSpec MsgSpec ConfigModel
  ConnModel CfgSpec ConnSpec ConnBase ConnInv ConnCodec ConnPair DialogSpec ConnDialog ConnDuo.
From Coq Require Import Arith Lia.
Open Scope nat_scope.
Opaque max_value_len.

(** ** Exploring level by level *)
(** a dialogue and what has been said *)
Definition told_duo : Type := duo * (list sig * list sig).
Definition tsuccs (ma mb : cmode) (e : told_duo) : list told_duo :=
  let '(d, (ua, ub)) := e in
  (match d_cl d, to_cl d with
   | Rest s t, x :: q => [(mkDuo (snd (hears ma s t x)) (d_sv d) q (to_sv d ++ fst (hears ma s t x)), (ua ++ fst (hears ma s t x), ub))]
   | _, _ => []
   end) ++
  (match d_sv d, to_sv d with
   | Rest s t, x :: q => [(mkDuo (d_cl d) (snd (hears mb s t x)) (to_cl d ++ fst (hears mb s t x)) q, (ua, ub ++ fst (hears mb s t x)))]
   | _, _ => []
   end).
Lemma tsuccs_spec ma mb d ua ub d' va vb : tstep ma mb d ua ub d' va vb -> In (d', (va, vb)) (tsuccs ma mb (d, (ua, ub))).
Proof.
  intros S. destruct S; unfold tsuccs; cbn [d_cl d_sv to_cl to_sv].
  - now left.
  - apply in_or_app. right. now left.
Qed.
Lemma tsuccs_nil ma mb d ua ub : (forall d', ~ dstep ma mb d d') -> tsuccs ma mb (d, (ua, ub)) = [].
Proof.
  intros N. apply succs_nil in N. destruct d as [a b qa qb]. unfold succs in N. unfold tsuccs. cbn [d_cl d_sv to_cl to_sv] in *.
  apply app_eq_nil in N as [N1 N2]. destruct a as [s t|]; [destruct qa; [|discriminate]|]; (destruct b as [s' t'|]; [destruct qb; [|discriminate]|]); reflexivity.
Qed.
Definition told_eq_dec (x y : told_duo) : {x = y} + {x <> y}.
Proof. repeat decide equality. Defined.
(** all dialogues from a member of l end within f steps, in P *)
Fixpoint within (ma mb : cmode) (P : told_duo -> bool) (f : nat) (l : list told_duo) : bool :=
  match f with
  | 0 => match l with [] => true | _ => false end
  | S f => forallb (fun e => match tsuccs ma mb e with [] => P e | _ => true end) l &&
           within ma mb P f (nodup told_eq_dec (flat_map (tsuccs ma mb) l))
  end.
Lemma within_sound ma mb P k : forall f l d ua ub d' va vb, within ma mb P f l = true -> In (d, (ua, ub)) l -> tsteps ma mb k d ua ub d' va vb ->
  k < f /\ exists l', In (d', (va, vb)) l' /\ within ma mb P (f - k) l' = true.
Proof.
  intros f l d ua ub d' va vb W I R. revert W I. induction R as [d ua ub|k d ua ub e va vb g xa xb R IH S]; intros W I.
  - destruct f as [|f]; [destruct l; [contradiction|discriminate]|]. split; [lia|]. exists l. rewrite Nat.sub_0_r. auto.
  - destruct (IH W I) as (L & l1 & I1 & W1). destruct (f - k) as [|f1] eqn:E; [lia|]. cbn [within] in W1. apply andb_true_iff in W1 as [_ W2].
    assert (I2 : In (g, (xa, xb)) (nodup told_eq_dec (flat_map (tsuccs ma mb) l1))).
    { apply nodup_In, in_flat_map. exists (e, (va, vb)). split; [exact I1|]. now apply tsuccs_spec. }
    destruct f1 as [|f2]. { cbn [within] in W2. destruct (nodup told_eq_dec (flat_map (tsuccs ma mb) l1)); [contradiction|discriminate]. }
    split; [lia|]. eexists. split; [exact I2|]. replace (f - Datatypes.S k) with (Datatypes.S f2) by lia. exact W2.
Qed.
Lemma within_last ma mb P f l d ua ub : within ma mb P f l = true -> In (d, (ua, ub)) l -> (forall d', ~ dstep ma mb d d') -> P (d, (ua, ub)) = true.
Proof.
  intros W I N. destruct f as [|f]; [destruct l; [contradiction|discriminate]|]. cbn [within] in W. apply andb_true_iff in W as [W _].
  rewrite forallb_forall in W. specialize (W _ I). now rewrite (tsuccs_nil _ _ _ _ _ N) in W.
Qed.
(** where a dialogue ends *)
Definition final (e e' : told_duo) : bool := if told_eq_dec e' e then true else false.
Lemma final_eq e e' : final e e' = true -> e' = e.
Proof. unfold final. destruct (told_eq_dec e' e); [auto|discriminate]. Qed.

(** ** From the start *)
Definition calm_duo : duo := mkDuo (Rest Active true) (Rest Active true) [] [].
Definition from_start (ma mb : cmode) : list told_duo := [(dstart ma mb, (hello ma Down, hello mb Down))].
Lemma clients_end : within Client Client (final (calm_duo, (said_by_client_to_client, said_by_client_to_client))) 17 (from_start Client Client) = true.
Proof. vm_compute. reflexivity. Qed.
Lemma mixed_end : within Client Server (final (calm_duo, ([SUp; SActive], [SUpAck; SActiveAck]))) 5 (from_start Client Server) = true.
Proof. vm_compute. reflexivity. Qed.
Theorem meet ma mb k ga gb oa ob sa sb n p : within ma mb (final (calm_duo, (sa, sb))) (S k) (from_start ma mb) = true ->
  cfg_ok ga -> cfg_ok gb -> signals_fit ga -> signals_fit gb -> hb_on ga = false -> hb_on gb = false ->
  psteps n (pstart2 ma mb ga gb oa ob) p ->
  n <= 16 + 13 * k /\ sound (p_cl p) /\ sound (p_sv p) /\ ((exists p', pstep p p') \/ at_rest p) /\
  (at_rest p -> resting (p_cl p) (Rest Active true) /\ resting (p_sv p) (Rest Active true) /\
    Forall2 denotes (packets (log (p_cl p))) sa /\ Forall2 denotes (packets (log (p_sv p))) sb).
Proof.
  intros En Oa Ob Fa Fb Ha Hb R. pose proof (cfg_speaks _ Oa Fa) as Sa. pose proof (cfg_speaks _ Ob Fb) as Sb.
  destruct (follows_steps _ _ _ _ _ _ _ _ _ _ _ Sa Sb Ha Hb (follows_start ma mb ga gb oa ob Ha Hb) R) as (j & d & ua & ub & w & D & F & L1 & L2).
  destruct (within_sound _ _ _ _ _ _ _ _ _ _ _ _ En (or_introl eq_refl) D) as (Lk & l & I & W). split; [lia|].
  split; [destruct F as [? ? ? ? ? ? ? ? ? ? ? ? ? ? []]; repeat split; assumption|].
  split; [destruct F as [? ? ? ? ? ? ? ? ? ? ? ? ? ? _ _ []]; repeat split; assumption|].
  split; [exact (follows_dec _ _ _ _ _ _ _ _ _ Ha Hb F)|]. intros At. destruct (follows_stuck _ _ _ _ _ _ _ _ _ Sa Sb F At) as (N & Rc & Rs & Ta & Tb).
  apply (within_last _ _ _ _ _ _ _ _ W I) in N. apply final_eq in N. injection N as -> -> ->. auto.
Qed.
Theorem clients_meet ga gb oa ob n p : cfg_ok ga -> cfg_ok gb -> signals_fit ga -> signals_fit gb -> hb_on ga = false -> hb_on gb = false ->
  psteps n (pstart2 Client Client ga gb oa ob) p ->
  n <= 224 /\ sound (p_cl p) /\ sound (p_sv p) /\ ((exists p', pstep p p') \/ at_rest p) /\
  (at_rest p -> resting (p_cl p) (Rest Active true) /\ resting (p_sv p) (Rest Active true) /\
    Forall2 denotes (packets (log (p_cl p))) said_by_client_to_client /\ Forall2 denotes (packets (log (p_sv p))) said_by_client_to_client).
Proof. exact (meet Client Client 16 ga gb oa ob _ _ n p clients_end). Qed.

(** ** Two servers *)
Definition srv (g : config) (o : N) (k : nat) (h : bpc) : conn :=
  match k with
  | 0 => at_ Server g o [] h Down MSelect true [] DWait []
  | 1 => at_ Server g o [] h Down (MUpd Down) false [] DWait []
  | _ => at_ Server g o [] h Down MRead false [] DWait [EUpd Down]
  end.
Definition early (h : bpc) : Prop := h = BStart \/ h = BWait.
Lemma srv_step g o k h l c' : early h -> k <= 2 -> benign l -> step (srv g o k h) l = Some c' ->
  exists k' h', k' <= 2 /\ early h' /\ c' = srv g o k' h' /\ hw h' + (2 - k') < hw h + (2 - k).
Proof.
  intros E K B S.
  assert (Nn : forall A i, @nth_error A [] i = None) by (intros A [|]; reflexivity).
  destruct k as [|[|[|k]]]; [..|lia]; destruct E as [-> | ->]; destruct l; try contradiction; unfold step, srv, at_, step_mon, step_hand, step_data, step_user in S; cb;
    cbn in S; rewrite ?Nn in S; try discriminate; try (destruct ok; try contradiction; cbn in S; try discriminate); injection S as <-.
  all: try (exists 0, BWait; unfold early; cbn; repeat split; auto; lia).
  all: try (exists 1, BWait; unfold early; cbn; repeat split; auto; lia).
  all: try (exists 1, BStart; unfold early; cbn; repeat split; auto; lia).
  all: try (exists 2, BWait; unfold early; cbn; repeat split; auto; lia).
  all: try (exists 2, BStart; unfold early; cbn; repeat split; auto; lia).
Qed.
Theorem servers_wait ga gb oa ob n p : psteps n (pstart2 Server Server ga gb oa ob) p ->
  exists ka ha kb hb, p = mkPair (srv ga oa ka ha) (srv gb ob kb hb) 0 0 /\ ka <= 2 /\ kb <= 2 /\ early ha /\ early hb /\ n + (hw ha + (2 - ka) + (hw hb + (2 - kb))) <= 10.
Proof.
  intros R. remember (pstart2 Server Server ga gb oa ob) as p0 eqn:E0. induction R as [p|n p q r R IH S].
  - subst p. exists 0, BStart, 0, BStart. unfold early. cbn [hw]. repeat split; auto; lia.
  - destruct (IH E0) as (ka & ha & kb & hb & -> & La & Lb & Ea & Eb & L). clear IH.
    assert (Pk : forall g o k h, packets (log (srv g o k h)) = []) by (intros g o [|[|k]] h; reflexivity).
    inversion S as [? ? ? ? l a' B St|? ? ? ? l b' B St|? ? ? ? raw b' N St|? ? ? ? raw a' N St]; subst; clear S.
    + destruct (srv_step _ _ _ _ _ _ Ea La B St) as (k' & h' & L' & E' & -> & W). exists k', h', kb, hb. repeat split; auto. lia.
    + destruct (srv_step _ _ _ _ _ _ Eb Lb B St) as (k' & h' & L' & E' & -> & W). exists ka, ha, k', h'. repeat split; auto. lia.
    + rewrite Pk in N. discriminate.
    + rewrite Pk in N. discriminate.
Qed.

(** ** One more signal between two clients *)
Lemma clients_rest ga gb oa ob n p : speaks ga -> speaks gb -> hb_on ga = false -> hb_on gb = false ->
  psteps n (pstart2 Client Client ga gb oa ob) p -> at_rest p ->
  (exists w, follows Client Client ga gb p calm_duo said_by_client_to_client said_by_client_to_client w /\ w <= 224) /\ told_rests p /\ waiting p <= p_ab p + p_ba p.
Proof.
  intros Sa Sb Ha Hb R At.
  destruct (follows_steps _ _ _ _ _ _ _ _ _ _ _ Sa Sb Ha Hb (follows_start Client Client ga gb oa ob Ha Hb) R) as (k & d & ua & ub & w & D & F & L1 & L2).
  destruct (within_sound _ _ _ _ _ _ _ _ _ _ _ _ clients_end (or_introl eq_refl) D) as (Lk & l & I & W).
  destruct (follows_stuck _ _ _ _ _ _ _ _ _ Sa Sb F At) as (N & Rc & Rs & _). apply (within_last _ _ _ _ _ _ _ _ W I) in N.
  apply final_eq in N. injection N as -> -> ->. split; [exists w; split; [exact F|lia]|]. split.
  - destruct Rc as (M1 & _), Rs as (M2 & _). split; auto.
  - cbn in L2. lia.
Qed.
Definition stuck_with (a b : abs) (e : told_duo) : bool := abs_eqb (d_cl (fst e)) a && abs_eqb (d_sv (fst e)) b.
Definition heard_told (by_1 : bool) (x : sig) : told_duo :=
  (heard by_1 x calm_duo, (if by_1 then said_by_client_to_client ++ [x] else said_by_client_to_client,
                           if by_1 then said_by_client_to_client else said_by_client_to_client ++ [x])).
Lemma fate2_holds (by_1 : bool) x : match fate2_of x with
  | Both s => within Client Client (stuck_with (Rest s true) (Rest s true)) 12 [heard_told by_1 x] = true
  | AllHang => within Client Client (stuck_with Hung Hung) 12 [heard_told by_1 x] = true
  | PeerHangs s => within Client Client (if by_1 then stuck_with (Rest s true) Hung else stuck_with Hung (Rest s true)) 12 [heard_told by_1 x] = true
  | Forever => endless Client Client 40 (heard by_1 x calm_duo) = true
  end.
Proof. destruct x, by_1; vm_compute; reflexivity. Qed.
Definition sender (by_1 : bool) (p : pair) : conn := if by_1 then p_cl p else p_sv p.
Definition hearer (by_1 : bool) (p : pair) : conn := if by_1 then p_sv p else p_cl p.
Theorem clients_signal ga gb oa ob m x by_1 n0 p p1 :
  cfg_ok ga -> cfg_ok gb -> signals_fit ga -> signals_fit gb -> hb_on ga = false -> hb_on gb = false -> says m x ->
  psteps n0 (pstart2 Client Client ga gb oa ob) p -> at_rest p -> signal_by m by_1 p p1 -> forall n p', psteps n p1 p' ->
  sound (p_cl p') /\ sound (p_sv p') /\ ((exists p'', pstep p' p'') \/ at_rest p') /\
  match fate2_of x with
  | Both s => n <= 368 /\ (at_rest p' -> resting (sender by_1 p') (Rest s true) /\ resting (hearer by_1 p') (Rest s true))
  | AllHang => n <= 368 /\ (at_rest p' -> resting (sender by_1 p') Hung /\ resting (hearer by_1 p') Hung)
  | PeerHangs s => n <= 368 /\ (at_rest p' -> resting (sender by_1 p') (Rest s true) /\ resting (hearer by_1 p') Hung)
  | Forever => (exists p'', pstep p' p'') /\ n <= 225 + 13 * (p_ab p' + p_ba p')
  end.
Proof.
  intros Oa Ob Fa Fb Ha Hb Sy R0 At0 Sg. pose proof (cfg_speaks _ Oa Fa) as Sa. pose proof (cfg_speaks _ Ob Fb) as Sb.
  destruct (clients_rest _ _ _ _ _ _ Sa Sb Ha Hb R0 At0) as ((w & F & Lw) & T & Wt).
  destruct (call_follows _ _ _ _ _ _ _ _ _ _ _ _ _ F T Sy Sg) as (F1 & _ & W1 & A1 & B1). pose proof (fate2_holds by_1 x) as V.
  intros n p' R. destruct (follows_steps _ _ _ _ _ _ _ _ _ _ _ Sa Sb Ha Hb F1 R) as (k & d' & ua & ub & w' & D & F' & L1 & L2).
  split; [destruct F' as [? ? ? ? ? ? ? ? ? ? ? ? ? ? []]; repeat split; assumption|].
  split; [destruct F' as [? ? ? ? ? ? ? ? ? ? ? ? ? ? _ _ []]; repeat split; assumption|].
  pose proof (follows_dec _ _ _ _ _ _ _ _ _ Ha Hb F') as Dc. split; [exact Dc|].
  assert (En : forall P, within Client Client P 12 [heard_told by_1 x] = true ->
    n <= 368 /\ (at_rest p' -> P (d', (ua, ub)) = true /\ resting (p_cl p') (d_cl d') /\ resting (p_sv p') (d_sv d'))).
  { intros P W. destruct (within_sound _ _ _ _ _ _ _ _ _ _ _ _ W (or_introl eq_refl) D) as (Lk & l & I & W'). split; [lia|]. intros At.
    destruct (follows_stuck _ _ _ _ _ _ _ _ _ Sa Sb F' At) as (N & Rc & Rs & _). split; [exact (within_last _ _ _ _ _ _ _ _ W' I N)|auto]. }
  assert (Sw : forall a b, stuck_with a b (d', (ua, ub)) = true -> d_cl d' = a /\ d_sv d' = b).
  { intros a b E. apply andb_true_iff in E as [E1 E2]. split; now apply abs_eqb_true. }
  destruct (fate2_of x) as [s| |s|].
  - destruct (En _ V) as [L E]. split; [exact L|]. intros At. destruct (E At) as (P & Rc & Rs). destruct (Sw _ _ P) as [E1 E2]. rewrite E1 in Rc. rewrite E2 in Rs. destruct by_1; auto.
  - destruct (En _ V) as [L E]. split; [exact L|]. intros At. destruct (E At) as (P & Rc & Rs). destruct (Sw _ _ P) as [E1 E2]. rewrite E1 in Rc. rewrite E2 in Rs. destruct by_1; auto.
  - destruct (En _ V) as [L E]. split; [exact L|]. intros At. destruct (E At) as (P & Rc & Rs). destruct by_1; destruct (Sw _ _ P) as [E1 E2]; rewrite E1 in Rc; rewrite E2 in Rs; auto.
  - split; [|lia]. destruct Dc as [Ex|At]; [exact Ex|]. destruct (follows_stuck _ _ _ _ _ _ _ _ _ Sa Sb F' At) as (N & _).
    destruct (endless_sound _ _ _ _ _ _ V (tsteps_dsteps _ _ _ _ _ _ _ _ _ D)) as [e S]. destruct (N e S).
Qed.
