(** Packets longer than the read buffer, and the order of reception. *)
From Verif Require Import GoBase BaseProofs ParamsModel ParamsProofs MessagesModel WireSpec ParamsSpec MsgSpec MessagesProofs MessagesProofs2 TruncProofs
  AccessorProofs ConfigModel ConnModel ConnSpec ConnBase ConnInv ConnTrace CfgSpec ConnUser ConnCodec ConnMacro ConnStable.
From Coq Require Import Arith Lia.
Open Scope nat_scope.
Opaque max_value_len.

Lemma inq_step c l c' : step c l = Some c' ->
  (exists add, inq c' = inq c ++ add /\ reads (log c') = reads (log c)) \/
  (exists p q, inq c = p :: q /\ reads (log c') = reads (log c) ++ [firstn bufsize p] /\
     inq c' = match skipn bufsize p with [] => q | _ => skipn bufsize p :: q end).
Proof.
  intros S. apply step_stepR in S as [C S].
  assert (E0 : inq c = inq c ++ []) by now rewrite app_nil_r.
  destruct S; try (left; exists []; split; [exact E0|first [reflexivity | cb; rewrite ?reads_app; cbn [reads flat_map]; rewrite ?app_nil_r; reflexivity]]).
  - left. exists [p]. split; reflexivity.
  - left. exists []. rewrite state_update_eq. split; [exact E0|]. cb. rewrite reads_app. cbn [reads flat_map]. now rewrite app_nil_r.
  - left. exists []. bfields (set_dial DOk c). cb. split; congruence.
  - right. exists p, q. split; [assumption|]. cb. rewrite reads_app. split; reflexivity.
  - left. exists []. bfields (closing c). fields c. cb. split; [congruence|]. 
    match goal with H : log (broadcast _) = _ |- _ => rewrite H end. match goal with H : log (closing _) = _ |- _ => rewrite H end.
    rewrite reads_app. cbn [reads flat_map]. now rewrite app_nil_r.
  - left. exists []. destruct (hba c); split; try exact E0; reflexivity.
  - left. exists []. fields c. cb. split; [congruence|]. match goal with H : log (closing _) = _ |- _ => rewrite H end.
    rewrite reads_app. cbn [reads flat_map]. now rewrite app_nil_r.
  - left. exists []. split; [exact E0|]. cb. rewrite reads_app. destruct H0 as [->|[->|(o & e & _ & ->)]]; cbn [reads flat_map]; now rewrite app_nil_r.
Qed.

(** ** Specification: the pieces in which a packet is read *)
Fixpoint chop (fuel : nat) (p : list byte) : list (list byte) :=
  match fuel with
  | 0 => []
  | S f => firstn 1500 p :: match skipn 1500 p with [] => [] | r => chop f r end
  end.
Definition chunks (p : list byte) : list (list byte) := chop (S (length p)) p.
(** the packets that arrived, in order *)
Definition arrivals (ls : list label) : list (list byte) :=
  flat_map (fun l => match l with LArrive p => [p] | _ => [] end) ls.

Lemma chop_fuel f : forall g p, length p < f -> length p < g -> chop f p = chop g p.
Proof.
  induction f as [|f IH]; intros [|g] p L1 L2; try lia. cbn [chop]. f_equal.
  destruct (skipn 1500 p) as [|x r] eqn:E; [reflexivity|].
  assert (L : length (x :: r) < length p).
  { rewrite <- E, skipn_length. destruct p; [rewrite skipn_nil in E; discriminate|]. cbn [length]. lia. }
  apply IH; lia.
Qed.
Lemma chunks_eq p : chunks p = firstn 1500 p :: match skipn 1500 p with [] => [] | r => chunks r end.
Proof.
  unfold chunks at 1. cbn [chop]. f_equal. destruct (skipn 1500 p) as [|x r] eqn:E; [reflexivity|].
  assert (L : length (x :: r) < length p).
  { rewrite <- E, skipn_length. destruct p; [rewrite skipn_nil in E; discriminate|]. cbn [length]. lia. }
  unfold chunks. apply chop_fuel; lia.
Qed.
Lemma chunks_small p : length p <= 1500 -> chunks p = [p].
Proof. intros L. rewrite chunks_eq, firstn_all2, skipn_all2 by exact L. reflexivity. Qed.
Lemma concat_chunks p : concat (chunks p) = p.
Proof.
  remember (length p) as n eqn:N. revert p N. induction n as [n IH] using lt_wf_ind. intros p ->. rewrite chunks_eq. cbn [concat].
  rewrite <- (firstn_skipn 1500 p) at 3. f_equal. destruct (skipn 1500 p) as [|x r] eqn:E; [reflexivity|]. rewrite <- E. eapply IH; [|reflexivity].
  rewrite skipn_length. destruct p; [rewrite skipn_nil in E; discriminate|]. cbn [length]. lia.
Qed.
Lemma arrivals_app a b : arrivals (a ++ b) = arrivals a ++ arrivals b.
Proof. apply flat_map_app. Qed.

Lemma arrivals_step c l c' : step c l = Some c' ->
  (inq c' = inq c ++ arrivals [l] /\ reads (log c') = reads (log c)) \/
  (arrivals [l] = [] /\ exists p q, inq c = p :: q /\ reads (log c') = reads (log c) ++ [firstn bufsize p] /\
     inq c' = match skipn bufsize p with [] => q | _ => skipn bufsize p :: q end).
Proof.
  intros S. assert (D : (exists p, l = LArrive p) \/ arrivals [l] = []) by (destruct l; eauto).
  destruct D as [[p ->]|D].
  - left. unfold step in S. destruct (crash c); [discriminate|]. injection S as <-. split; reflexivity.
  - rewrite D. destruct (inq_step c l c' S) as [(add & A & B)|(p & q & H)]; [left|right; split; [reflexivity|exists p, q; exact H]].
    split; [|exact B]. rewrite app_nil_r. apply step_stepR in S as [_ S].
    destruct S; try reflexivity; try discriminate.
    + now rewrite state_update_eq.
    + bfields (set_dial DOk c). cb. congruence.
    + exfalso. cbn [log set_mon set_hs emit set_log set_inq] in B. rewrite reads_app in B. apply (f_equal (@length (list byte))) in B. rewrite app_length in B. cbn in B. lia.
    + bfields (closing c). fields c. cb. congruence.
    + now destruct (hba c).
    + fields c. cb. congruence.
Qed.
Lemma fifo_run c ls c' : run c ls = Some c' ->
  reads (log c') ++ flat_map chunks (inq c') = reads (log c) ++ flat_map chunks (inq c) ++ flat_map chunks (arrivals ls).
Proof.
  revert c'. induction ls as [|l ls IH] using rev_ind; intros c' R.
  - inversion R; subst. cbn [arrivals flat_map]. now rewrite app_nil_r.
  - apply run_snoc in R as (c1 & R1 & S). rewrite arrivals_app, flat_map_app, !app_assoc.
    rewrite <- (app_assoc (reads (log c))), <- (IH c1 R1). destruct (arrivals_step c1 l c' S) as [[-> ->]|(-> & p & q & E & -> & ->)].
    + rewrite flat_map_app, !app_assoc. reflexivity.
    + rewrite E. cbn [flat_map]. rewrite app_nil_r, chunks_eq. change bufsize with 1500. rewrite <- !app_assoc. f_equal. cbn [app]. f_equal.
      destruct (skipn 1500 p); reflexivity.
Qed.
Lemma fifo m g o ls c : run (start m g o) ls = Some c ->
  flat_map chunks (arrivals ls) = reads (log c) ++ flat_map chunks (inq c).
Proof. intros R. rewrite (fifo_run _ _ _ R). reflexivity. Qed.

(** ** Packets longer than the buffer *)
Lemma body_of_bound l : Forall sized l -> (N.of_nat (length (body_of l)) <= 65540 * N.of_nat (length l))%N.
Proof.
  induction 1 as [|[t v] l [_ H] Hl IH]; [reflexivity|]. change (body_of ((t, v) :: l)) with (tlv t v ++ body_of l).
  rewrite app_length, tlv_length. cbn [snd length] in *. apply max_value_len_spec in H. unfold pad_len. lia.
Qed.
(** the encoding of a DATA message *)
Lemma user_data_packet g b bs : cfg_ok g -> (N.of_nat (length b) <= 65519)%N -> encodes (user_data g b) bs ->
  exists len l, (len < 4294967296)%N /\ Forall sized l /\ Forall (fun x => In (fst x) (rfc_params DATA)) l /\
    bs = packet x01 x00 (rfc_class DATA) (rfc_type DATA) len (body_of l).
Proof.
  intros (_ & _ & Ona & Orc & Oco & O1 & O2) L En.
  set (pd := NewProtocolData (cf_opc g) (cf_dpc g) (cf_si g) (cf_ni g) (cf_mp g) (cf_sls g) b).
  assert (Op : slot_ok 0x210 (Some pd)).
  { split.
    - unfold pd. rewrite NewProtocolData_eq. reflexivity.
    - unfold pd. rewrite NewProtocolData_data. apply max_value_len_spec. lia. }
  destruct (NewData_rt (cf_na g) (cf_rc g) (Some pd) (cf_corr g)) as (t & E & _).
  { repeat (apply Forall2_cons; auto); auto. }
  set (ps := present [cf_na g; cf_rc g; Some pd; cf_corr g]) in *.
  assert (Q : Forall (fun p => In (p_tag p) (rfc_params DATA) /\ length (p_data p) <= max_value_len) ps).
  { unfold ps, present. cbn [flat_map]. 
    assert (One : forall tag o, In tag (rfc_params DATA) -> slot_ok tag o ->
      Forall (fun p => In (p_tag p) (rfc_params DATA) /\ length (p_data p) <= max_value_len) (match o with Some p => [p] | None => [] end)).
    { intros tag [p|] I S; [|constructor]. destruct S as [<- S]. constructor; auto. }
    apply Forall_app; split; [apply (One 0x200%N); [cbn; auto|exact Ona]|].
    apply Forall_app; split; [apply (One 6%N); [cbn; auto|exact Orc]|].
    apply Forall_app; split; [apply (One 0x210%N (Some pd)); [cbn; auto|exact Op]|].
    apply Forall_app; split; [apply (One 19%N); [cbn; auto|exact Oco]|constructor]. }
  assert (T : Forall sized (map tv ps) /\ Forall (fun x => In (fst x) (rfc_params DATA)) (map tv ps)).
  { split; apply Forall_map; refine (Forall_impl _ _ Q); intros p [I S]; cbn [tv fst snd].
    - split; cbn [tv fst snd]; [|exact S]. now apply rfc_tag_hi in I.
    - exact I. }
  exists (N.of_nat (8 + length (body_for ps))), (map tv ps). repeat split; try apply T.
  - pose proof (body_of_bound (map tv ps) (proj1 T)) as B. unfold body_for. rewrite map_length in B.
    assert (length ps <= 4) by (unfold ps; destruct (cf_na g), (cf_rc g), (cf_corr g); cbn; lia). lia.
  - destruct En as [m' En]. unfold user_data in En. fold pd in En. rewrite E in En. injection En as _ <-. reflexivity.
Qed.

(** a DATA packet that does not fit is received as two pieces, one of which is invalid *)
Lemma oversized g b bs : cfg_ok g -> (N.of_nat (length b) <= 65519)%N -> data_overhead g + length b > 1500 -> encodes (user_data g b) bs ->
  (forall m, ~ valid (firstn 1500 bs) m) \/ (forall m, ~ valid (firstn 1500 (skipn 1500 bs)) m).
Proof.
  intros Ok L Big En. assert (Lb : 1500 < length bs) by (rewrite (user_data_len _ _ _ En); lia).
  destruct (user_data_packet g b bs Ok L En) as (len & l & Hl & S & P & E). rewrite E in *.
  destruct (pieces DATA len l 1500 Hl S P) as [A|A]; [lia|reflexivity|exact Lb| |].
  - left. intros m [H _]. exact (A m H).
  - right. intros m [H V]. exact (A m H V).
Qed.
Lemma oversized_last g b bs c q ls c' : cfg_ok g -> (N.of_nat (length b) <= 65519)%N -> data_overhead g + length b > 1500 ->
  encodes (user_data g b) bs -> reachable c -> inq c = bs :: q -> run c ls = Some c' ->
  exists k, k <= 2 /\ reads (log c') = reads (log c) ++ firstn k (chunks bs).
Proof.
  intros Ok L Big En R Q Run. pose proof (fifo_run _ _ _ Run) as F. rewrite Q in F. cbn [flat_map] in F. rewrite <- app_assoc in F.
  destruct (log_prefix _ _ _ Run) as [es Lg]. rewrite Lg, reads_app in *. rewrite <- app_assoc in F. apply app_inv_head in F.
  assert (Lb : 1500 < length bs) by (rewrite (user_data_len _ _ _ En); lia).
  assert (Ch : exists rest, chunks bs = firstn 1500 bs :: firstn 1500 (skipn 1500 bs) :: rest).
  { rewrite chunks_eq. destruct (skipn 1500 bs) as [|x r] eqn:E.
    - apply (f_equal (@length byte)) in E. rewrite skipn_length in E. cbn [length] in E. lia.
    - rewrite chunks_eq. eexists. reflexivity. }
  destruct Ch as [rest Ch]. rewrite Ch in *. cbn [app] in F.
  assert (R' : reachable c') by (eapply reachable_run; eauto).
  destruct (reads es) as [|x [|y more]] eqn:Es.
  - exists 0. split; [lia|reflexivity].
  - exists 1. cbn [app] in F. injection F as -> _. split; [lia|reflexivity].
  - exists 2. cbn [app] in F. injection F as -> -> _. cbn [firstn]. split; [lia|]. do 3 f_equal.
    assert (Lr : reads (log c') = reads (log c) ++ firstn 1500 bs :: firstn 1500 (skipn 1500 bs) :: more) by (rewrite Lg, reads_app, Es; reflexivity).
    destruct (oversized g b bs Ok L Big En) as [A|A].
    + pose proof (invalid_last c' _ _ _ R' Lr A). discriminate.
    + apply (invalid_last c' (reads (log c) ++ [firstn 1500 bs]) (firstn 1500 (skipn 1500 bs)) more R'); [|exact A].
      rewrite Lr, <- app_assoc. reflexivity.
Qed.
