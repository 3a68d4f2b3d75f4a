(** User data from the Write of one endpoint to the Read of the other. *)
From Verif Require Import GoBase BaseProofs ParamsModel MessagesModel WireSpec ParamsSpec MsgSpec MessagesProofs MessagesProofs2 ConfigModel
  ConnModel CfgSpec ConnSpec ConnBase ConnInv ConnTrace ConnUser ConnCodec ConnMore ConnStable ConnData ConnPair ConnPieces.
From Coq Require Import Arith Lia Permutation.
Open Scope nat_scope.
Opaque max_value_len.

(** ** Specification *)
(** the calls made in an execution; call i is [nth_error (calls ls) i], its progress [nth_error (us c) i] *)
Definition calls (ls : list label) : list uop := flat_map (fun l => match l with LCall op => [op] | _ => [] end) ls.
(** calls other than WritePD, WritePDToStream and WriteSignal *)
Definition plain (op : uop) : Prop :=
  match op with OpWritePD _ _ | OpWritePDTo _ _ | OpWriteSignal _ => False | _ => True end.
(** the buffer of a call that returned a count of octets written *)
Definition accepted1 (x : uop * upc) : list (list byte) :=
  match x with (OpWrite b _, UDone (RWrote _)) | (OpWriteTo b _, UDone (RWrote _)) => [b] | _ => [] end.
Definition accepted (ops : list uop) (us : list upc) : list (list byte) := flat_map accepted1 (List.combine ops us).
(** the payload with user data b and the labels of the configuration *)
Definition pd_of (g : config) (b : list byte) : pdpayload := mkPD (cf_opc g) (cf_dpc g) (cf_si g) (cf_ni g) (cf_mp g) (cf_sls g) b.

(** ** What the sender sends *)
Definition upackets (l : list event) : list (list byte) :=
  flat_map (fun e => match e with ESend (OUser _) _ _ b => [b] | _ => [] end) l.
Definition matches (g : config) (op : uop) (u : upc) : Prop :=
  match op with
  | OpWrite x _ | OpWriteTo x _ =>
      match u with
      | UGo (OpWrite y _) | UGo (OpWriteTo y _) => y = x
      | USend _ m => m = data_msg g x
      | UDone (RWrote _) | UDone RNotEstablished | UDone RWriteError => True
      | _ => False
      end
  | _ => match u with
         | UGo (OpRead _) | UGo OpReadPD | UGo OpClose | UGo OpState | URecv _ => True
         | UDone (RWrote _) => False
         | UDone _ => True
         | _ => False
         end
  end.
Lemma Forall2_upd {A B} (R : A -> B -> Prop) la lb : Forall2 R la lb -> forall i b, (forall a, nth_error la i = Some a -> R a b) -> Forall2 R la (upd lb i b).
Proof.
  induction 1 as [|x y la lb H F IH]; intros i b N; [destruct i; constructor|]. destruct i as [|i]; cbn [upd].
  - constructor; auto.
  - constructor; auto.
Qed.
Lemma Forall2_nth {A B} (R : A -> B -> Prop) la lb : Forall2 R la lb -> forall i b, nth_error lb i = Some b -> exists a, nth_error la i = Some a /\ R a b.
Proof. induction 1 as [|x y la lb H F IH]; intros [|i] b N; cbn in *; try discriminate; [injection N as <-; eauto|eauto]. Qed.
Lemma accepted_upd ops : forall us i op u v, nth_error ops i = Some op -> nth_error us i = Some u -> accepted1 (op, u) = [] ->
  Permutation (accepted ops (upd us i v)) (accepted1 (op, v) ++ accepted ops us).
Proof.
  induction ops as [|o ops IH]; intros us i op u v No Nu E; [destruct i; discriminate|].
  destruct us as [|w us]; [destruct i; discriminate|]. unfold accepted in *. destruct i as [|i]; cbn [nth_error upd List.combine flat_map] in *.
  - injection No as ->. injection Nu as ->. rewrite E. reflexivity.
  - rewrite (IH us i op u v No Nu E). rewrite !app_assoc. apply Permutation_app_tail, Permutation_app_comm.
Qed.
Lemma accepted_same ops us i op u v : nth_error ops i = Some op -> nth_error us i = Some u -> accepted1 (op, u) = [] -> accepted1 (op, v) = [] ->
  Permutation (accepted ops (upd us i v)) (accepted ops us).
Proof. intros No Nu E1 E2. rewrite (accepted_upd ops us i op u v No Nu E1), E2. reflexivity. Qed.
Lemma accepted_new ops us op : length ops = length us -> accepted (ops ++ [op]) (us ++ [UGo op]) = accepted ops us.
Proof.
  unfold accepted. revert us. induction ops as [|o ops IH]; intros [|u us] L; try discriminate; cbn [app List.combine flat_map].
  - destruct op; reflexivity.
  - rewrite IH by now injection L. reflexivity.
Qed.
Lemma upackets_app a b : upackets (a ++ b) = upackets a ++ upackets b.
Proof. apply flat_map_app. Qed.

Definition sender (ops : list uop) (c : conn) : Prop :=
  Forall2 (matches (cfg c)) ops (us c) /\
  exists bufs, Permutation bufs (accepted ops (us c)) /\ Forall2 (fun x b => encodes (data_msg (cfg c) x) b) bufs (upackets (log c)).
Lemma sender_same ops c c' es : sender ops c -> cfg c' = cfg c -> us c' = us c -> log c' = log c ++ es -> upackets es = [] -> sender ops c'.
Proof. intros (F & bufs & P & E) G U L Es. unfold sender. rewrite G, U, L, upackets_app, Es, app_nil_r. eauto. Qed.
Lemma sender_call ops c c' es i op u v : sender ops c -> cfg c' = cfg c -> us c' = upd (us c) i v -> log c' = log c ++ es -> upackets es = [] ->
  nth_error ops i = Some op -> nth_error (us c) i = Some u -> accepted1 (op, u) = [] -> accepted1 (op, v) = [] -> matches (cfg c) op v -> sender ops c'.
Proof.
  intros (F & bufs & P & E) G U L Es No Nu A1 A2 M. unfold sender. rewrite G, U, L, upackets_app, Es, app_nil_r. split.
  - apply Forall2_upd; auto. intros a Na. congruence.
  - exists bufs. split; auto. now rewrite (accepted_same ops (us c) i op u v).
Qed.
Lemma sender_step ops c l c' : sender ops c -> crash c = None -> stepR c l c' -> (forall op, l <> LCall op) -> sender ops c'.
Proof.
  intros H C S Nl.
  assert (Same : forall c2 es, cfg c2 = cfg c -> us c2 = us c -> log c2 = log c ++ es -> upackets es = [] -> sender ops c2) by (intros; eapply sender_same; eauto).
  assert (Same0 : forall c2, cfg c2 = cfg c -> us c2 = us c -> log c2 = log c -> sender ops c2) by (intros; apply (Same c2 []); auto; now rewrite app_nil_r).
  assert (Op : forall i u, nth_error (us c) i = Some u -> exists op, nth_error ops i = Some op /\ matches (cfg c) op u) by (intros; eapply Forall2_nth; eauto; apply H).
  assert (Call : forall i u v op c2 es, nth_error (us c) i = Some u -> nth_error ops i = Some op -> cfg c2 = cfg c -> us c2 = upd (us c) i v ->
    log c2 = log c ++ es -> upackets es = [] -> accepted1 (op, u) = [] -> accepted1 (op, v) = [] -> matches (cfg c) op v -> sender ops c2) by (intros; eapply sender_call; eauto).
  assert (Call0 : forall i u v op c2, nth_error (us c) i = Some u -> nth_error ops i = Some op -> cfg c2 = cfg c -> us c2 = upd (us c) i v ->
    log c2 = log c -> accepted1 (op, u) = [] -> accepted1 (op, v) = [] -> matches (cfg c) op v -> sender ops c2)
    by (intros; eapply (Call i u v op c2 []); eauto; now rewrite app_nil_r).
  destruct S; cb;
    try solve [apply Same0; cb; reflexivity | eapply Same; cb; rewrite <- ?app_assoc; cbn [app]; reflexivity];
    try (match goal with N : nth_error (us c) _ = Some _ |- _ => destruct (Op _ _ N) as (op0 & No & M) end).
  all: try solve [destruct op0; cbn [matches] in M; try contradiction; (eapply Call0; [eassumption|exact No|reflexivity|reflexivity|reflexivity|reflexivity|reflexivity|cbn [matches]; auto])].
  - rewrite state_update_eq. apply (Same _ [EUpd s]); reflexivity.
  - bfields (set_dial DOk c). cb. apply Same0; cb; congruence.
  - fields c. bfields (closing c). apply (Same _ [EClosed]); [cb; congruence|cb; congruence|cb; congruence|reflexivity].
  - destruct (hba c); apply Same0; reflexivity.
  - exfalso. eapply Nl; reflexivity.
  - destruct op; try discriminate; injection H1 as <-; destruct op0; cbn [matches] in M; try contradiction; subst;
      (eapply Call0; [eassumption|exact No|reflexivity|reflexivity|reflexivity|reflexivity|reflexivity|cbn [matches]; auto]).
  - fields c. destruct op0; cbn [matches] in M; try contradiction;
      (eapply (Call i _ (UDone (RClosed (sopen c))) _ _ [EClosed]); [eassumption|exact No|cb; congruence|cb; congruence|cb; congruence|reflexivity|reflexivity|reflexivity|exact Logic.I]).
  - destruct op0; cbn [matches] in M; try contradiction;
      (eapply (Call i _ (UDone (read_result buf pd)) _ _ [EDeliver pd]); [eassumption|exact No|reflexivity|reflexivity|reflexivity|reflexivity|reflexivity|destruct buf; reflexivity|destruct buf; exact Logic.I]).
  - assert (exists x, M = M /\ m = data_msg (cfg c) x /\ accepted1 (op0, USend s m) = [] /\ (forall n, accepted1 (op0, UDone (RWrote n)) = [x]) /\
      (forall n, matches (cfg c) op0 (UDone (RWrote n)))) as (x & _ & Em & A1 & A2 & M').
    { destruct op0; cbn [matches] in M; try contradiction; (eexists; split; [reflexivity|]; split; [exact M|]; repeat split; reflexivity). }
    destruct H as (F & bufs & P & E). split; cb.
    + apply Forall2_upd; auto. intros a Na. replace a with op0 by congruence. apply M'.
    + exists (bufs ++ [x]). rewrite upackets_app. split.
      * rewrite (accepted_upd ops (us c) i op0 _ _ No H0 A1), A2, P. apply Permutation_app_comm.
      * apply Forall2_app; auto. cbn. constructor; auto. exists m'. congruence.
  - match goal with K : _ \/ _ \/ _ |- _ => destruct K as [->|[->|(o & e & _ & ->)]] end; eapply Same; reflexivity.
Qed.
Lemma Forall2_len {A B} (R : A -> B -> Prop) la lb : Forall2 R la lb -> length la = length lb.
Proof. induction 1; cbn; auto. Qed.
Lemma calls_app a b : calls (a ++ b) = calls a ++ calls b.
Proof. apply flat_map_app. Qed.
Lemma sender_run m g o ls : forall c, run (start m g o) ls = Some c -> Forall plain (calls ls) -> sender (calls ls) c.
Proof.
  induction ls as [|l ls IH] using rev_ind; intros c R F.
  - inversion R; subst. split; [constructor|]. exists []. split; constructor.
  - apply run_snoc in R as (c1 & R1 & S). rewrite calls_app in *. apply Forall_app in F as [F1 F2]. specialize (IH c1 R1 F1).
    assert (D : (exists op, l = LCall op) \/ (forall op, l <> LCall op)) by (destruct l; try (right; discriminate); left; eauto).
    destruct D as [(op & ->)|Nl].
    + cbn [calls flat_map app] in *. inversion F2 as [|? ? Pl _]; subst.
      unfold step in S. destruct (crash c1); [discriminate|]. destruct (dial c1); inversion S; subst; clear S.
      destruct IH as (M & bufs & P & E). split; cb.
      * apply Forall2_app; auto. constructor; auto. destruct op; cbn [matches plain] in *; auto; contradiction.
      * exists bufs. split; auto. rewrite accepted_new; auto. eapply Forall2_len; eauto.
    + replace (calls [l]) with (@nil uop) by (destruct l; try reflexivity; exfalso; eapply Nl; reflexivity). rewrite app_nil_r.
      destruct (step_stepR _ _ _ S) as [C S']. eapply sender_step; eauto.
Qed.

(** ** Signalling carries no payload *)
Lemma data_octets b t : Parse b = Ok (Typed t) -> m_kind t = KData -> N.lor ((16 * fst (octets b)) mod 256) (snd (octets b)) = 17%N.
Proof.
  intros P K. destruct (Nat.lt_ge_cases (length b) 8) as [L|L].
  - exfalso. rewrite (Parse_short b L) in P. discriminate.
  - destruct (packet_of_8 b L) as (v & r & c & ty & len & body & Hl & ->).
    apply (proj1 (Parse_typed_iff v r c ty len body DATA Hl _ P)). exists t. split; auto.
Qed.

Lemma no_payload b : N.lor ((16 * fst (octets b)) mod 256) (snd (octets b)) <> 17%N -> payload b = [].
Proof.
  intros N. unfold payload. destruct (Parse b) as [[t|g]| |] eqn:P; auto. unfold sig_payload, msg_payload.
  destruct (m_kind t) eqn:K; destruct (b2n _ =? 1)%N; auto. exfalso. apply N. eapply data_octets; eauto.
Qed.
Lemma lor_six x : N.lor x 6 <> 17%N.
Proof. intros E. apply (f_equal (fun n => N.testbit n 1)) in E. rewrite N.lor_spec in E. cbn in E. now rewrite orb_true_r in E. Qed.
Lemma signal_payload c o s m b : reachable c -> In (ESend o s m b) (log c) -> by_user o = false -> payload b = [].
Proof.
  intros R I U. apply in_split in I as (l1 & l2 & E). apply no_payload. destruct o as [|i|i| |i]; try discriminate.
  - destruct (mon_sends _ _ _ _ _ _ R E) as (_ & En & [(l0 & x & l3 & _ & In & _)|(l0 & o & e & l3 & _ & A & _)]).
    + unfold initial in In. destruct (mode c), x; inversion In; subst; rewrite (new_msg_octets _ _ _ En); cbn; discriminate.
    + rewrite (answers_octets _ _ _ _ A En). cbn. discriminate.
  - destruct (reply_justified _ _ _ _ _ _ _ R E) as (_ & _ & _ & raw & t & sts & _ & _ & T & K & _).
    unfold ack_octets in K. destruct (m_kind t); try discriminate K; apply (f_equal (fun x => match x with Some y => y | None => (0, 0)%N end)) in K; cbn iota beta in K; rewrite K;
      try (cbn; discriminate). cbn [snd]. apply lor_six.
  - destruct (trace_reachable c R) as [h H]. destruct (history_split _ _ _ _ _ _ _ H E) as (ha & he & _ & S & _). inversion S.
  - destruct (trace_reachable c R) as [h H]. destruct (history_split _ _ _ _ _ _ _ H E) as (ha & he & _ & S & _). inversion S; subst.
    match goal with B : encodes (beat _) _ |- _ => rewrite (beat_octets _ _ B) end. cbn. discriminate.
Qed.
Lemma packets_payload l : (forall o s m b, In (ESend o s m b) l -> by_user o = false -> payload b = []) ->
  flat_map payload (packets l) = flat_map payload (upackets l).
Proof.
  induction l as [|e l IH]; intros H; [reflexivity|]. unfold packets, upackets. cbn [flat_map]. fold (packets l). fold (upackets l).
  rewrite !flat_map_app, IH by (intros; eapply H; [right|]; eauto). f_equal. destruct e; auto. destruct o; auto; cbn [flat_map]; rewrite app_nil_r; (eapply H; [left; reflexivity|reflexivity]).
Qed.
Lemma data_payload g b bs : cfg_ok g -> encodes (data_msg g b) bs -> length bs <= 1500 -> payload bs = [pd_of g b].
Proof.
  intros Ok E L. change (data_msg g b) with (user_data g b) in E. apply (data_fits _ _ _ E) in L.
  assert (Lb : (N.of_nat (length b) <= 65519)%N) by lia.
  destruct (payload_delivered g b Ok Lb) as (bs' & t & p & E' & (P & V) & K & Fp & Pd). rewrite (encodes_fun _ _ _ E E').
  unfold payload. rewrite P. unfold sig_payload. rewrite V. unfold msg_payload. rewrite K, Fp, Pd. reflexivity.
Qed.
Lemma upackets_in l b : In b (upackets l) -> In b (packets l).
Proof.
  intros I. unfold upackets, packets in *. apply in_flat_map in I as (e & Ie & Ib). apply in_flat_map. exists e. split; auto.
  destruct e; auto. destruct o; auto; contradiction.
Qed.
Lemma sent_payloads m g o ls c : run (start m g o) ls = Some c -> cfg_ok g -> Forall plain (calls ls) -> Forall (fun b => length b <= 1500) (packets (log c)) ->
  Permutation (flat_map payload (packets (log c))) (map (pd_of g) (accepted (calls ls) (us c))).
Proof.
  intros R Ok Pl Sz. destruct (sender_run m g o ls c R Pl) as (_ & bufs & P & E).
  destruct (static_run _ _ _ R) as (_ & G & _). cbn [cfg start] in G.
  rewrite packets_payload by (intros; eapply signal_payload; eauto; exists m, g, o, ls; exact R).
  assert (Sz' : Forall (fun b => length b <= 1500) (upackets (log c))).
  { apply Forall_forall. intros b I. eapply Forall_forall in Sz; [exact Sz|]. now apply upackets_in. }
  rewrite <- P, <- G. rewrite <- G in Ok. clear - E Sz' Ok. induction E as [|x b l1 l2 H E IH]; [constructor|].
  inversion Sz'; subst. cbn [flat_map map]. rewrite (data_payload _ _ _ Ok H) by assumption. cbn [app]. constructor. auto.
Qed.

(** ** What the receiver delivers *)
Lemma chunks_all l : Forall (fun b => length b <= 1500) l -> flat_map chunks l = l.
Proof. induction 1 as [|b l H F IH]; [reflexivity|]. cbn [flat_map]. rewrite chunks_small by exact H. cbn. now rewrite IH. Qed.
Lemma read_arrived m g o ls c : run (start m g o) ls = Some c -> Forall (fun b => length b <= 1500) (arrivals ls) ->
  exists r, arrivals ls = reads (log c) ++ r /\ (inq c = [] -> r = []).
Proof.
  intros R F. pose proof (fifo _ _ _ _ _ R) as E. rewrite (chunks_all _ F) in E. exists (flat_map chunks (inq c)). split; auto. now intros ->.
Qed.
Lemma perm_flat_map {A B} (f : A -> list B) l l' : Permutation l l' -> Permutation (flat_map f l) (flat_map f l').
Proof. apply Permutation_flat_map. Qed.

Definition connected (lsB : list label) (a : conn) (lost : list (list byte)) : Prop :=
  Permutation (arrivals lsB ++ lost) (packets (log a)).
Lemma arrived_small lsB a lost : connected lsB a lost -> Forall (fun b => length b <= 1500) (packets (log a)) -> Forall (fun b => length b <= 1500) (arrivals lsB).
Proof.
  intros P F. assert (G : Forall (fun b => length b <= 1500) (arrivals lsB ++ lost)) by (eapply Permutation_Forall; [symmetry; exact P|exact F]).
  apply Forall_app in G. apply G.
Qed.
Lemma end_to_end_sub ma ga oa lsa a mb gb ob lsb b lost :
  run (start ma ga oa) lsa = Some a -> run (start mb gb ob) lsb = Some b -> cfg_ok ga -> Forall plain (calls lsa) ->
  Forall (fun p => length p <= 1500) (packets (log a)) -> connected lsb a lost ->
  exists rest, Permutation (delivered (log b) ++ rest) (map (pd_of ga) (accepted (calls lsa) (us a))).
Proof.
  intros Ra Rb Ok Pl Sz Co. destruct (read_arrived _ _ _ _ _ Rb (arrived_small _ _ _ Co Sz)) as (r & E & _).
  destruct (no_invention b) as [r1 P1]; [exists mb, gb, ob, lsb; exact Rb|].
  exists (r1 ++ flat_map payload (r ++ lost)). eapply Permutation_trans; [|apply (sent_payloads _ _ _ _ _ Ra Ok Pl Sz)].
  rewrite app_assoc, P1, <- flat_map_app, app_assoc, <- E. apply perm_flat_map. exact Co.
Qed.
Lemma end_to_end_all ma ga oa lsa a mb gb ob lsb b :
  run (start ma ga oa) lsa = Some a -> run (start mb gb ob) lsb = Some b -> cfg_ok ga -> Forall plain (calls lsa) ->
  Forall (fun p => length p <= 1500) (packets (log a)) -> connected lsb a [] ->
  crash b = None -> ctxd b = false -> mon b = MRead -> Forall (fun d => d = DDone) (ds b) -> inq b = [] ->
  Permutation (delivered (log b) ++ dq b ++ refused_data (log b)) (map (pd_of ga) (accepted (calls lsa) (us a))).
Proof.
  intros Ra Rb Ok Pl Sz Co C X M D Q. destruct (read_arrived _ _ _ _ _ Rb (arrived_small _ _ _ Co Sz)) as (r & E & Er). rewrite (Er Q), app_nil_r in E.
  eapply Permutation_trans; [apply nothing_lost; auto; exists mb, gb, ob, lsb; exact Rb|].
  eapply Permutation_trans; [|apply (sent_payloads _ _ _ _ _ Ra Ok Pl Sz)]. rewrite <- E. apply perm_flat_map. unfold connected in Co. now rewrite app_nil_r in Co.
Qed.
