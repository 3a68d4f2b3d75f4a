(** Two established endpoints whose users only read and write data. *)
From Verif Require Import GoBase BaseProofs ParamsModel MessagesModel WireSpec ParamsSpec MsgSpec MessagesProofs MessagesProofs2 ConfigModel
  ConnModel CfgSpec ConnSpec ConnBase ConnInv ConnTrace ConnUser ConnCodec ConnMore ConnStable ConnData ConnPair ConnPieces ConnE2E DialogSpec ConnDialog ConnDuo TalkSpec.
From Coq Require Import Arith Lia Permutation.
Open Scope nat_scope.
Opaque max_value_len.

(** ** Packets that carry data *)
Definition carried (g : config) (raw : list byte) : Prop := exists b, data_overhead g + length b <= 1500 /\ encodes (user_data g b) raw.
Definition good (t : msg) : Prop := m_kind t = KData /\ exists p pd, fget FProtocolData (m_f t) = Some p /\ ProtocolData p = Ok pd.
Lemma carried_valid g raw : cfg_ok g -> carried g raw -> length raw <= 1500 /\ exists t, valid raw (Typed t) /\ good t.
Proof.
  intros Ok (b & L & E). split; [apply (data_fits g b raw E); exact L|].
  destruct (payload_delivered g b Ok) as (bs & t & p & E' & V & K & F & P); [lia|].
  assert (bs = raw) by (destruct E as [m1 E1], E' as [m2 E2]; congruence). subst bs. exists t. split; [exact V|]. split; [exact K|]. eauto.
Qed.

(** ** One endpoint *)
Definition okd (d : dpc) : Prop := match d with DCheck t | DPd t => good t | DSend _ | DDone => True | DErr _ => False end.
Definition wd (d : dpc) : nat := match d with DCheck _ => 3 | DPd _ => 2 | DSend _ => 1 | _ => 0 end.
Definition wu (u : upc) : nat :=
  match u with
  | UGo (OpWrite _ _) => 13 | UGo (OpWriteTo _ _) => 12 | USend _ _ => 11
  | UGo (OpRead _) | UGo OpReadPD => 2 | URecv _ => 1 | UGo OpState => 1 | _ => 0
  end.
Definition oku (g : config) (ms : N) (op : uop) (u : upc) : Prop :=
  match op with
  | OpWrite b rnd => u = UGo (OpWrite b rnd) /\ (ms = 1%N \/ (rnd < ms)%N) \/ (exists s, u = UGo (OpWriteTo b s)) \/ (exists s, u = USend s (user_data g b)) \/ (exists n, u = UDone (RWrote n))
  | OpWriteTo b s => u = UGo (OpWriteTo b s) \/ (exists s, u = USend s (user_data g b)) \/ (exists n, u = UDone (RWrote n))
  | OpRead buf => u = UGo (OpRead buf) \/ u = URecv (Some buf) \/ (exists pd, u = UDone (read_result (Some buf) pd))
  | OpReadPD => u = UGo OpReadPD \/ u = URecv None \/ (exists pd, u = UDone (RPD pd))
  | OpState => u = UGo OpState \/ u = UDone (RState Active)
  | _ => False
  end /\ Forall (fun b => data_overhead g + length b <= 1500) (written [op]).
Inductive chore : list instr -> nat -> Prop :=
| C_st : chore [ISt Active] 1
| C_cur : chore [ICur] 2
| C_sig t : b2n (Version (Typed t)) = 1%N -> good t -> chore [ISig (Typed t)] 6
| C_parse raw t : valid raw (Typed t) -> good t -> chore [IParse raw] 7.
Inductive work : mpc -> list (list instr) -> nat -> Prop :=
| W_read l : idle l -> work MRead l 0
| W_upd l : idle l -> work (MUpd Active) l 1
| W_hand l il w : idle l -> chore il w -> work MSelect (l ++ [il]) (1 + w).
Definition calm_event (e : event) : Prop := match e with ERefused _ _ | EClosed => False | EUpd s => s = Active | _ => True end.
(** the heartbeat goroutine, which has nothing to do *)
Definition hv (h : bpc) : nat := match h with BStart | BRun => 1 | _ => 0 end.
Fixpoint total {A} (f : A -> nat) (l : list A) : nat := match l with [] => 0 | x :: l => f x + total f l end.

Record carry (g g' : config) (ops : list uop) (c : conn) (w : nat) : Prop := {
  cy_cfg : cfg c = g; cy_crash : crash c = None; cy_closed : closed c = false; cy_ctx : ctxd c = false; cy_open : sopen c = true;
  cy_state : state c = Active; cy_dial : dial c = DOk; cy_ini : ini c = false; cy_hb : hq (hb c);
  cy_inq : Forall (carried g') (inq c); cy_ds : Forall okd (ds c); cy_us : Forall2 (oku g (maxs c)) ops (us c);
  cy_work : exists x, work (mon c) (hs c) x /\ w = x + 9 * length (inq c) + total wd (ds c) + total wu (us c) + hv (hb c) }.

Lemma total_app {A} (f : A -> nat) l l' : total f (l ++ l') = total f l + total f l'.
Proof. induction l as [|x l IH]; cbn [app total]; [reflexivity|rewrite IH; lia]. Qed.
Lemma total_upd {A} (f : A -> nat) l : forall i x y, nth_error l i = Some x -> total f (upd l i y) + f x = total f l + f y.
Proof. induction l as [|z l IH]; intros [|i] x y N; cbn [nth_error upd total] in *; try discriminate; [injection N as ->; lia|]. specialize (IH i x y N). lia. Qed.
Lemma Forall_upd {A} (P : A -> Prop) l i x : Forall P l -> P x -> Forall P (upd l i x).
Proof. intros F Px. revert i. induction F as [|y l Py F IH]; intros [|i]; cbn [upd]; constructor; auto. Qed.
Lemma Forall2_upd_nth {A B} (R : A -> B -> Prop) la lb i a b : Forall2 R la lb -> nth_error la i = Some a -> R a b -> Forall2 R la (upd lb i b).
Proof. intros F N H. apply Forall2_upd; [exact F|]. intros a' N'. congruence. Qed.

Lemma read_any (p : list byte) : length p <= 1500 -> firstn bufsize p = p /\ skipn bufsize p = [].
Proof. intros L. unfold bufsize. split; [now apply firstn_all2|now apply skipn_all2]. Qed.

(** labels that can occur *)
Lemma carry_labels g g' ops c w l c' : hb_on g = false -> carry g g' ops c w -> fair l -> step c l = Some c' ->
  l = LMon true \/ (exists i, l = LHand i true) \/ (exists i, l = LData i) \/ l = LHb true \/ (exists i, l = LUser i true).
Proof.
  intros Ho [G Cr K X So St D I H _ _ _ _] [B Nf] S. unfold step in S. rewrite Cr in S.
  destruct l; try contradiction; try rewrite I in S; try rewrite X in S; try rewrite D in S; try rewrite K in S; eauto 6.
  - discriminate.
  - destruct ok; [auto|contradiction].
  - destruct (mon c); discriminate.
  - destruct ok; [eauto|contradiction].
  - destruct (nth_error (ds c) i) as [[]|]; discriminate.
  - destruct ok; [auto|contradiction].
  - destruct (hb c); cbn in H; try contradiction; discriminate.
  - destruct (hb c); cbn in H; try contradiction; discriminate.
  - destruct (hb c); cbn in H; try contradiction; discriminate.
  - discriminate.
  - destruct ok; [eauto 7|]. exfalso. eapply Nf. reflexivity.
Qed.


(** what a step does to an endpoint *)
Definition advances (g g' : config) (ops : list uop) (c c' : conn) (w : nat) : Prop :=
  exists es w', carry g g' ops c' w' /\ log c' = log c ++ es /\ Forall calm_event es /\ Forall (carried g) (packets es) /\ w' + 10 * length (packets es) < w.

Lemma carry_mon g g' ops c w c' : cfg_ok g' -> carry g g' ops c w -> step c (LMon true) = Some c' -> advances g g' ops c c' w.
Proof.
  intros Ok' Cy S. pose proof Cy as [G Cr K X So St D I H Fi Fd Fu (x & W & Ew)]. unfold step in S. rewrite Cr in S. unfold step_mon in S.
  inversion W as [l Il Em Eh Ex|l Il Em Eh Ex|l il y Il Ch Em Eh Ex]; subst x; rewrite <- Em in S.
  - rewrite So in S. cbn [andb] in S. destruct (inq c) as [|p q] eqn:Q; [discriminate|]. inversion Fi as [|? ? Cp Fq]; subst.
    destruct (carried_valid _ _ Ok' Cp) as (Lp & t & V & Gt). destruct (read_any p Lp) as [R1 R2]. rewrite R1, R2 in S. apply some_inj in S. subst c'.
    exists [ERead p]. eexists. split; [split; cb; try eassumption; try reflexivity|].
    + eexists. split; [|reflexivity]. apply (W_hand (hs c) [IParse p] 7); [exact Il|]. eapply C_parse; eauto.
    + split; [reflexivity|]. split; [repeat constructor|]. split; [constructor|]. cb. cbn [packets flat_map app length]. lia.
  - apply some_inj in S. subst c'. unfold state_update. rewrite St. cbn [st_eqb].
    exists [EUpd Active]. eexists. split; [split; cb; try eassumption; try reflexivity|].
    + eexists. split; [|reflexivity]. now apply W_read.
    + split; [reflexivity|]. split; [repeat constructor|]. split; [constructor|]. cb. cbn [packets flat_map app length]. lia.
  - discriminate.
Qed.
Lemma carry_hand g g' ops c w i c' : carry g g' ops c w -> step c (LHand i true) = Some c' -> advances g g' ops c c' w.
Proof.
  intros Cy S. pose proof Cy as [G Cr K X So St D I H Fi Fd Fu (x & W & Ew)]. unfold step in S. rewrite Cr in S. unfold step_hand in S.
  inversion W as [l Il Em Eh Ex|l Il Em Eh Ex|l il y Il Ch Em Eh Ex]; subst x.
  - subst l. destruct (nth_error (hs c) i) as [z|] eqn:N; [|discriminate]. rewrite (idle_nth _ _ _ Il N) in S. discriminate.
  - subst l. destruct (nth_error (hs c) i) as [z|] eqn:N; [|discriminate]. rewrite (idle_nth _ _ _ Il N) in S. discriminate.
  - rewrite <- Eh in S. destruct (idle_last l il i Il) as [N|[N|[-> N]]]; rewrite N in S; try discriminate.
    destruct Ch as [| |t Vt Gt|raw t [Pt Vt] Gt].
    + rewrite <- Em in S. apply some_inj in S. subst c'. exists []. eexists. split; [split; cb; try eassumption; try reflexivity|].
      * eexists. split; [|reflexivity]. rewrite <- ?Eh, upd_last. apply W_upd. now apply idle_snoc.
      * rewrite app_nil_r. split; [reflexivity|]. split; [constructor|]. split; [constructor|]. cb. cbn [packets flat_map length]. lia.
    + unfold unlocked in S. rewrite <- Em in S. apply some_inj in S. subst c'. exists []. eexists. split; [split; cb; try eassumption; try reflexivity|].
      * eexists. split; [|reflexivity]. rewrite <- ?Eh, <- ?Em, ?St, upd_last. apply W_hand; [exact Il|constructor].
      * rewrite app_nil_r. split; [reflexivity|]. split; [constructor|]. split; [constructor|]. cb. cbn [packets flat_map length]. lia.
    + rewrite X, Vt in S. cbn [N.eqb Pos.eqb negb] in S. destruct Gt as [Kt Gp]. cbn [plan] in S. rewrite Kt in S. apply some_inj in S. subst c'.
      exists []. eexists. split; [split; cb; try eassumption; try reflexivity|].
      * apply Forall_app. split; [exact Fd|]. constructor; [split; [exact Kt|exact Gp]|constructor].
      * eexists. split; [|reflexivity]. rewrite <- ?Eh, <- ?Em, upd_last. apply W_hand; [exact Il|constructor].
      * rewrite app_nil_r. split; [reflexivity|]. split; [constructor|]. split; [constructor|]. cb. rewrite total_app. cbn [packets flat_map length total wd]. lia.
    + rewrite Pt in S. apply some_inj in S. subst c'. exists []. eexists. split; [split; cb; try eassumption; try reflexivity|].
      * eexists. split; [|reflexivity]. rewrite <- ?Eh, <- ?Em, upd_last. apply W_hand; [exact Il|constructor; assumption].
      * rewrite app_nil_r. split; [reflexivity|]. split; [constructor|]. split; [constructor|]. cb. cbn [packets flat_map length]. lia.
Qed.
Lemma work_unlocked m h x c : work m h x -> mon c = m -> unlocked c = true.
Proof. intros W E. unfold unlocked. rewrite E. now destruct W. Qed.
Lemma carry_data g g' ops c w i c' : carry g g' ops c w -> step c (LData i) = Some c' -> advances g g' ops c c' w.
Proof.
  intros Cy S. pose proof Cy as [G Cr K X So St D I H Fi Fd Fu (x & W & Ew)]. unfold step in S. rewrite Cr in S. unfold step_data in S.
  destruct (nth_error (ds c) i) as [d|] eqn:N; [|discriminate]. assert (Od : okd d) by (rewrite Forall_forall in Fd; apply Fd; eapply nth_error_In; eauto).
  assert (Done : forall d' q, okd d' -> wd d' < wd d -> advances g g' ops c (set_ds (upd (ds c) i d') (set_dq q c)) w).
  { intros d' q O L. exists []. eexists. split; [split; cb; try eassumption; try reflexivity|].
    * now apply Forall_upd.
    * eexists. split; [exact W|reflexivity].
    * rewrite app_nil_r. split; [reflexivity|]. split; [constructor|]. split; [constructor|]. cb. pose proof (total_upd wd _ _ _ d' N). cbn [packets flat_map length]. lia. }
  assert (Eq : forall d', set_ds (upd (ds c) i d') c = set_ds (upd (ds c) i d') (set_dq (dq c) c)) by (intros; now destruct c).
  destruct d as [t|e|t|pd|]; try contradiction; try discriminate.
  - rewrite (work_unlocked _ _ _ c W eq_refl), St in S. cbn [st_eqb] in S. apply some_inj in S. subst c'. rewrite Eq. apply Done; [exact Od|cbn; lia].
  - destruct Od as [Kt (p & pd & F & P)]. rewrite F, P in S. apply some_inj in S. subst c'. rewrite Eq. apply Done; [exact Logic.I|cbn; lia].
  - rewrite K in S. destruct (N.of_nat (length (dq c)) <? data_cap)%N; [|discriminate]. apply some_inj in S. subst c'. cb.
    change (ds (set_dq (dq c ++ [pd]) c)) with (ds c). apply Done; [exact Logic.I|cbn; lia].
Qed.
Lemma carry_hb g g' ops c w c' : hb_on g = false -> carry g g' ops c w -> step c (LHb true) = Some c' -> advances g g' ops c c' w.
Proof.
  intros Ho Cy S. pose proof Cy as [G Cr K X So St D I H Fi Fd Fu (x & W & Ew)]. rewrite <- G in Ho. unfold step in S. rewrite Cr in S. unfold step_hb in S. rewrite Ho in S.
  destruct (hb c) eqn:Eh; cbn in H; try contradiction; try discriminate; apply some_inj in S; subst c'; exists []; eexists;
    (split; [split; cb; try eassumption; try reflexivity; (eexists; split; [exact W|reflexivity])|]); rewrite app_nil_r; (split; [reflexivity|]); (split; [constructor|]);
    (split; [constructor|]); rewrite Ew; cb; cbn [packets flat_map length hv]; lia.
Qed.
Lemma encodes_data g b : cfg_ok g -> data_overhead g + length b <= 1500 -> exists m bs, m3_MarshalBinary (user_data g b) = Ok (m, bs).
Proof.
  intros Ok L. destruct (payload_delivered g b Ok) as (bs & t & p & [m E] & _); [lia|]. eauto.
Qed.
Lemma carry_user g g' ops c w i c' : cfg_ok g -> carry g g' ops c w -> step c (LUser i true) = Some c' -> advances g g' ops c c' w.
Proof.
  intros Ok Cy S. pose proof Cy as [G Cr K X So St D I H Fi Fd Fu (x & W & Ew)]. unfold step in S. rewrite Cr in S. unfold step_user in S.
  destruct (nth_error (us c) i) as [u|] eqn:N; [|discriminate]. destruct (Forall2_nth _ _ _ Fu i u N) as (op & No & Ou).
  pose proof (work_unlocked _ _ _ c W eq_refl) as Un.
  assert (Done : forall v q es, oku g (maxs c) op v -> Forall calm_event es -> Forall (carried g) (packets es) -> wu v + 10 * length (packets es) < wu u ->
    advances g g' ops c (set_us (upd (us c) i v) (set_log (log c ++ es) (set_dq q c))) w).
  { intros v q es O Ce Ca L. exists es. eexists. split; [split; cb; try eassumption; try reflexivity|].
    * eapply Forall2_upd_nth; eauto.
    * eexists. split; [exact W|reflexivity].
    * split; [reflexivity|]. split; [exact Ce|]. split; [exact Ca|]. cb. pose proof (total_upd wu _ _ _ v N). lia. }
  assert (Eq : forall v, set_us (upd (us c) i v) c = set_us (upd (us c) i v) (set_log (log c ++ []) (set_dq (dq c) c))) by (intros; rewrite app_nil_r; now destruct c).
  destruct Ou as [Ou Lb]. destruct op; try contradiction.
  - destruct Ou as [->|[->|(pd & ->)]].
    + rewrite Un, St in S. cbn [st_eqb] in S. apply some_inj in S. subst c'. rewrite Eq. apply Done; [split; [auto|exact Lb]|constructor|constructor|cbn; lia].
    + destruct (dq c) as [|pd r] eqn:Q; [rewrite K in S; discriminate|]. apply some_inj in S. subst c'.
      apply (Done (UDone (read_result (Some buf) pd)) r [EDeliver pd]); [split; [eauto|exact Lb]|repeat constructor|constructor|cbn; lia].
    + discriminate.
  - destruct Ou as [->|[->|(pd & ->)]].
    + rewrite Un, St in S. cbn [st_eqb] in S. apply some_inj in S. subst c'. rewrite Eq. apply Done; [split; [auto|exact Lb]|constructor|constructor|cbn; lia].
    + destruct (dq c) as [|pd r] eqn:Q; [rewrite K in S; discriminate|]. apply some_inj in S. subst c'.
      apply (Done (UDone (read_result None pd)) r [EDeliver pd]); [split; [eauto|exact Lb]|repeat constructor|constructor|cbn; lia].
    + discriminate.
  - destruct Ou as [(-> & Mx)|[(s & ->)|[(s & ->)|(n & ->)]]].
    + destruct (choose_stream (maxs c) rnd) as [[s|]|e|p] eqn:Cs; try discriminate.
      * apply some_inj in S. subst c'. rewrite Eq. apply Done; [split; [eauto|exact Lb]|constructor|constructor|cbn; lia].
      * exfalso. unfold choose_stream in Cs. destruct Mx as [E|Lt]; [rewrite E in Cs; discriminate|].
        destruct (maxs c =? 1)%N; [discriminate|]. destruct (N.eqb_spec (maxs c) 0) as [E0|]; [rewrite E0 in Lt; lia|]. destruct (rnd <? maxs c)%N; discriminate.
    + rewrite Un, St in S. cbn [st_eqb] in S. apply some_inj in S. subst c'. rewrite Eq. apply Done; [split; [rewrite G; eauto 6|exact Lb]|constructor|constructor|cbn; lia].
    + inversion Lb as [|? ? Lb1 _]; subst. destruct (encodes_data _ _ Ok Lb1) as (m' & bs & E). rewrite E in S. unfold can_write in S. rewrite So in S. cbn [andb] in S.
      apply some_inj in S. subst c'. eapply (Done (UDone (RWrote (length bs + length bs))) (dq c) [ESend (OUser i) s (user_data (cfg c) b) bs]) ;
        [split; [eauto 6|exact Lb]|repeat constructor|constructor; [exists b; split; [exact Lb1|exists m'; exact E]|constructor]|cbn; lia].
    + discriminate.
  - destruct Ou as [->|[(s & ->)|(n & ->)]].
    + rewrite Un, St in S. cbn [st_eqb] in S. apply some_inj in S. subst c'. rewrite Eq. apply Done; [split; [rewrite G; eauto 6|exact Lb]|constructor|constructor|cbn; lia].
    + inversion Lb as [|? ? Lb1 _]; subst. destruct (encodes_data _ _ Ok Lb1) as (m' & bs & E). rewrite E in S. unfold can_write in S. rewrite So in S. cbn [andb] in S.
      apply some_inj in S. subst c'. eapply (Done (UDone (RWrote (length bs + length bs))) (dq c) [ESend (OUser i) s (user_data (cfg c) b) bs]) ;
        [split; [eauto 6|exact Lb]|repeat constructor|constructor; [exists b; split; [exact Lb1|exists m'; exact E]|constructor]|cbn; lia].
    + discriminate.
  - destruct Ou as [->| ->].
    + rewrite Un, St in S. apply some_inj in S. subst c'. rewrite Eq. apply Done; [split; [auto|exact Lb]|constructor|constructor|cbn; lia].
    + discriminate.
Qed.
Lemma carry_step g g' ops c w l c' : cfg_ok g -> cfg_ok g' -> hb_on g = false -> carry g g' ops c w -> fair l -> step c l = Some c' -> advances g g' ops c c' w.
Proof.
  intros Ok Ok' Ho Cy F S. destruct (carry_labels _ _ _ _ _ _ _ Ho Cy F S) as [->|[(i & ->)|[(i & ->)|[->|(i & ->)]]]].
  - eapply carry_mon; eauto.
  - eapply carry_hand; eauto.
  - eapply carry_data; eauto.
  - eapply carry_hb; eauto.
  - eapply carry_user; eauto.
Qed.
Lemma carry_arrive g g' ops c w raw : carry g g' ops c w -> carried g' raw -> exists c', step c (LArrive raw) = Some c' /\ carry g g' ops c' (9 + w) /\ log c' = log c.
Proof.
  intros Cy R. pose proof Cy as [G Cr K X So St D I H Fi Fd Fu (x & W & Ew)]. unfold step. rewrite Cr. eexists. split; [reflexivity|]. split; [|reflexivity].
  split; cb; try eassumption; try reflexivity.
  - apply Forall_app. auto.
  - exists x. split; [exact W|]. rewrite app_length. cbn [length]. lia.
Qed.
Lemma carry_call g g' ops c w op c' : carry g g' ops c w -> sane c op -> step c (LCall op) = Some c' -> exists w', carry g g' (ops ++ [op]) c' w' /\ w' <= 13 + w /\ log c' = log c.
Proof.
  intros Cy Sa S. pose proof Cy as [G Cr K X So St D I H Fi Fd Fu (x & W & Ew)]. unfold step in S. rewrite Cr, D in S. apply some_inj in S. subst c'.
  assert (O : oku g (maxs c) op (UGo op)).
  { unfold sane in Sa. rewrite G in Sa. destruct op; try contradiction; split; auto; cbn [written flat_map app]; repeat (apply Forall_cons || apply Forall_nil); tauto. }
  eexists. split; [|split; [|reflexivity]].
  - split; cb; try eassumption; try reflexivity.
    + apply Forall2_app; auto.
    + eexists. split; [exact W|reflexivity].
  - cb. rewrite total_app. cbn [total]. assert (wu (UGo op) <= 13) by (destruct op; cbn; lia). lia.
Qed.

(** ** Rest *)
Definition all_or_one {A} (f : A -> bool) (l : list A) : (forall x, In x l -> f x = false) \/ exists i x, nth_error l i = Some x /\ f x = true.
Proof.
  induction l as [|y l IH]; [left; intros x []|]. destruct (f y) eqn:E; [right; exists 0, y; auto|]. destruct IH as [N|(i & x & N & Ex)].
  - left. intros x [<-|In]; auto.
  - right. exists (S i), x. auto.
Qed.
Record still (ops : list uop) (c : conn) : Prop := {
  sl_mon : mon c = MRead; sl_inq : inq c = []; sl_us : Forall2 (answered c) ops (us c);
  sl_ds : Forall (fun d => d = DDone) (ds c) \/ (65535 <= N.of_nat (length (dq c)))%N }.
Definition data_ready (q : list pdpayload) (d : dpc) : bool :=
  match d with DCheck _ | DPd _ => true | DSend _ => (N.of_nat (length q) <? data_cap)%N | _ => false end.
Definition user_ready (q : list pdpayload) (u : upc) : bool := match u with UGo _ | USend _ _ => true | URecv _ => match q with [] => false | _ => true end | _ => false end.
Lemma benign_fair l : benign l -> (forall i, l <> LUser i false) -> fair l.
Proof. split; auto. Qed.
Lemma carry_dec g g' ops c w : cfg_ok g -> cfg_ok g' -> hb_on g = false -> carry g g' ops c w ->
  (exists l c', fair l /\ step c l = Some c') \/ still ops c.
Proof.
  intros Ok Ok' Ho Cy. pose proof Cy as [G Cr K X So St D I H Fi Fd Fu (x & W & Ew)].
  assert (Go : forall l c', fair l -> step c l = Some c' -> (exists l c', fair l /\ step c l = Some c') \/ still ops c) by (intros; left; eauto).
  pose proof (work_unlocked _ _ _ c W eq_refl) as Un.
  inversion W as [l Il Em Eh Ex|l Il Em Eh Ex|l il y Il Ch Em Eh Ex]; subst x.
  2:{ eapply (Go (LMon true)); [split; [exact Logic.I|discriminate]|]. unfold step. rewrite Cr. unfold step_mon. rewrite <- Em. reflexivity. }
  2:{ assert (F : fair (LHand (length l) true)) by (split; [exact Logic.I|discriminate]).
      destruct (step c (LHand (length l) true)) as [c'|] eqn:S; [eapply Go; eauto|]. exfalso. unfold step in S. rewrite Cr in S. unfold step_hand in S. rewrite <- Eh, nth_last in S.
      rewrite X, Un, <- Em in S. destruct Ch as [| |t Vt Gt|raw t [Pt Vt] Gt]; try discriminate.
      - rewrite Vt in S. cbn [N.eqb Pos.eqb negb] in S. destruct (plan (Typed t)) as [[]]; discriminate.
      - rewrite Pt in S. discriminate. }
  destruct (inq c) as [|p q] eqn:Q.
  2:{ eapply (Go (LMon true)); [split; [exact Logic.I|discriminate]|]. unfold step. rewrite Cr. unfold step_mon. rewrite <- Em, So, Q. reflexivity. }
  destruct (all_or_one (data_ready (dq c)) (ds c)) as [Nd|(i & d & N & Rd)].
  2:{ destruct (step c (LData i)) as [c'|] eqn:S; [eapply Go; [|exact S]; split; [exact Logic.I|discriminate]|]. exfalso. unfold step in S. rewrite Cr in S. unfold step_data in S. rewrite N in S.
      assert (Od : okd d) by (rewrite Forall_forall in Fd; apply Fd; eapply nth_error_In; eauto).
      destruct d as [t|e|t|pd|]; try contradiction; try discriminate.
      - rewrite Un in S. discriminate.
      - destruct Od as [Kt (p & pd & F & P)]. rewrite F, P in S. discriminate.
      - rewrite K in S. cbn [data_ready] in Rd. rewrite Rd in S. discriminate. }
  destruct (all_or_one (user_ready (dq c)) (us c)) as [Nu|(i & u & N & Ru)].
  2:{ destruct (step c (LUser i true)) as [c'|] eqn:S; [eapply Go; [|exact S]; split; [exact Logic.I|discriminate]|]. exfalso. unfold step in S. rewrite Cr in S. unfold step_user in S. rewrite N in S.
      destruct (Forall2_nth _ _ _ Fu i u N) as (op & No & Ou & Lb). destruct op; try contradiction.
      - destruct Ou as [->|[->|(pd & ->)]]; [rewrite Un in S; discriminate|destruct (dq c); [discriminate|discriminate]|discriminate].
      - destruct Ou as [->|[->|(pd & ->)]]; [rewrite Un in S; discriminate|destruct (dq c); [discriminate|discriminate]|discriminate].
      - destruct Ou as [(-> & Mx)|[(s & ->)|[(s & ->)|(n & ->)]]].
        + unfold choose_stream in S. destruct Mx as [E|Lt]; [rewrite E in S; discriminate|].
          destruct (maxs c =? 1)%N; [discriminate|]. destruct (N.eqb_spec (maxs c) 0) as [E0|]; [discriminate|]. destruct (N.ltb_spec rnd (maxs c)); [discriminate|lia].
        + rewrite Un in S. discriminate.
        + inversion Lb as [|? ? Lb1 _]; subst. destruct (encodes_data _ _ Ok Lb1) as (m' & bs & E). rewrite E in S. destruct (can_write c true); discriminate.
        + discriminate.
      - destruct Ou as [->|[(s' & ->)|(n & ->)]].
        + rewrite Un in S. discriminate.
        + inversion Lb as [|? ? Lb1 _]; subst. destruct (encodes_data _ _ Ok Lb1) as (m' & bs & E). rewrite E in S. destruct (can_write c true); discriminate.
        + discriminate.
      - destruct Ou as [->| ->]; [rewrite Un in S; discriminate|discriminate]. }
  right. split; auto.
  - clear -Fu Nu. revert Nu. induction Fu as [|op u ops ul [Ou Lb] Ft IH]; intros Nu; constructor.
    + specialize (Nu u (or_introl eq_refl)). destruct op; try contradiction; cbn [answered].
      * destruct Ou as [->|[->|(pd & ->)]]; [discriminate|right; split; [reflexivity|]; cbn in Nu; now destruct (dq c)|eauto].
      * destruct Ou as [->|[->|(pd & ->)]]; [discriminate|right; split; [reflexivity|]; cbn in Nu; now destruct (dq c)|eauto].
      * destruct Ou as [(-> & Mx)|[(s & ->)|[(s & ->)|(n & ->)]]]; try discriminate. eauto.
      * destruct Ou as [->|[(s' & ->)|(n & ->)]]; try discriminate. eauto.
      * destruct Ou as [->| ->]; [discriminate|reflexivity].
    + apply IH. intros v Iv. apply Nu. now right.
  - destruct (N.leb_spec 65535 (N.of_nat (length (dq c)))) as [Lq|Lq]; [auto|]. left. apply Forall_forall. intros d Id. specialize (Nd d Id).
    assert (Od : okd d) by (rewrite Forall_forall in Fd; auto). destruct d as [t|e|t|pd|]; try contradiction; try discriminate; [|reflexivity].
    cbn [data_ready] in Nd. apply N.ltb_ge in Nd. unfold data_cap in Nd. lia.
Qed.

(** ** The start *)
Lemma psteps_runs gc gs oc os n p : psteps n (pstart gc gs oc os) p ->
  exists lsa lsb, run (start Client gc oc) lsa = Some (p_cl p) /\ run (start Server gs os) lsb = Some (p_sv p) /\ calls lsa = [] /\ calls lsb = [] /\
    arrivals lsb = firstn (p_ab p) (packets (log (p_cl p))) /\ arrivals lsa = firstn (p_ba p) (packets (log (p_sv p))) /\
    p_ab p <= length (packets (log (p_cl p))) /\ p_ba p <= length (packets (log (p_sv p))).
Proof.
  intros R. remember (pstart gc gs oc os) as p0 eqn:E0. induction R as [p|n p q r R IH S]; subst.
  - exists [], []. repeat split; cbn; lia.
  - destruct (IH eq_refl) as (lsa & lsb & Ra & Rb & Ca & Cb & Aa & Ab & La & Lb). clear IH.
    assert (Ar : forall l1 l2, arrivals (l1 ++ l2) = arrivals l1 ++ arrivals l2) by (intros; apply flat_map_app).
    pose proof log_grows as Grow.
    assert (Be : forall l, benign l -> calls [l] = [] /\ arrivals [l] = []) by (intros []; cbn; auto; contradiction).
    assert (Fn : forall (l l' : list (list byte)) k, k <= length l -> firstn k (l ++ l') = firstn k l) by (intros l l' k L; rewrite firstn_app; replace (k - length l) with 0 by lia; apply app_nil_r).
    assert (Fs : forall (l : list (list byte)) k x, nth_error l k = Some x -> firstn k l ++ [x] = firstn (Datatypes.S k) l).
    { induction l as [|z l IHl]; intros [|k] x N; cbn in *; try discriminate; [now injection N as ->|]. f_equal. now apply IHl. }
    assert (Pk : forall l l', packets (l ++ l') = packets l ++ packets l') by (intros; apply flat_map_app).
    inversion S as [a b x y l a' B St|a b x y l b' B St|a b x y raw b' N St|a b x y raw a' N St]; subst; cbn [p_cl p_sv p_ab p_ba] in *.
    + destruct (Grow _ _ _ St) as [e Le]. destruct (Be l B) as [B1 B2]. exists (lsa ++ [l]), lsb. rewrite run_app, Ra, calls_app, Ar, Ca, B1, B2, Le, Pk, app_length, Fn by exact La.
      cbn [run app]. rewrite St, app_nil_r. repeat split; auto. lia.
    + destruct (Grow _ _ _ St) as [e Le]. destruct (Be l B) as [B1 B2]. exists lsa, (lsb ++ [l]). rewrite run_app, Rb, calls_app, Ar, Cb, B1, B2, Le, Pk, app_length, Fn by exact Lb.
      cbn [run app]. rewrite St, app_nil_r. repeat split; auto. lia.
    + exists lsa, (lsb ++ [LArrive raw]). rewrite run_app, Rb, calls_app, Ar, Cb. cbn [run app calls arrivals flat_map]. rewrite St. 
      assert (Lg : log b' = log b) by (unfold step in St; destruct (crash b); [discriminate|]; now inversion St). rewrite Lg.
      repeat split; auto. { rewrite <- (Fs _ _ _ N), Aa. reflexivity. } apply nth_error_Some. congruence.
    + exists (lsa ++ [LArrive raw]), lsb. rewrite run_app, Ra, calls_app, Ar, Ca. cbn [run app calls arrivals flat_map]. rewrite St. 
      assert (Lg : log a' = log a) by (unfold step in St; destruct (crash a); [discriminate|]; now inversion St). rewrite Lg.
      repeat split; auto. { rewrite <- (Fs _ _ _ N), Ab. reflexivity. } apply nth_error_Some. congruence.
Qed.
Lemma up_carry gc gs oc os n p : cfg_ok gc -> cfg_ok gs -> handshake_fits gc -> handshake_fits gs -> hb_on gc = false -> hb_on gs = false ->
  psteps n (pstart gc gs oc os) p -> at_rest p ->
  carry gc gs [] (p_cl p) 0 /\ carry gs gc [] (p_sv p) 0 /\ p_ab p = length (packets (log (p_cl p))) /\ p_ba p = length (packets (log (p_sv p))) /\
  Forall (fun b => length b <= 1500) (packets (log (p_cl p)) ++ packets (log (p_sv p))).
Proof.
  intros C1 C2 F1 F2 H1 H2 R At. pose proof (pair_establishes gc gs oc os C1 C2 F1 F2 H1 H2 n p R) as (_ & _ & _ & _ & Up). destruct (Up At) as [Uc Us]. clear Up.
  destruct (cfg_plays gc gs C1 C2 F1 F2 H1 H2) as (up & act & upk & ack & mu & ma & mk & mc & Pl).
  assert (I : exists w, PInv gc gs oc os up act upk ack mu ma mk mc w p).
  { clear At Uc Us. remember (pstart gc gs oc os) as p0 eqn:E0. induction R as [|n a b c R IH S]; subst.
    - exists 44. apply PInv_start.
    - destruct (IH eq_refl) as (w & I). destruct (PInv_step _ _ _ _ _ _ _ _ _ _ _ _ _ _ _ Pl I S) as (w' & Lw' & I'). eauto. }
  destruct I as (w & k & j & x & y & hc & hs & Lk & Lj & Hc & Hs & X & Y & En & ->). destruct Pl.
  destruct Uc as (_ & Dc & _). destruct Us as (_ & Ds & _). cbn [p_cl p_sv p_ab p_ba] in *.
  assert (k = 17) as -> by (do 17 (destruct k as [|k]; [discriminate Dc|]); lia).
  assert (j = 17) as -> by (do 17 (destruct j as [|j]; [discriminate Ds|]); lia).
  change (csent 17) with 2 in *. change (ssent 17) with 2 in *. change (cread 17) with 2 in *. change (sread 17) with 2 in *.
  assert (x = 2) as -> by lia. assert (y = 2) as -> by lia.
  assert (Vc : hv hc = 0).
  { destruct hc; try contradiction; try reflexivity; exfalso; (eapply At; eapply (P_client _ _ _ _ (LHb true)); [exact Logic.I|]); cbn; try rewrite pl_c0; reflexivity. }
  assert (Vs : hv hs = 0).
  { destruct hs; try contradiction; try reflexivity; exfalso; (eapply At; eapply (P_server _ _ _ _ (LHb true)); [exact Logic.I|]); cbn; try rewrite pl_s0; reflexivity. }
  split; [|split; [|split; [reflexivity|split; [reflexivity|]]]].
  - split; try reflexivity; try (now constructor); try exact Hc. exists 0. split; [apply W_read; repeat constructor|]. cbn. rewrite Vc. reflexivity.
  - split; try reflexivity; try (now constructor); try exact Hs. exists 0. split; [apply W_read; repeat constructor|]. cbn. rewrite Vs. reflexivity.
  - rewrite Cl_packets, Sv_packets by lia. cbn [firstn app]. change bufsize with 1500 in *. repeat (apply Forall_cons; [assumption|]). apply Forall_nil.
Qed.

(** ** Both *)
Record tinv (gc gs : config) (oc os : N) (ka kb : list uop) (t : talk) (w : nat) : Prop := {
  ti_cl : exists wa wb, carry gc gs ka (t_cl t) wa /\ carry gs gc kb (t_sv t) wb /\ w = wa + wb + 10 * (length (t_up t) + length (t_dn t));
  ti_up : Forall (carried gc) (t_up t); ti_dn : Forall (carried gs) (t_dn t);
  ti_a : exists lsa, run (start Client gc oc) lsa = Some (t_cl t) /\ calls lsa = ka /\ Permutation (arrivals lsa ++ t_dn t) (packets (log (t_sv t)));
  ti_b : exists lsb, run (start Server gs os) lsb = Some (t_sv t) /\ calls lsb = kb /\ Permutation (arrivals lsb ++ t_up t) (packets (log (t_cl t)));
  ti_size : Forall (fun b => length b <= 1500) (packets (log (t_cl t)) ++ packets (log (t_sv t)));
  ti_log : forall e, In e (log (t_cl t) ++ log (t_sv t)) -> match e with ERefused _ _ | EClosed => False | _ => True end }.
Lemma arrivals_app l1 l2 : arrivals (l1 ++ l2) = arrivals l1 ++ arrivals l2.
Proof. apply flat_map_app. Qed.
Lemma packets_app l1 l2 : packets (l1 ++ l2) = packets l1 ++ packets l2.
Proof. apply flat_map_app. Qed.
Lemma fair_label l : fair l -> calls [l] = [] /\ arrivals [l] = [].
Proof. intros [B _]. destruct l; cbn; auto; contradiction. Qed.
Lemma carried_small g l : cfg_ok g -> Forall (carried g) l -> Forall (fun b => length b <= 1500) l.
Proof. intros Ok. apply Forall_impl. intros b Cb. now apply (carried_valid g b Ok). Qed.
Lemma calm_logs (es : list event) : Forall calm_event es -> forall e, In e es -> match e with ERefused _ _ | EClosed => False | _ => True end.
Proof. intros F e I. rewrite Forall_forall in F. specialize (F e I). now destruct e. Qed.
Lemma perm_move {A} (l u1 : list A) x u2 : Permutation ((l ++ [x]) ++ u1 ++ u2) (l ++ u1 ++ x :: u2).
Proof. rewrite <- app_assoc. apply Permutation_app_head. cbn [app]. apply Permutation_middle. Qed.

Lemma tinv_step gc gs oc os ka kb t w t' : cfg_ok gc -> cfg_ok gs -> hb_on gc = false -> hb_on gs = false -> tinv gc gs oc os ka kb t w -> tstep t t' ->
  exists w', w' < w /\ tinv gc gs oc os ka kb t' w'.
Proof.
  intros O1 O2 H1 H2 [(wa & wb & Ca & Cb & Ew) Fu Fd (lsa & Ra & Ka & Pa) (lsb & Rb & Kb & Pb) Sz Lg] S.
  destruct S as [a b u d l a' new F St Pk|a b u d l b' new F St Pk|a b u1 raw u2 d b' St|a b u d1 raw d2 a' St]; cbn [t_cl t_sv t_up t_dn] in *.
  - destruct (carry_step _ _ _ _ _ _ _ O1 O2 H1 Ca F St) as (es & w' & Ca' & El & Ce & Cr & Lw). rewrite El, packets_app in Pk. apply app_inv_head in Pk. subst new.
    destruct (fair_label l F) as [L1 L2]. eexists. split; [|split; cbn [t_cl t_sv t_up t_dn]].
    2:{ exists w', wb. split; [exact Ca'|]. split; [exact Cb|reflexivity]. }
    + rewrite Ew, app_length. lia.
    + apply Forall_app; auto.
    + exact Fd.
    + exists (lsa ++ [l]). rewrite run_app, Ra, calls_app, arrivals_app, L1, L2, !app_nil_r. cbn [run]. rewrite St. auto.
    + exists lsb. split; [exact Rb|]. split; [exact Kb|]. rewrite El, packets_app, app_assoc. now apply Permutation_app_tail.
    + rewrite El, packets_app, <- app_assoc. apply Forall_app in Sz as [S1 S2]. apply Forall_app. split; [exact S1|]. apply Forall_app. split; [apply (carried_small gc); auto|exact S2].
    + intros e I. rewrite El, <- app_assoc in I. apply in_app_or in I as [I|I]; [apply Lg, in_or_app; auto|]. apply in_app_or in I as [I|I]; [eapply calm_logs; eauto|apply Lg, in_or_app; auto].
  - destruct (carry_step _ _ _ _ _ _ _ O2 O1 H2 Cb F St) as (es & w' & Cb' & El & Ce & Cr & Lw). rewrite El, packets_app in Pk. apply app_inv_head in Pk. subst new.
    destruct (fair_label l F) as [L1 L2]. eexists. split; [|split; cbn [t_cl t_sv t_up t_dn]].
    2:{ exists wa, w'. split; [exact Ca|]. split; [exact Cb'|reflexivity]. }
    + rewrite Ew, app_length. lia.
    + exact Fu.
    + apply Forall_app; auto.
    + exists lsa. split; [exact Ra|]. split; [exact Ka|]. rewrite El, packets_app, app_assoc. now apply Permutation_app_tail.
    + exists (lsb ++ [l]). rewrite run_app, Rb, calls_app, arrivals_app, L1, L2, !app_nil_r. cbn [run]. rewrite St. auto.
    + rewrite El, packets_app, app_assoc. apply Forall_app. split; [exact Sz|apply (carried_small gs); auto].
    + intros e I. rewrite El, app_assoc in I. apply in_app_or in I as [I|I]; [exact (Lg e I)|eapply calm_logs; eauto].
  - apply Forall_app in Fu as [Fu1 Fu2]. inversion Fu2 as [|? ? Cr Fu3]; subst.
    destruct (carry_arrive _ _ _ _ _ raw Cb Cr) as (b2 & St2 & Cb' & El). rewrite St in St2. apply some_inj in St2. subst b2.
    eexists. split; [|split; cbn [t_cl t_sv t_up t_dn]; rewrite ?El; auto].
    2:{ exists wa, (9 + wb). split; [exact Ca|]. split; [exact Cb'|reflexivity]. }
    + rewrite !app_length. cbn [length]. lia.
    + apply Forall_app; auto.
    + exists lsa. auto.
    + exists (lsb ++ [LArrive raw]). rewrite run_app, Rb, calls_app, arrivals_app. cbn [run calls arrivals flat_map app]. rewrite St, app_nil_r. split; [reflexivity|]. split; [reflexivity|].
      eapply Permutation_trans; [apply perm_move|exact Pb].
  - apply Forall_app in Fd as [Fd1 Fd2]. inversion Fd2 as [|? ? Cr Fd3]; subst.
    destruct (carry_arrive _ _ _ _ _ raw Ca Cr) as (a2 & St2 & Ca' & El). rewrite St in St2. apply some_inj in St2. subst a2.
    eexists. split; [|split; cbn [t_cl t_sv t_up t_dn]; rewrite ?El; auto].
    2:{ exists (9 + wa), wb. split; [exact Ca'|]. split; [exact Cb|reflexivity]. }
    + rewrite !app_length. cbn [length]. lia.
    + apply Forall_app; auto.
    + exists (lsa ++ [LArrive raw]). rewrite run_app, Ra, calls_app, arrivals_app. cbn [run calls arrivals flat_map app]. rewrite St, app_nil_r. split; [reflexivity|]. split; [reflexivity|].
      eapply Permutation_trans; [apply perm_move|exact Pa].
    + exists lsb. auto.
Qed.
Lemma tinv_talks gc gs oc os n ka kb t0 t : cfg_ok gc -> cfg_ok gs -> hb_on gc = false -> hb_on gs = false -> tinv gc gs oc os [] [] t0 0 -> talks n ka kb t0 t ->
  exists w, n + w <= 13 * (length ka + length kb) /\ tinv gc gs oc os ka kb t w.
Proof.
  intros O1 O2 H1 H2 I0 R. induction R as [t|n p q t t1 t2 R IH S|n p q t a b u d op a' R IH Sa St|n p q t a b u d op b' R IH Sa St].
  - exists 0. auto.
  - destruct (IH I0) as (w & L & I). destruct (tinv_step _ _ _ _ _ _ _ _ _ O1 O2 H1 H2 I S) as (w' & Lw & I'). exists w'. split; [lia|exact I'].
  - destruct (IH I0) as (w & L & [(wa & wb & Ca & Cb & Ew) Fu Fd (lsa & Ra & Ka & Pa) (lsb & Rb & Kb & Pb) Sz Lg]). cbn [t_cl t_sv t_up t_dn] in *.
    destruct (carry_call _ _ _ _ _ _ _ Ca Sa St) as (w' & Ca' & Lw & El). eexists. split; [|split; cbn [t_cl t_sv t_up t_dn]; rewrite ?El; auto].
    2:{ exists w', wb. split; [exact Ca'|]. split; [exact Cb|reflexivity]. }
    + rewrite app_length. cbn [length]. lia.
    + exists (lsa ++ [LCall op]). rewrite run_app, Ra, calls_app, arrivals_app. cbn [run calls arrivals flat_map app]. rewrite St, app_nil_r, Ka. auto.
    + exists lsb. auto.
  - destruct (IH I0) as (w & L & [(wa & wb & Ca & Cb & Ew) Fu Fd (lsa & Ra & Ka & Pa) (lsb & Rb & Kb & Pb) Sz Lg]). cbn [t_cl t_sv t_up t_dn] in *.
    destruct (carry_call _ _ _ _ _ _ _ Cb Sa St) as (w' & Cb' & Lw & El). eexists. split; [|split; cbn [t_cl t_sv t_up t_dn]; rewrite ?El; auto].
    2:{ exists wa, w'. split; [exact Ca|]. split; [exact Cb'|reflexivity]. }
    + rewrite app_length. cbn [length]. lia.
    + exists lsa. auto.
    + exists (lsb ++ [LCall op]). rewrite run_app, Rb, calls_app, arrivals_app. cbn [run calls arrivals flat_map app]. rewrite St, app_nil_r, Kb. auto.
Qed.
Lemma tinv_start gc gs oc os n p : cfg_ok gc -> cfg_ok gs -> handshake_fits gc -> handshake_fits gs -> hb_on gc = false -> hb_on gs = false ->
  psteps n (pstart gc gs oc os) p -> at_rest p -> tinv gc gs oc os [] [] (mkTalk (p_cl p) (p_sv p) [] []) 0.
Proof.
  intros C1 C2 F1 F2 H1 H2 R At. destruct (up_carry _ _ _ _ _ _ C1 C2 F1 F2 H1 H2 R At) as (Ca & Cb & Ea & Eb & Sz).
  destruct (psteps_runs _ _ _ _ _ _ R) as (lsa & lsb & Ra & Rb & Ka & Kb & Aa & Ab & _). rewrite Ea, firstn_all in Aa. rewrite Eb, firstn_all in Ab.
  destruct (pair_establishes gc gs oc os C1 C2 F1 F2 H1 H2 n p R) as (_ & _ & _ & Lg & _).
  split; cbn [t_cl t_sv t_up t_dn]; auto.
  - exists 0, 0. auto.
  - exists lsa. rewrite app_nil_r, Ab. auto.
  - exists lsb. rewrite app_nil_r, Aa. auto.
Qed.

(** ** What comes of it *)
Lemma sane_plain g ms ops us : Forall2 (oku g ms) ops us -> Forall plain ops.
Proof. induction 1 as [|op u ops us [O _] F IH]; constructor; auto. destruct op; cbn in *; auto; contradiction. Qed.
Lemma answered_all c ops us : Forall2 (answered c) ops us -> accepted ops us = written ops.
Proof.
  induction 1 as [|op u ops us A F IH]; [reflexivity|]. unfold accepted in *. cbn [List.combine flat_map written]. fold (written ops). rewrite IH. f_equal.
  destruct op; cbn [answered] in A; try contradiction; try reflexivity; destruct A as [n ->]; reflexivity.
Qed.
Lemma no_refused l : (forall e, In e l -> match e with ERefused _ _ | EClosed => False | _ => True end) -> refused_data l = [].
Proof.
  induction l as [|e l IH]; intros H; [reflexivity|]. cbn [refused_data flat_map]. fold (refused_data l). rewrite IH by (intros x I; apply H; now right).
  specialize (H e (or_introl eq_refl)). destruct e; try reflexivity. contradiction.
Qed.
Definition received (c : conn) (g : config) (ops : list uop) : Prop :=
  (65535 <= N.of_nat (length (dq c)))%N \/ Permutation (delivered (log c) ++ dq c) (map (pd_of g) (written ops)).
Theorem talk_fine gc gs oc os n0 p n ka kb t :
  cfg_ok gc -> cfg_ok gs -> handshake_fits gc -> handshake_fits gs -> hb_on gc = false -> hb_on gs = false ->
  psteps n0 (pstart gc gs oc os) p -> at_rest p -> talks n ka kb (mkTalk (p_cl p) (p_sv p) [] []) t ->
  n <= 13 * (length ka + length kb) /\ sound (t_cl t) /\ sound (t_sv t) /\ state (t_cl t) = Active /\ state (t_sv t) = Active /\
  (forall e, In e (log (t_cl t) ++ log (t_sv t)) -> match e with ERefused _ _ | EClosed => False | _ => True end) /\
  ((exists t', tstep t t') \/
   (Forall2 (answered (t_cl t)) ka (us (t_cl t)) /\ Forall2 (answered (t_sv t)) kb (us (t_sv t)) /\
    received (t_sv t) gc ka /\ received (t_cl t) gs kb)).
Proof.
  intros O1 O2 F1 F2 H1 H2 R At T. pose proof (tinv_start _ _ _ _ _ _ O1 O2 F1 F2 H1 H2 R At) as I0.
  destruct (tinv_talks _ _ _ _ _ _ _ _ _ O1 O2 H1 H2 I0 T) as (w & L & [(wa & wb & Ca & Cb & Ew) Fu Fd (lsa & Ra & Ka & Pa) (lsb & Rb & Kb & Pb) Sz Lg]).
  split; [lia|]. split; [destruct Ca; repeat split; assumption|]. split; [destruct Cb; repeat split; assumption|].
  split; [apply Ca|]. split; [apply Cb|]. split; [exact Lg|]. destruct t as [a b u d]. cbn [t_cl t_sv t_up t_dn] in *.
  destruct u as [|raw u].
  2:{ left. inversion Fu as [|? ? Cr _]; subst. destruct (carry_arrive _ _ _ _ _ raw Cb Cr) as (b' & St & _). eexists. apply (T_to_server a b [] raw u d b' St). }
  destruct d as [|raw d].
  2:{ left. inversion Fd as [|? ? Cr _]; subst. destruct (carry_arrive _ _ _ _ _ raw Ca Cr) as (a' & St & _). eexists. apply (T_to_client a b [] [] raw d a' St). }
  destruct (carry_dec _ _ _ _ _ O1 O2 H1 Ca) as [(l & a' & F & St)|[M1 Q1 U1 D1]].
  { left. destruct (log_grows _ _ _ St) as [es El]. eexists. apply (T_client a b [] [] l a' (packets es)); auto. now rewrite El, packets_app. }
  destruct (carry_dec _ _ _ _ _ O2 O1 H2 Cb) as [(l & b' & F & St)|[M2 Q2 U2 D2]].
  { left. destruct (log_grows _ _ _ St) as [es El]. eexists. apply (T_server a b [] [] l b' (packets es)); auto. now rewrite El, packets_app. }
  right. split; [exact U1|]. split; [exact U2|]. apply Forall_app in Sz as [S1 S2].
  pose proof (sane_plain _ _ _ _ (cy_us _ _ _ _ _ Ca)) as P1. pose proof (sane_plain _ _ _ _ (cy_us _ _ _ _ _ Cb)) as P2. rewrite <- Ka in P1. rewrite <- Kb in P2.
  split; [destruct D2 as [D2|D2]; [right|now left]|destruct D1 as [D1|D1]; [right|now left]].
  - rewrite <- (answered_all _ _ _ U1), <- Ka. rewrite <- (app_nil_r (dq b)), <- (no_refused (log b)) by (intros e I; apply Lg, in_or_app; auto).
    apply (end_to_end_all Client gc oc lsa a Server gs os lsb b Ra Rb O1 P1 S1); auto; apply Cb.
  - rewrite <- (answered_all _ _ _ U2), <- Kb. rewrite <- (app_nil_r (dq a)), <- (no_refused (log a)) by (intros e I; apply Lg, in_or_app; auto).
    apply (end_to_end_all Server gs os lsb b Client gc oc lsa a Rb Ra O2 P2 S2); auto; apply Ca.
Qed.

Definition settled (gc gs : config) (ka kb : list uop) (t : talk) : Prop :=
  Forall2 (answered (t_cl t)) ka (us (t_cl t)) /\ Forall2 (answered (t_sv t)) kb (us (t_sv t)) /\ received (t_sv t) gc ka /\ received (t_cl t) gs kb.
Lemma tsteps_cons m t t1 t2 : tstep t t1 -> tsteps m t1 t2 -> tsteps (Datatypes.S m) t t2.
Proof. intros S R. induction R as [t1|m t1 t2 t3 R IH S2]; [eapply TT_S; [apply TT_0|exact S]|eapply TT_S; [apply IH, S|exact S2]]. Qed.
Theorem talk_settles gc gs oc os n0 p n ka kb t :
  cfg_ok gc -> cfg_ok gs -> handshake_fits gc -> handshake_fits gs -> hb_on gc = false -> hb_on gs = false ->
  psteps n0 (pstart gc gs oc os) p -> at_rest p -> talks n ka kb (mkTalk (p_cl p) (p_sv p) [] []) t ->
  exists m t', n + m <= 13 * (length ka + length kb) /\ tsteps m t t' /\ settled gc gs ka kb t'.
Proof.
  intros O1 O2 F1 F2 H1 H2 R At. remember (13 * (length ka + length kb) - n) as k eqn:Ek. revert n t Ek. induction k as [|k IH]; intros n t Ek T.
  all: destruct (talk_fine _ _ _ _ _ _ _ _ _ _ O1 O2 F1 F2 H1 H2 R At T) as (L & _ & _ & _ & _ & _ & [[t' S]|E]); [|exists 0, t; split; [lia|split; [apply TT_0|exact E]]].
  - pose proof (TS_S _ _ _ _ _ _ T S) as T'. destruct (talk_fine _ _ _ _ _ _ _ _ _ _ O1 O2 F1 F2 H1 H2 R At T') as (L' & _). lia.
  - destruct (IH (Datatypes.S n) t') as (m & t2 & Lm & R2 & E2); [lia|eapply TS_S; eauto|]. exists (Datatypes.S m), t2. split; [lia|]. split; [eapply tsteps_cons; eauto|exact E2].
Qed.
