(** Two endpoints from Dial and Accept on, with heartbeats and user data. *)
From Verif Require Import GoBase BaseProofs ParamsModel MessagesModel WireSpec ParamsSpec MsgSpec MessagesProofs MessagesProofs2 ConfigModel
  ConnModel CfgSpec ConfigWire ConnSpec ConnBase ConnInv ConnTrace ConnUser ConnCodec ConnMore ConnStable ConnData ConnPair ConnPieces ConnPace ConnE2E
  DialogSpec ConnDialog ConnDuo TalkSpec ConnTalk ParamsProofs.
From Coq Require Import Arith Lia Permutation.
Open Scope nat_scope.
Opaque max_value_len.

(** ** Packets *)
Definition hbdata (t : msg) : list (list byte) := match fget FHeartbeatData (m_f t) with Some p => [HeartbeatData p] | None => [] end.
Definition beat_of (m : m3ua) : list (list byte) := match m with Typed t => match m_kind t with KHeartbeat => hbdata t | _ => [] end | Gen _ => [] end.
Definition back_of (m : m3ua) : list (list byte) := match m with Typed t => match m_kind t with KHeartbeatAck => hbdata t | _ => [] end | Gen _ => [] end.
Definition beat_in (raw : list byte) : list (list byte) := match Parse raw with Ok m => beat_of m | _ => [] end.
Definition back_in (raw : list byte) : list (list byte) := match Parse raw with Ok m => back_of m | _ => [] end.
(** what a packet may still cause at the endpoint that receives it *)
Definition value (raw : list byte) : nat :=
  match Parse raw with
  | Ok (Typed t) => match m_kind t with KData => 9 | KError => 7 | KHeartbeatAck => 18 | KHeartbeat => 27 | _ => 0 end
  | _ => 0
  end.
Lemma beat_packet128 d b : length d = 128 -> encodes (beat d) b ->
  length b <= 1500 /\ exists t, valid b (Typed t) /\ m_kind t = KHeartbeat /\ hbdata t = [d] /\ encodes (beat_ack_of t) (packet x01 x00 x03 x06 140 (body_of [(9%N, d)])).
Proof.
  intros L E. pose proof E as Eb. apply (beat_octets128 d b L) in Eb.
  assert (Lb : length b = 140).
  { rewrite Eb. unfold packet, body_of, tlv. cbn [map concat fst snd]. rewrite !app_length, !be_length, repeat_length, L. reflexivity. }
  split; [lia|].
  assert (F : Forall2 slot_ok (rfc_params BEAT) [Some (NewHeartbeatData d)]).
  { repeat (apply Forall2_cons || apply Forall2_nil). cbn [slot_ok]. split; [reflexivity|].
    change (p_data (NewHeartbeatData d)) with d. rewrite L. apply max_value_len_spec. lia. }
  destruct (NewHeartbeat_rt _ F) as (m' & M & _ & P & _). rewrite (beat_new d L) in E. destruct E as [m2 E2].
  assert (Es : b = packet x01 x00 (rfc_class BEAT) (rfc_type BEAT) (N.of_nat (8 + length (body_for (present [Some (NewHeartbeatData d)])))) (body_for (present [Some (NewHeartbeatData d)]))) by (rewrite M in E2; congruence).
  rewrite <- Es in P, M. rewrite msg_MarshalBinary_ok in M.
  assert (Em : m' = mkMsg (m_kind (NewHeartbeat (Some (NewHeartbeatData d)))) (set_payload (m_hdr (NewHeartbeat (Some (NewHeartbeatData d)))) (m_body (NewHeartbeat (Some (NewHeartbeatData d))))) (m_f (NewHeartbeat (Some (NewHeartbeatData d))))) by congruence.
  exists m'. split; [split; [exact P|rewrite Em; reflexivity]|]. split; [rewrite Em; reflexivity|]. split; [rewrite Em; reflexivity|].
  destruct (beat_packet x01 x00 x03 x03 140 (Some d)) as (t & P' & _ & En).
  - reflexivity.
  - reflexivity.
  - rewrite L. apply max_value_len_spec. lia.
  - change (zip_slots [9%N] [Some d]) with [(9%N, d)] in *. rewrite <- Eb in P', En. rewrite P in P'. assert (t = m') as -> by congruence. rewrite Eb in En. exact En.
Qed.
Lemma back_packet128 d : length d = 128 -> let b := packet x01 x00 x03 x06 140 (body_of [(9%N, d)]) in
  length b <= 1500 /\ exists t, valid b (Typed t) /\ m_kind t = KHeartbeatAck /\ hbdata t = [d].
Proof.
  intros L b.
  assert (Lb : length b = 140).
  { unfold b, packet, body_of, tlv. cbn [map concat fst snd]. rewrite !app_length, !be_length, repeat_length, L. reflexivity. }
  split; [lia|].
  assert (F : Forall2 slot_ok (rfc_params BEAT_ACK) [Some (NewHeartbeatData d)]).
  { repeat (apply Forall2_cons || apply Forall2_nil). cbn [slot_ok]. split; [reflexivity|].
    change (p_data (NewHeartbeatData d)) with d. rewrite L. apply max_value_len_spec. lia. }
  assert (Eb : encodes (Typed (NewHeartbeatAck (Some (NewHeartbeatData d)))) b).
  { apply (rt_message BEAT_ACK _ _ F (NewHeartbeatAck_rt _ F)). cbn [map option_map]. change (p_data (NewHeartbeatData d)) with d. unfold message, b.
    change (zip_slots (rfc_params BEAT_ACK) [Some d]) with [(9%N, d)]. change (rfc_class BEAT_ACK) with x03. change (rfc_type BEAT_ACK) with x06.
    assert (length (body_of [(9%N, d)]) = 132) as ->; [|reflexivity].
    unfold body_of, tlv. cbn [map concat fst snd]. rewrite app_nil_r, !app_length, !be_length, L, repeat_length. reflexivity. }
  destruct (NewHeartbeatAck_rt _ F) as (m' & M & _ & P & _). destruct Eb as [m2 E2].
  assert (Es : b = packet x01 x00 (rfc_class BEAT_ACK) (rfc_type BEAT_ACK) (N.of_nat (8 + length (body_for (present [Some (NewHeartbeatData d)])))) (body_for (present [Some (NewHeartbeatData d)]))) by (rewrite M in E2; congruence).
  rewrite <- Es in P, M. rewrite msg_MarshalBinary_ok in M.
  assert (Em : m' = mkMsg (m_kind (NewHeartbeatAck (Some (NewHeartbeatData d)))) (set_payload (m_hdr (NewHeartbeatAck (Some (NewHeartbeatData d)))) (m_body (NewHeartbeatAck (Some (NewHeartbeatData d))))) (m_f (NewHeartbeatAck (Some (NewHeartbeatData d))))) by congruence.
  exists m'. split; [split; [exact P|rewrite Em; reflexivity]|]. split; rewrite Em; reflexivity.
Qed.

(** what an endpoint sends once it is established *)
Definition beat_back (d : list byte) : list byte := packet x01 x00 x03 x06 140 (body_of [(9%N, d)]).
Definition proper (g : config) (raw : list byte) : Prop :=
  carried g raw \/ (exists d, length d = 128 /\ encodes (beat d) raw) \/ (exists d, length d = 128 /\ raw = beat_back d) \/ denotes raw SErr.
Inductive cargo (t : msg) : nat -> Prop :=
| Cg_data : good t -> cargo t 9
| Cg_err : m_kind t = KError -> cargo t 7
| Cg_back d : m_kind t = KHeartbeatAck -> hbdata t = [d] -> cargo t 18
| Cg_beat d : m_kind t = KHeartbeat -> hbdata t = [d] -> length d = 128 -> encodes (beat_ack_of t) (beat_back d) -> cargo t 27.
Lemma proper_cargo g raw : cfg_ok g -> proper g raw -> length raw <= 1500 /\ exists t, valid raw (Typed t) /\ cargo t (value raw).
Proof.
  intros Ok [C|[(d & L & E)|[(d & L & ->)|(m & V & S & L)]]].
  - destruct (carried_valid g raw Ok C) as (L & t & V & G). split; [exact L|]. exists t. split; [exact V|]. unfold value. destruct V as [-> _]. destruct G as [K G]. rewrite K. constructor. split; assumption.
  - destruct (beat_packet128 d raw L E) as (Lr & t & V & K & D & En). split; [exact Lr|]. exists t. split; [exact V|]. unfold value. destruct V as [-> _]. rewrite K. econstructor; eassumption.
  - destruct (back_packet128 d L) as (Lr & t & V & K & D). split; [exact Lr|]. exists t. split; [exact V|]. unfold value, beat_back. destruct V as [-> _]. rewrite K. econstructor; eassumption.
  - split; [exact L|]. destruct m as [t|ge]; cbn [sym] in S; [|discriminate]. exists t. split; [exact V|]. destruct V as [P _]. unfold value. rewrite P.
    destruct (m_kind t) eqn:K; try discriminate. now constructor.
Qed.
Lemma cargo_data g raw : cfg_ok g -> carried g raw -> value raw = 9 /\ beat_in raw = [] /\ back_in raw = [].
Proof.
  intros Ok C. destruct (carried_valid g raw Ok C) as (L & t & [P _] & [K _]). unfold value, beat_in, back_in, beat_of, back_of. rewrite P, K. auto.
Qed.
Lemma cargo_beat d raw : length d = 128 -> encodes (beat d) raw -> value raw = 27 /\ beat_in raw = [d] /\ back_in raw = [].
Proof.
  intros L E. destruct (beat_packet128 d raw L E) as (Lr & t & [P _] & K & D & En). unfold value, beat_in, back_in, beat_of, back_of. rewrite P, K. auto.
Qed.
Lemma cargo_back d : length d = 128 -> value (beat_back d) = 18 /\ beat_in (beat_back d) = [] /\ back_in (beat_back d) = [d].
Proof.
  intros L. destruct (back_packet128 d L) as (Lr & t & [P _] & K & D). unfold value, beat_in, back_in, beat_of, back_of, beat_back. rewrite P, K. auto.
Qed.
Lemma cargo_err raw : denotes raw SErr -> value raw = 7 /\ beat_in raw = [] /\ back_in raw = [].
Proof.
  intros (m & [P _] & S & L). unfold value, beat_in, back_in. rewrite P. destruct m as [t|ge]; cbn [sym] in S; [|discriminate].
  destruct (m_kind t) eqn:K; try discriminate. unfold beat_of, back_of. rewrite K. auto.
Qed.

(** ** Heartbeats on the way *)
Definition cur (h : list (list instr)) : list instr := last h [].
Definition hbeat (il : list instr) : list (list byte) :=
  match il with IParse raw :: _ => beat_in raw | ISig m :: _ => beat_of m | IHandle t :: _ => beat_of (Typed t) | IWrite m :: _ => beat_of m | _ => [] end.
Definition hback (il : list instr) : list (list byte) :=
  match il with IParse raw :: _ => back_in raw | ISig m :: _ => back_of m | IHandle t :: _ => back_of (Typed t) | _ => [] end.
(** the BEAT ACK has been checked *)
Definition acking (il : list instr) : bool := match il with IErr _ :: IBeatAck :: _ | IBeatAck :: _ => true | _ => false end.
(** the data of the BEAT the endpoint waits for *)
Definition hbt (h : bpc) (d : list byte) : list (list byte) := match h with BStore x => [x] | BAck => [d] | _ => [] end.
(** BEATs to be answered, BEAT ACKs to be checked, and the BEAT whose ACK has not been checked *)
Definition dueb (c : conn) : list (list byte) := flat_map beat_in (inq c) ++ hbeat (cur (hs c)).
Definition duea (c : conn) : list (list byte) := flat_map back_in (inq c) ++ hback (cur (hs c)).
Definition owed (c : conn) : list (list byte) := if acking (cur (hs c)) then [] else hbt (hb c) (hbd c).
Definition cb_dec := list_eq_dec Byte.byte_eq_dec.
Definition nof (x : list byte) (l : list (list byte)) : nat := count_occ cb_dec l x.
Lemma nof_app x a b : nof x (a ++ b) = nof x a + nof x b.
Proof. apply count_occ_app. Qed.
Lemma cur_last l x : cur (l ++ [x]) = x.
Proof. apply last_last. Qed.
Lemma cur_idle l : idle l -> cur l = [].
Proof. intros I. destruct l as [|y l _] using rev_ind; [reflexivity|]. rewrite cur_last. apply Forall_app in I as [_ I]. now inversion I. Qed.

(** refusals so far *)
Definition refusals (l : list event) : nat := total (fun e => match e with ERefused _ _ => 1 | _ => 0 end) l.
Lemma refusals_app a b : refusals (a ++ b) = refusals a + refusals b.
Proof. apply total_app. Qed.
Definition pend (m : mpc) (il : list instr) : nat :=
  match m with MErr _ _ => 1 | _ => match il with IErr _ :: _ => 1 | _ => 0 end end.

(** ** One established endpoint *)
Definition bad_ack (e : cerr) : Prop := exists t, e = EUnexpected (Typed t) /\ m_kind t = KHeartbeatAck.
Inductive chore2 : list instr -> nat -> Prop :=
| K_st : chore2 [ISt Active] 1
| K_cur : chore2 [ICur] 2
| K_err t : m_kind t = KError -> chore2 [IHandle t; ICur] 3
| K_write t d : m_kind t = KHeartbeat -> hbdata t = [d] -> length d = 128 -> encodes (beat_ack_of t) (beat_back d) -> chore2 [IWrite (beat_ack_of t); ICur] 22
| K_beat t d : m_kind t = KHeartbeat -> hbdata t = [d] -> length d = 128 -> encodes (beat_ack_of t) (beat_back d) -> chore2 [IHandle t; ICur] 23
| K_ack : chore2 [IBeatAck; ICur] 3
| K_bad e : bad_ack e -> chore2 [IErr e; IBeatAck; ICur] 13
| K_back t d : m_kind t = KHeartbeatAck -> hbdata t = [d] -> chore2 [IHandle t; IBeatAck; ICur] 14
| K_sig t v : b2n (Version (Typed t)) = 1%N -> cargo t v -> chore2 [ISig (Typed t)] (v - 3)
| K_parse raw t : valid raw (Typed t) -> cargo t (value raw) -> chore2 [IParse raw] (value raw - 2).
Inductive after : list instr -> nat -> Prop :=
| A_ack : after [IBeatAck; ICur] 3
| A_cur : after [ICur] 2
| A_st : after [ISt Active] 1.
Inductive work2 : mpc -> list (list instr) -> nat -> Prop :=
| V_read l : idle l -> work2 MRead l 0
| V_upd l : idle l -> work2 (MUpd Active) l 1
| V_hand l il w : idle l -> chore2 il w -> work2 MSelect (l ++ [il]) (1 + w)
| V_err l i e il w : idle l -> bad_ack e -> after il w -> work2 (MErr (OHand i) e) (l ++ [il]) (10 + w).
Definition mild (e : event) : Prop :=
  match e with ERefused o x => (exists i, o = OHand i) /\ bad_ack x | EClosed => False | _ => True end.
(** the weight of the heartbeat goroutine *)
Definition bw (h : bpc) : nat := match h with BStart | BStore _ => 1 | BWrite _ => 30 | BRand => 31 | BRun => 32 | _ => 0 end.
Definition bok (c : conn) : Prop :=
  match hb c with BErr _ => False | BWrite d | BStore d => length d = 128 /\ (hba c = true -> hbd c = d) | BAck => hba c = true | _ => True end.

Record grown (g g' : config) (ops : list uop) (c : conn) (w : nat) : Prop := {
  gw_cfg : cfg c = g; gw_crash : crash c = None; gw_closed : closed c = false; gw_ctx : ctxd c = false; gw_open : sopen c = true;
  gw_state : state c = Active; gw_dial : dial c = DOk; gw_ini : ini c = false;
  gw_inq : Forall (proper g') (inq c); gw_ds : Forall okd (ds c); gw_us : Forall2 (oku g (maxs c)) ops (us c);
  gw_hb : bok c; gw_off : hb_on g = false -> hq (hb c) /\ refusals (log c) + pend (mon c) (cur (hs c)) = 0;
  gw_ack : acking (cur (hs c)) = true -> hbt (hb c) (hbd c) <> [];
  gw_ref : refusals (log c) + pend (mon c) (cur (hs c)) <= 1; gw_fresh : hba c = false -> acking (cur (hs c)) = false -> refusals (log c) + pend (mon c) (cur (hs c)) = 0;
  gw_work : exists x, work2 (mon c) (hs c) x /\ w = x + total value (inq c) + total wd (ds c) + total wu (us c) + bw (hb c) }.

(** what a step does to it *)
Definition cost (l : list (list byte)) : nat := total (fun r => Datatypes.S (value r)) l.
Definition moves (c c' : conn) (es : list event) : Prop :=
  (forall x, nof x (dueb c) = nof x (dueb c') + nof x (flat_map back_in (packets es))) /\
  (forall x, nof x (owed c') + nof x (duea c) = nof x (owed c) + nof x (flat_map beat_in (packets es)) + nof x (duea c')).
Definition advances2 (g g' : config) (ops : list uop) (c c' : conn) (w : nat) : Prop :=
  exists es w', grown g g' ops c' w' /\ log c' = log c ++ es /\ Forall mild es /\ Forall (proper g) (packets es) /\ w' + cost (packets es) < w /\ moves c c' es.
Definition waits (c : conn) : Prop := forall x, nof x (duea c) <= nof x (owed c).

Lemma grown_labels g g' ops c w l c' : grown g g' ops c w -> fair l -> l <> LHbTimer -> step c l = Some c' ->
  l = LMon true \/ (exists i, l = LHand i true) \/ (exists i, l = LData i) \/ l = LHb true \/ (exists d, l = LHbRand d) \/ (exists i, l = LUser i true).
Proof.
  intros [G Cr K X So St D I _ _ _ H _ _ _ _ _] [B Nf] Nt S. unfold step in S. rewrite Cr in S.
  destruct l; try contradiction; try rewrite I in S; try rewrite X in S; try rewrite D in S; try rewrite K in S; eauto 8.
  - discriminate.
  - destruct ok; [auto|contradiction].
  - destruct (mon c); discriminate.
  - destruct ok; [eauto|contradiction].
  - destruct (nth_error (ds c) i) as [[]|]; discriminate.
  - destruct ok; [auto|contradiction].
  - destruct (hb c); discriminate.
  - discriminate.
  - destruct ok; [eauto 9|]. exfalso. eapply Nf. reflexivity.
Qed.
Lemma work2_unlocked m h x c : work2 m h x -> mon c = m -> unlocked c = true.
Proof. intros W E. unfold unlocked. rewrite E. now destruct W. Qed.
Lemma off_hbt h d : hq h -> hbt h d = [].
Proof. now destruct h. Qed.
Lemma nof_cons x y l : nof x (y :: l) = nof x [y] + nof x l.
Proof. apply (nof_app x [y] l). Qed.

Lemma grown_mon g g' ops c w c' : speaks g -> cfg_ok g' -> grown g g' ops c w -> step c (LMon true) = Some c' -> advances2 g g' ops c c' w.
Proof.
  intros Sp Ok' Gr S. pose proof Gr as [G Cr K X So St D I Fi Fd Fu Hb Off Ack Ref Fre (x & W & Ew)]. unfold step in S. rewrite Cr in S. unfold step_mon in S.
  inversion W as [l Il Em Eh Ex|l Il Em Eh Ex|l il y Il Ch Em Eh Ex|l i e il y Il Be Af Em Eh Ex]; subst x; rewrite <- Em in S.
  - rewrite So in S. cbn [andb] in S. destruct (inq c) as [|p q] eqn:Q; [discriminate|]. inversion Fi as [|? ? Cp Fq]; subst.
    destruct (proper_cargo _ _ Ok' Cp) as (Lp & t & V & Ct). destruct (read_any p Lp) as [R1 R2]. rewrite R1, R2 in S. apply some_inj in S. subst c'.
    exists [ERead p]. eexists. split; [split; cb; try eassumption; try reflexivity|].
    + intros H. destruct (Off H) as [H1 H2]. split; [exact H1|]. rewrite cur_last, refusals_app. cbn. lia.
    + rewrite cur_last. discriminate.
    + rewrite cur_last, refusals_app. rewrite <- Em, (cur_idle _ Il) in Ref. cbn [pend] in *. cbn. lia.
    + rewrite cur_last, refusals_app. intros H _. rewrite (cur_idle _ Il) in Fre. specialize (Fre H eq_refl). cbn. lia.
    + eexists. split; [|reflexivity]. apply (V_hand (hs c) [IParse p] (value p - 2)); [exact Il|]. eapply K_parse; eauto.
    + split; [reflexivity|]. split; [repeat constructor|]. split; [constructor|]. cb. cbn [packets flat_map app length cost total].
      split; [destruct Ct; lia|].
      unfold moves, dueb, duea, owed. cb. rewrite Q, cur_last, (cur_idle _ Il). cbn [flat_map hbeat hback acking packets app].
      split; intros z; rewrite ?nof_app; cbn [nof count_occ]; lia.
  - apply some_inj in S. subst c'. unfold state_update. rewrite St. cbn [st_eqb].
    exists [EUpd Active]. eexists. split; [split; cb; try eassumption; try reflexivity|].
    + intros H. destruct (Off H) as [H1 H2]. split; [exact H1|]. rewrite (cur_idle _ Il), refusals_app. cbn. lia.
    + rewrite refusals_app. rewrite <- Em in Ref. rewrite (cur_idle _ Il) in *. cbn [pend] in *. cbn. lia.
    + intros H1 H2. specialize (Fre H1 H2). rewrite (cur_idle _ Il) in *. rewrite refusals_app. cbn. lia.
    + eexists. split; [|reflexivity]. now apply V_read.
    + split; [reflexivity|]. split; [repeat constructor|]. split; [constructor|]. cb. cbn [packets flat_map app length cost total]. split; [lia|].
      unfold moves, dueb, duea, owed. cb. cbn [packets flat_map app]. split; intros z; cbn [nof count_occ]; lia.
  - discriminate.
  - destruct Be as (t & -> & Kt). destruct (sp_unexp g Sp (Typed t)) as (r & Er & b & Wb & Db).
    change (cfg (emit (ERefused (OHand i) (EUnexpected (Typed t))) c)) with (cfg c) in S. rewrite G, Er in S. rewrite (signal_ok OMon _ r b Wb) in S by exact So.
    apply some_inj in S. subst c'. rewrite <- Eh, cur_last in Ack. destruct (cargo_err b Db) as (Vb & B1 & B2).
    exists [ERefused (OHand i) (EUnexpected (Typed t)); ESend OMon 0 r b]. eexists. split; [split; cb; rewrite <- ?Eh, ?cur_last in *; try eassumption; try reflexivity|].
    + intros H. destruct (Off H) as [H1 H2]. rewrite <- Em in H2. cbn [pend] in H2. lia.
    + rewrite <- Em in Ref. cbn [pend] in Ref. rewrite <- app_assoc, refusals_app. cbn [pend app]. destruct Af; cbn; lia.
    + intros H1 H2. specialize (Fre H1 H2). rewrite <- Em in Fre. cbn [pend] in Fre. lia.
    + eexists. split; [|reflexivity]. apply (V_hand l il y); [exact Il|destruct Af; constructor].
    + split; [cb; now rewrite <- app_assoc|]. split; [repeat (apply Forall_cons || apply Forall_nil); cbn; unfold bad_ack; eauto|]. 
      split; [apply Forall_cons; [right; right; right; exact Db|constructor]|]. cb. cbn [packets flat_map app length cost total]. rewrite Vb. split; [lia|].
      unfold moves, dueb, duea, owed. cb. cbn [packets flat_map app]. rewrite B1, B2. split; intros z; cbn [nof count_occ app]; lia.
Qed.
Lemma wire_of m b : encodes m b -> wire m = Ok b.
Proof. intros E. destruct (wire_total m) as [b' W]. rewrite W. f_equal. eapply encodes_fun; [|exact E]. now apply wire_encodes. Qed.
Lemma hbdata_inv t d : hbdata t = [d] -> exists p, fget FHeartbeatData (m_f t) = Some p /\ HeartbeatData p = d.
Proof. unfold hbdata. destruct (fget FHeartbeatData (m_f t)) as [p|]; [|discriminate]. intros E. injection E as <-. eauto. Qed.
Lemma nof_self d : nof d [d] = 1.
Proof. unfold nof. cbn [count_occ]. destruct (cb_dec d d); [reflexivity|contradiction]. Qed.
Lemma nof_one d x : 1 <= nof d [x] -> x = d.
Proof. unfold nof. cbn [count_occ]. destruct (cb_dec x d); [auto|lia]. Qed.

Lemma grown_hand g g' ops c w i c' : grown g g' ops c w -> waits c -> step c (LHand i true) = Some c' -> advances2 g g' ops c c' w.
Proof.
  intros Gr Wt S. pose proof Gr as [G Cr K X So St D I Fi Fd Fu Hb Off Ack Ref Fre (x & W & Ew)]. unfold step in S. rewrite Cr in S. unfold step_hand in S.
  inversion W as [l Il Em Eh Ex|l Il Em Eh Ex|l il y Il Ch Em Eh Ex|l j e il y Il Be Af Em Eh Ex]; subst x.
  - subst l. destruct (nth_error (hs c) i) as [z|] eqn:N; [|discriminate]. rewrite (idle_nth _ _ _ Il N) in S. discriminate.
  - subst l. destruct (nth_error (hs c) i) as [z|] eqn:N; [|discriminate]. rewrite (idle_nth _ _ _ Il N) in S. discriminate.
  - rewrite <- Eh in S. destruct (idle_last l il i Il) as [N|[N|[-> N]]]; rewrite N in S; try discriminate.
    rewrite <- Em, <- Eh, cur_last in *. unfold waits in Wt. unfold duea, owed in Wt. rewrite <- Eh, cur_last in Wt.
    (* a chore that only moves on *)
    assert (Next : forall il' y', chore2 il' y' -> y' < y -> acking il' = acking il -> pend MSelect il' <= pend MSelect il -> hbeat il' = hbeat il -> hback il' = hback il ->
      forall D', Forall okd D' -> y' + total wd D' < y + total wd (ds c) ->
      advances2 g g' ops c (set_ds D' (set_hs (upd (l ++ [il]) (length l) il') c)) w).
    { intros il' y' Ch' L' A' P' B1 B2 D' Fd' Ld. exists []. eexists. split; [split; cb; rewrite ?upd_last, ?cur_last, <- ?Em; try eassumption; try reflexivity|].
      + intros H. destruct (Off H) as [H1 H2]. split; [exact H1|lia].
      + rewrite A'. exact Ack.
      + lia.
      + rewrite A'. intros H1 H2. specialize (Fre H1 H2). lia.
      + eexists. split; [|reflexivity]. apply V_hand; eassumption.
      + rewrite app_nil_r. split; [reflexivity|]. split; [constructor|]. split; [constructor|]. cb. cbn [packets flat_map app length cost total]. split; [lia|].
        unfold moves, dueb, duea, owed. cb. rewrite upd_last, <- Eh, !cur_last, A', B1, B2. cbn [packets flat_map app]. split; intros z; cbn [nof count_occ]; lia. }
    assert (Dsid : forall h, set_hs h c = set_ds (ds c) (set_hs h c)) by (intros; reflexivity).
    destruct Ch as [| |t Kt|t d Kt Ht Lt En|t d Kt Ht Lt En| |e Be|t d Kt Ht|t v Vt Ct|raw t [Pt Vt] Ct].
    + apply some_inj in S. subst c'. exists []. eexists. split; [split; cb; rewrite ?upd_last, ?cur_last; try eassumption; try reflexivity|].
      * eexists. split; [|reflexivity]. apply V_upd. now apply idle_snoc.
      * rewrite app_nil_r. split; [reflexivity|]. split; [constructor|]. split; [constructor|]. cb. cbn [packets flat_map app length cost total]. split; [lia|].
        unfold moves, dueb, duea, owed. cb. rewrite upd_last, <- Eh, !cur_last. cbn [packets flat_map app hbeat hback acking]. split; intros z; cbn [nof count_occ]; lia.
    + unfold unlocked in S. rewrite <- Em, St in S. apply some_inj in S. subst c'. rewrite Dsid. apply (Next [ISt Active] 1); try reflexivity; auto; constructor.
    + unfold unlocked in S. rewrite <- Em, St in S. unfold handle in S. rewrite Kt in S. apply some_inj in S. subst c'. rewrite Dsid.
      apply (Next [ICur] 2); try reflexivity; auto; try lia; [constructor| |]; cbn [hbeat hback beat_of back_of]; now rewrite Kt.
    + rewrite (signal_ok _ c _ _ (wire_of _ _ En) So) in S. apply some_inj in S. subst c'. destruct (cargo_back d Lt) as (Vb & B1 & B2).
      exists [ESend (OHand (length l)) 0 (beat_ack_of t) (beat_back d)]. eexists. split; [split; cb; rewrite <- ?Eh, ?upd_last, ?cur_last; try eassumption; try reflexivity|].
      * intros H. destruct (Off H) as [H1 H2]. split; [exact H1|]. rewrite refusals_app, <- Em. cbn [pend] in *. cbn. lia.
      * rewrite refusals_app, <- Em. cbn [pend] in *. cbn. lia.
      * intros H1 H2. specialize (Fre H1 H2). rewrite refusals_app, <- Em. cbn [pend] in *. cbn. lia.
      * eexists. split; [|reflexivity]. rewrite <- Em. apply V_hand; [exact Il|constructor].
      * split; [reflexivity|]. split; [repeat constructor|]. split; [apply Forall_cons; [right; right; left; eauto|constructor]|]. cb. cbn [packets flat_map app length cost total]. rewrite Vb. split; [lia|].
        unfold moves, dueb, duea, owed. cb. rewrite <- Eh, upd_last, !cur_last. cbn [packets flat_map app hbeat hback acking beat_of beat_ack_of m_kind]. rewrite Kt, B1, B2.
        change (hbdata (mkMsg KHeartbeat _ (m_f t))) with (hbdata t). rewrite Ht, app_nil_r.
        split; intros z; rewrite ?nof_app; cbn [nof count_occ app]; lia.
    + unfold unlocked in S. rewrite <- Em, St in S. unfold handle in S. rewrite Kt in S. cbn [st_eqb negb] in S. apply some_inj in S. subst c'. rewrite Dsid.
      apply (Next [IWrite (beat_ack_of t); ICur] 22); try reflexivity; auto; try lia; [econstructor; eassumption|]. cbn [hbeat hback beat_of back_of beat_ack_of m_kind]. rewrite Kt. reflexivity.
    + rewrite K in S. destruct (hb c) eqn:Hc; try discriminate. apply some_inj in S. subst c'.
      exists []. eexists. split; [split; cb; rewrite <- ?Eh, ?upd_last, ?cur_last, ?Hc, <- ?Em; try eassumption; try reflexivity|].
      * discriminate.
      * unfold bok in Hb. rewrite Hc in Hb. congruence.
      * eexists. split; [|reflexivity]. apply V_hand; [exact Il|constructor].
      * rewrite app_nil_r. split; [reflexivity|]. split; [constructor|]. split; [constructor|]. cb. cbn [packets flat_map app length cost total bw] in *. split; [lia|].
        unfold moves, dueb, duea, owed. cb. rewrite <- Eh, upd_last, !cur_last. cbn [packets flat_map app hbeat hback acking hbt]. split; intros z; cbn [nof count_occ]; lia.
    + unfold recv_err in S. cb. rewrite <- Em in S. apply some_inj in S. subst c'. exists []. eexists. split; [split; cb; rewrite <- ?Eh, ?upd_last, ?cur_last; try eassumption; try reflexivity|].
      * eexists. split; [|reflexivity]. apply V_err; [assumption|assumption|constructor].
      * rewrite app_nil_r. split; [reflexivity|]. split; [constructor|]. split; [constructor|]. cb. cbn [packets flat_map app length cost total bw] in *. split; [lia|].
        unfold moves, dueb, duea, owed. cb. rewrite <- Eh, upd_last, !cur_last. cbn [packets flat_map app hbeat hback acking hbt]. split; intros z; cbn [nof count_occ]; lia.
    + destruct (hbdata_inv _ _ Ht) as (p & Fp & Dp).
      assert (Tok : hbt (hb c) (hbd c) = [d]).
      { specialize (Wt d). cbn [hback back_of acking] in Wt. rewrite Kt, Ht, nof_app, nof_self in Wt.
        assert (L1 : 1 <= nof d (hbt (hb c) (hbd c))) by lia. destruct (hb c); cbn [hbt] in *; try (cbn in L1; lia); now rewrite (nof_one _ _ L1). }
      unfold unlocked in S. rewrite <- Em, St in S. unfold handle in S. rewrite Kt, Fp, Dp in S. cbn [st_eqb negb] in S.
      destruct (list_eq_dec Byte.byte_eq_dec d (hbd c)) as [Ed|Nd]; apply some_inj in S; subst c'.
      * exists []. eexists. split; [split; cb; rewrite <- ?Eh, ?upd_last, ?cur_last, <- ?Em; try eassumption; try reflexivity|].
        -- intros _. rewrite Tok. discriminate.
        -- discriminate.
        -- eexists. split; [|reflexivity]. apply V_hand; [exact Il|constructor].
        -- rewrite app_nil_r. split; [reflexivity|]. split; [constructor|]. split; [constructor|]. cb. cbn [packets flat_map app length cost total bw] in *. split; [lia|].
           unfold moves, dueb, duea, owed. cb. rewrite <- Eh, upd_last, !cur_last. cbn [packets flat_map app hbeat hback acking back_of beat_of]. rewrite Kt, Ht, Tok.
           split; intros z; rewrite ?nof_app; cbn [nof count_occ]; lia.
      * assert (Hf : hba c = false).
        { destruct (hba c) eqn:Ha; [|reflexivity]. exfalso. apply Nd. unfold bok in Hb. destruct (hb c); cbn [hbt] in Tok; try discriminate.
          - destruct Hb as [_ Hb]. rewrite (Hb Ha). congruence.
          - congruence. }
        assert (R0 : refusals (log c) + 0 = 0) by (apply Fre; auto).
        exists []. eexists. split; [split; cb; rewrite <- ?Eh, ?upd_last, ?cur_last, <- ?Em; try eassumption; try reflexivity|].
        -- intros H. destruct (Off H) as [H1 _]. rewrite (off_hbt _ _ H1) in Tok. discriminate.
        -- intros _. rewrite Tok. discriminate.
        -- cbn [pend]. lia.
        -- discriminate.
        -- eexists. split; [|reflexivity]. apply V_hand; [exact Il|constructor]. exists t. auto.
        -- rewrite app_nil_r. split; [reflexivity|]. split; [constructor|]. split; [constructor|]. cb. cbn [packets flat_map app length cost total bw] in *. split; [lia|].
           unfold moves, dueb, duea, owed. cb. rewrite <- ?Eh, upd_last, !cur_last. cbn [packets flat_map app hbeat hback acking back_of beat_of]. rewrite Kt, Ht, Tok.
           split; intros z; rewrite ?nof_app; cbn [nof count_occ]; lia.
    + rewrite X, Vt in S. cbn [N.eqb Pos.eqb negb] in S. destruct Ct as [[Kt Gp]|Kt|d Kt Ht|d Kt Ht Lt En]; cbn [plan] in S; rewrite Kt in S; apply some_inj in S; subst c'.
      * cb. rewrite <- ?Eh. apply (Next [ICur] 2); try reflexivity; auto; try lia; [constructor| | | |].
        -- cbn [hbeat beat_of]. now rewrite Kt.
        -- cbn [hback back_of]. now rewrite Kt.
        -- apply Forall_app. split; [exact Fd|]. constructor; [split; [exact Kt|exact Gp]|constructor].
        -- rewrite total_app. cbn [total wd]. lia.
      * rewrite <- ?Eh, Dsid. apply (Next [IHandle t; ICur] 3); try reflexivity; auto; try lia. now constructor.
      * rewrite <- ?Eh, Dsid. apply (Next [IHandle t; IBeatAck; ICur] 14); try reflexivity; auto; try lia. econstructor; eassumption.
      * rewrite <- ?Eh, Dsid. apply (Next [IHandle t; ICur] 23); try reflexivity; auto; try lia. econstructor; eassumption.
    + rewrite Pt in S. apply some_inj in S. subst c'. rewrite <- ?Eh, Dsid. apply (Next [ISig (Typed t)] (value raw - 3)); try reflexivity; auto.
      * constructor; assumption.
      * destruct Ct; lia.
      * cbn [hbeat]. unfold beat_in. now rewrite Pt.
      * cbn [hback]. unfold back_in. now rewrite Pt.
      * destruct Ct; lia.
  - rewrite <- ?Eh in S. destruct (idle_last l il i Il) as [N|[N|[-> N]]]; rewrite N in S; try discriminate. rewrite <- Em, <- Eh, cur_last in *. destruct Af.
    + rewrite K in S. destruct (hb c) eqn:Hc; try discriminate. apply some_inj in S. subst c'.
      exists []. eexists. split; [split; cb; rewrite <- ?Eh, ?upd_last, ?cur_last, ?Hc, <- ?Em; try eassumption; try reflexivity|].
      * discriminate.
      * unfold bok in Hb. rewrite Hc in Hb. congruence.
      * eexists. split; [|reflexivity]. apply V_err; [exact Il|exact Be|constructor].
      * rewrite app_nil_r. split; [reflexivity|]. split; [constructor|]. split; [constructor|]. cb. cbn [packets flat_map app length cost total bw] in *. split; [lia|].
        unfold moves, dueb, duea, owed. cb. rewrite <- Eh, upd_last, !cur_last. cbn [packets flat_map app hbeat hback acking hbt]. split; intros z; cbn [nof count_occ]; lia.
    + unfold unlocked in S. rewrite <- Em, St in S. apply some_inj in S. subst c'.
      exists []. eexists. split; [split; cb; rewrite <- ?Eh, ?upd_last, ?cur_last, <- ?Em; try eassumption; try reflexivity|].
      * eexists. split; [|reflexivity]. apply V_err; [exact Il|exact Be|constructor].
      * rewrite app_nil_r. split; [reflexivity|]. split; [constructor|]. split; [constructor|]. cb. cbn [packets flat_map app length cost total bw] in *. split; [lia|].
        unfold moves, dueb, duea, owed. cb. rewrite <- Eh, upd_last, !cur_last. cbn [packets flat_map app hbeat hback acking hbt]. split; intros z; cbn [nof count_occ]; lia.
    + discriminate.
Qed.
Lemma grown_data g g' ops c w i c' : grown g g' ops c w -> step c (LData i) = Some c' -> advances2 g g' ops c c' w.
Proof.
  intros Gr S. pose proof Gr as [G Cr K X So St D I Fi Fd Fu Hb Off Ack Ref Fre (x & W & Ew)]. unfold step in S. rewrite Cr in S. unfold step_data in S.
  destruct (nth_error (ds c) i) as [d|] eqn:N; [|discriminate]. assert (Od : okd d) by (rewrite Forall_forall in Fd; apply Fd; eapply nth_error_In; eauto).
  assert (Done : forall d' q, okd d' -> wd d' < wd d -> advances2 g g' ops c (set_ds (upd (ds c) i d') (set_dq q c)) w).
  { intros d' q O L. exists []. eexists. split; [split; cb; try eassumption; try reflexivity|].
    * now apply Forall_upd.
    * eexists. split; [exact W|reflexivity].
    * rewrite app_nil_r. split; [reflexivity|]. split; [constructor|]. split; [constructor|]. cb. pose proof (total_upd wd _ _ _ d' N). cbn [packets flat_map length cost total]. split; [lia|].
      unfold moves, dueb, duea, owed. cb. cbn [packets flat_map app]. split; intros z; cbn [nof count_occ]; lia. }
  assert (Eq : forall d', set_ds (upd (ds c) i d') c = set_ds (upd (ds c) i d') (set_dq (dq c) c)) by (intros; now destruct c).
  destruct d as [t|e|t|pd|]; try contradiction; try discriminate.
  - rewrite (work2_unlocked _ _ _ c W eq_refl), St in S. cbn [st_eqb] in S. apply some_inj in S. subst c'. rewrite Eq. apply Done; [exact Od|cbn; lia].
  - destruct Od as [Kt (p & pd & F & P)]. rewrite F, P in S. apply some_inj in S. subst c'. rewrite Eq. apply Done; [exact Logic.I|cbn; lia].
  - rewrite K in S. destruct (N.of_nat (length (dq c)) <? data_cap)%N; [|discriminate]. apply some_inj in S. subst c'. cb.
    change (ds (set_dq (dq c ++ [pd]) c)) with (ds c). apply Done; [exact Logic.I|cbn; lia].
Qed.
Lemma grown_hb g g' ops c w c' : grown g g' ops c w -> step c (LHb true) = Some c' -> advances2 g g' ops c c' w.
Proof.
  intros Gr S. pose proof Gr as [G Cr K X So St D I Fi Fd Fu Hb Off Ack Ref Fre (x & W & Ew)]. unfold step in S. rewrite Cr in S. unfold step_hb in S.
  unfold bok in Hb. destruct (hb c) eqn:Eh; try discriminate; try contradiction.
  - apply some_inj in S. subst c'. exists []. eexists. split; [split; cb; try eassumption; try reflexivity|].
    + eexists. split; [exact W|reflexivity].
    + rewrite app_nil_r. split; [reflexivity|]. split; [constructor|]. split; [constructor|]. cb. cbn [packets flat_map length cost total bw]. split; [cbn [bw] in Ew; lia|].
      unfold moves, dueb, duea, owed. cb. rewrite Eh. cbn [packets flat_map app hbt]. split; intros z; cbn [nof count_occ]; lia.
  - rewrite G in S. apply some_inj in S. subst c'. exists []. eexists. split; [split; cb; try eassumption; try reflexivity|].
    + unfold bok. cb. now destruct (hb_on g).
    + intros H. destruct (Off H) as [_ H2]. rewrite H. split; [exact Logic.I|exact H2].
    + intros H. specialize (Ack H). now destruct (hb_on g).
    + eexists. split; [exact W|reflexivity].
    + rewrite app_nil_r. split; [reflexivity|]. split; [constructor|]. split; [constructor|]. cb. cbn [packets flat_map length cost total bw]. split; [cbn [bw] in Ew; destruct (hb_on g); cbn [bw]; lia|].
      unfold moves, dueb, duea, owed. cb. rewrite Eh. cbn [packets flat_map app hbt]. split; intros z; destruct (acking (cur (hs c))), (hb_on g); cbn [hbt nof count_occ]; lia.
  - destruct Hb as [Ld Hd]. destruct (wire_total (beat d)) as [b Wb]. pose proof (wire_encodes _ _ Wb) as En. rewrite (signal_ok OHb c _ _ Wb So) in S. apply some_inj in S. subst c'.
    assert (Ac : acking (cur (hs c)) = false) by (destruct (acking (cur (hs c))); [exfalso; now apply Ack|reflexivity]).
    destruct (cargo_beat d b Ld En) as (Vb & B1 & B2).
    exists [ESend OHb 0 (beat d) b]. eexists. split; [split; cb; try eassumption; try reflexivity|].
    + unfold bok. cb. auto.
    + intros H. destruct (Off H) as [H1 _]. contradiction.
    + discriminate.
    + rewrite refusals_app. cbn. lia.
    + intros H1 H2. rewrite refusals_app. specialize (Fre H1 H2). cbn. lia.
    + eexists. split; [exact W|reflexivity].
    + split; [reflexivity|]. split; [repeat constructor|]. split; [apply Forall_cons; [right; left; eauto|constructor]|]. cb. cbn [packets flat_map app length cost total bw] in *. rewrite Vb. split; [lia|].
      unfold moves, dueb, duea, owed. cb. rewrite Eh, Ac. cbn [packets flat_map app hbt]. rewrite B1, B2. cbn [app]. split; intros z; cbn [nof count_occ]; lia.
  - destruct Hb as [Ld Hd]. apply some_inj in S. subst c'. exists []. eexists. split; [split; cb; try eassumption; try reflexivity|].
    + discriminate.
    + eexists. split; [exact W|reflexivity].
    + rewrite app_nil_r. split; [reflexivity|]. split; [constructor|]. split; [constructor|]. cb. cbn [packets flat_map length cost total bw] in *. split; [lia|].
      unfold moves, dueb, duea, owed. cb. rewrite Eh. cbn [packets flat_map app hbt]. split; intros z; cbn [nof count_occ]; lia.
  - rewrite K in S. discriminate.
Qed.
Lemma grown_rand g g' ops c w d c' : grown g g' ops c w -> step c (LHbRand d) = Some c' -> advances2 g g' ops c c' w.
Proof.
  intros Gr S. pose proof Gr as [G Cr K X So St D I Fi Fd Fu Hb Off Ack Ref Fre (x & W & Ew)]. unfold step in S. rewrite Cr in S.
  destruct (hb c) eqn:Eh; try discriminate. destruct (Nat.eqb_spec (length d) 128) as [Ld|]; [|discriminate].
  assert (c' = set_hb (BWrite d) (set_hbd (if hba c then d else hbd c) c)) as -> by (apply some_inj in S; subst c'; destruct c as [? ? ? ? ? ? ? ? ? ? ? ? ? ? ? ? ? [] ? ?]; reflexivity).
  exists []. eexists. split; [split; cb; try eassumption; try reflexivity|].
  - unfold bok. cb. split; [exact Ld|]. intros ->. reflexivity.
  - eexists. split; [exact W|reflexivity].
  - rewrite app_nil_r. split; [reflexivity|]. split; [constructor|]. split; [constructor|]. cb. cbn [packets flat_map length cost total bw] in *. split; [lia|].
    unfold moves, dueb, duea, owed. cb. rewrite Eh. cbn [packets flat_map app hbt]. split; intros z; destruct (acking (cur (hs c))); cbn [nof count_occ]; lia.
Qed.
(** the Interval of the heartbeat goroutine elapses *)
Lemma grown_tick g g' ops c w c' : grown g g' ops c w -> hb c = BSleep -> step c LHbTimer = Some c' ->
  grown g g' ops c' (31 + w) /\ log c' = log c /\ moves c c' [].
Proof.
  intros Gr Eh S. pose proof Gr as [G Cr K X So St D I Fi Fd Fu Hb Off Ack Ref Fre (x & W & Ew)]. unfold step in S. rewrite Cr, Eh in S. apply some_inj in S. subst c'.
  split; [split; cb; try eassumption; try reflexivity|split; [reflexivity|]].
  - intros H. destruct (Off H) as [H1 _]. rewrite Eh in H1. contradiction.
  - intros H. specialize (Ack H). rewrite Eh in Ack. exact Ack.
  - eexists. split; [exact W|]. rewrite Ew, Eh. cbn [bw]. lia.
  - unfold moves, dueb, duea, owed. cb. rewrite Eh. cbn [packets flat_map app hbt]. split; intros z; destruct (acking (cur (hs c))); cbn [nof count_occ]; lia.
Qed.
Lemma carried_plain g l : cfg_ok g -> Forall (carried g) l -> flat_map beat_in l = [] /\ flat_map back_in l = [] /\ cost l = 10 * length l.
Proof.
  intros Ok F. induction F as [|r l Cr F IH]; [auto|]. destruct IH as (I1 & I2 & I3). destruct (cargo_data g r Ok Cr) as (V & B1 & B2).
  cbn [flat_map length]. rewrite B1, B2, I1, I2. unfold cost in *. cbn [total]. rewrite V, I3. repeat split; lia.
Qed.
Lemma calm_mild e : calm_event e -> mild e.
Proof. destruct e; cbn; tauto. Qed.
Lemma calm_refusals es : Forall calm_event es -> refusals es = 0.
Proof. intros F. induction F as [|e es Ce F IH]; [reflexivity|]. unfold refusals in *. cbn [total]. rewrite IH. now destruct e. Qed.
(** the users' goroutines do not touch what [grown] says more than [carry] *)
Lemma grown_user g g' ops c w i c' : cfg_ok g -> grown g g' ops c w -> step c (LUser i true) = Some c' -> advances2 g g' ops c c' w.
Proof.
  intros Ok Gr S. pose proof Gr as [G Cr K X So St D I Fi Fd Fu Hb Off Ack Ref Fre (x & W & Ew)]. unfold step in S. rewrite Cr in S. unfold step_user in S.
  destruct (nth_error (us c) i) as [u|] eqn:N; [|discriminate]. destruct (Forall2_nth _ _ _ Fu i u N) as (op & No & Ou).
  pose proof (work2_unlocked _ _ _ c W eq_refl) as Un.
  assert (Done : forall v q es, oku g (maxs c) op v -> Forall calm_event es -> Forall (carried g) (packets es) -> wu v + 10 * length (packets es) < wu u ->
    advances2 g g' ops c (set_us (upd (us c) i v) (set_log (log c ++ es) (set_dq q c))) w).
  { intros v q es O Ce Ca L. destruct (carried_plain _ _ Ok Ca) as (P1 & P2 & P3). pose proof (calm_refusals _ Ce) as R0.
    exists es. eexists. split; [split; cb; rewrite ?refusals_app, ?R0, ?Nat.add_0_r; try eassumption; try reflexivity|].
    * eapply Forall2_upd_nth; eauto.
    * eexists. split; [exact W|reflexivity].
    * split; [reflexivity|]. split; [eapply Forall_impl; [apply calm_mild|exact Ce]|]. split; [eapply Forall_impl; [|exact Ca]; intros r Hr; left; exact Hr|].
      cb. pose proof (total_upd wu _ _ _ v N). rewrite P3. split; [lia|].
      unfold moves, dueb, duea, owed. cb. rewrite P1, P2. split; intros z; cbn [nof count_occ]; lia. }
  assert (Eq : forall v, set_us (upd (us c) i v) c = set_us (upd (us c) i v) (set_log (log c ++ []) (set_dq (dq c) c))) by (intros; rewrite app_nil_r; now destruct c).
  destruct Ou as [Ou Lb]. destruct op; try contradiction.
  - destruct Ou as [->|[->|(pd & ->)]].
    + rewrite Un, St in S. cbn [st_eqb] in S. apply some_inj in S. subst c'. rewrite Eq. apply Done; [split; [auto|exact Lb]|constructor|constructor|cbn; lia].
    + destruct (dq c) as [|pd r] eqn:Q; [rewrite K in S; discriminate|]. apply some_inj in S. subst c'.
      apply (Done (UDone (read_result (Some buf) pd)) r [EDeliver pd]); [split; [eauto|exact Lb]|repeat constructor|constructor|cbn; lia].
    + discriminate.
  - destruct Ou as [->|[->|(pd & ->)]].
    + rewrite Un, St in S. cbn [st_eqb] in S. apply some_inj in S. subst c'. rewrite Eq. apply Done; [split; [auto|exact Lb]|constructor|constructor|cbn; lia].
    + destruct (dq c) as [|pd r] eqn:Q; [rewrite K in S; discriminate|]. apply some_inj in S. subst c'.
      apply (Done (UDone (read_result None pd)) r [EDeliver pd]); [split; [eauto|exact Lb]|repeat constructor|constructor|cbn; lia].
    + discriminate.
  - destruct Ou as [(-> & Mx)|[(s & ->)|[(s & ->)|(n & ->)]]].
    + destruct (choose_stream (maxs c) rnd) as [[s|]|e|p] eqn:Cs; try discriminate.
      * apply some_inj in S. subst c'. rewrite Eq. apply Done; [split; [eauto|exact Lb]|constructor|constructor|cbn; lia].
      * exfalso. unfold choose_stream in Cs. destruct Mx as [E|Lt]; [rewrite E in Cs; discriminate|].
        destruct (maxs c =? 1)%N; [discriminate|]. destruct (N.eqb_spec (maxs c) 0) as [E0|]; [rewrite E0 in Lt; lia|]. destruct (rnd <? maxs c)%N; discriminate.
    + rewrite Un, St in S. cbn [st_eqb] in S. apply some_inj in S. subst c'. rewrite Eq. apply Done; [split; [rewrite G; eauto 6|exact Lb]|constructor|constructor|cbn; lia].
    + inversion Lb as [|? ? Lb1 _]; subst. destruct (encodes_data _ _ Ok Lb1) as (m' & bs & E). rewrite E in S. unfold can_write in S. rewrite So in S. cbn [andb] in S.
      apply some_inj in S. subst c'. eapply (Done (UDone (RWrote (length bs + length bs))) (dq c) [ESend (OUser i) s (user_data (cfg c) b) bs]) ;
        [split; [eauto 6|exact Lb]|repeat constructor|constructor; [exists b; split; [exact Lb1|exists m'; exact E]|constructor]|cbn; lia].
    + discriminate.
  - destruct Ou as [->|[(s & ->)|(n & ->)]].
    + rewrite Un, St in S. cbn [st_eqb] in S. apply some_inj in S. subst c'. rewrite Eq. apply Done; [split; [rewrite G; eauto 6|exact Lb]|constructor|constructor|cbn; lia].
    + inversion Lb as [|? ? Lb1 _]; subst. destruct (encodes_data _ _ Ok Lb1) as (m' & bs & E). rewrite E in S. unfold can_write in S. rewrite So in S. cbn [andb] in S.
      apply some_inj in S. subst c'. eapply (Done (UDone (RWrote (length bs + length bs))) (dq c) [ESend (OUser i) s (user_data (cfg c) b) bs]) ;
        [split; [eauto 6|exact Lb]|repeat constructor|constructor; [exists b; split; [exact Lb1|exists m'; exact E]|constructor]|cbn; lia].
    + discriminate.
  - destruct Ou as [->| ->].
    + rewrite Un, St in S. apply some_inj in S. subst c'. rewrite Eq. apply Done; [split; [auto|exact Lb]|constructor|constructor|cbn; lia].
    + discriminate.
Qed.
Lemma grown_step g g' ops c w l c' : cfg_ok g -> cfg_ok g' -> speaks g -> grown g g' ops c w -> waits c -> fair l -> l <> LHbTimer -> step c l = Some c' -> advances2 g g' ops c c' w.
Proof.
  intros Ok Ok' Sp Gr Wt F Nt S. destruct (grown_labels _ _ _ _ _ _ _ Gr F Nt S) as [->|[(i & ->)|[(i & ->)|[->|[(d & ->)|(i & ->)]]]]].
  - eapply grown_mon; eauto.
  - eapply grown_hand; eauto.
  - eapply grown_data; eauto.
  - eapply grown_hb; eauto.
  - eapply grown_rand; eauto.
  - eapply grown_user; eauto.
Qed.
Lemma grown_arrive g g' ops c w raw : grown g g' ops c w -> proper g' raw ->
  exists c', step c (LArrive raw) = Some c' /\ grown g g' ops c' (value raw + w) /\ log c' = log c /\
    (forall x, nof x (dueb c') = nof x (dueb c) + nof x (beat_in raw)) /\ (forall x, nof x (duea c') = nof x (duea c) + nof x (back_in raw)) /\ owed c' = owed c.
Proof.
  intros Gr R. pose proof Gr as [G Cr K X So St D I Fi Fd Fu Hb Off Ack Ref Fre (x & W & Ew)]. unfold step. rewrite Cr. eexists. split; [reflexivity|]. split; [|split; [reflexivity|]].
  - split; cb; try eassumption; try reflexivity.
    + apply Forall_app. auto.
    + exists x. split; [exact W|]. rewrite total_app. cbn [total]. lia.
  - unfold dueb, duea, owed. cb. split; [|split; [|reflexivity]]; intros z; rewrite flat_map_app, !nof_app; cbn [flat_map]; rewrite app_nil_r; lia.
Qed.
Lemma grown_call g g' ops c w op c' : grown g g' ops c w -> sane c op -> step c (LCall op) = Some c' ->
  exists w', grown g g' (ops ++ [op]) c' w' /\ w' <= 13 + w /\ log c' = log c /\ moves c c' [].
Proof.
  intros Gr Sa S. pose proof Gr as [G Cr K X So St D I Fi Fd Fu Hb Off Ack Ref Fre (x & W & Ew)]. unfold step in S. rewrite Cr, D in S. apply some_inj in S. subst c'.
  assert (O : oku g (maxs c) op (UGo op)).
  { unfold sane in Sa. rewrite G in Sa. destruct op; try contradiction; split; auto; cbn [written flat_map app]; repeat (apply Forall_cons || apply Forall_nil); tauto. }
  eexists. split; [|split; [|split; [reflexivity|]]].
  - split; cb; try eassumption; try reflexivity.
    + apply Forall2_app; auto.
    + eexists. split; [exact W|reflexivity].
  - cb. rewrite total_app. cbn [total]. assert (wu (UGo op) <= 13) by (destruct op; cbn; lia). lia.
  - unfold moves, dueb, duea, owed. cb. cbn [packets flat_map app]. split; intros z; cbn [nof count_occ]; lia.
Qed.

(** ** Rest *)
Definition hb_quiet (h : bpc) : Prop := match h with BWait | BAck | BSleep | BDone => True | _ => False end.
Definition can_go (c : conn) : Prop := exists l c', fair l /\ l <> LHbTimer /\ step c l = Some c'.
Lemma grown_dec_quiet g g' ops c w : cfg_ok g -> cfg_ok g' -> speaks g -> grown g g' ops c w -> hb_quiet (hb c) -> can_go c \/ (still ops c /\ idle (hs c)).
Proof.
  intros Ok Ok' Sp Gr Hq. pose proof Gr as [G Cr K X So St D I Fi Fd Fu Hb Off Ack Ref Fre (x & W & Ew)].
  assert (Go : forall l c' (Q : Prop), fair l -> l <> LHbTimer -> step c l = Some c' -> can_go c \/ Q) by (intros; left; unfold can_go; eauto).
  pose proof (work2_unlocked _ _ _ c W eq_refl) as Un.
  inversion W as [l Il Em Eh Ex|l Il Em Eh Ex|l il y Il Ch Em Eh Ex|l i e il y Il Be Af Em Eh Ex]; subst x.
  2:{ eapply (Go (LMon true)); [split; [exact Logic.I|discriminate]|discriminate|]. unfold step. rewrite Cr. unfold step_mon. rewrite <- Em. reflexivity. }
  2:{ assert (F : fair (LHand (length l) true)) by (split; [exact Logic.I|discriminate]).
      destruct (step c (LHand (length l) true)) as [c'|] eqn:S; [eapply Go; [exact F|discriminate|exact S]|]. exfalso. rewrite <- Eh, cur_last in Ack. unfold step in S. rewrite Cr in S. unfold step_hand in S. rewrite <- Eh, nth_last in S.
      rewrite ?X, ?Un, <- ?Em, ?K in S. destruct Ch as [| |t Kt|t d Kt Ht Lt En|t d Kt Ht Lt En| |e Be|t d Kt Ht|t v Vt Ct|raw t [Pt Vt] Ct]; try discriminate.
      - destruct (handle (cfg c) (hbd c) (state c) t); discriminate.
      - rewrite (signal_ok _ c _ _ (wire_of _ _ En) So) in S. discriminate.
      - destruct (handle (cfg c) (hbd c) (state c) t); discriminate.
      - specialize (Ack eq_refl). destruct (hb c); cbn [hbt hb_quiet] in *; try contradiction; try discriminate; now apply Ack.
      - unfold recv_err in S. cb. rewrite <- Em in S. discriminate.
      - destruct (handle (cfg c) (hbd c) (state c) t); discriminate.
      - rewrite Vt in S. cbn [N.eqb Pos.eqb negb] in S. destruct (plan (Typed t)) as [[]]; discriminate.
      - rewrite Pt in S. discriminate. }
  2:{ destruct Be as (t & -> & Kt). destruct (sp_unexp g Sp (Typed t)) as (r & Er & b & Wb & Db).
      eapply (Go (LMon true)); [split; [exact Logic.I|discriminate]|discriminate|]. unfold step. rewrite Cr. unfold step_mon. rewrite <- Em.
      change (cfg (emit (ERefused (OHand i) (EUnexpected (Typed t))) c)) with (cfg c). rewrite G, Er. rewrite (signal_ok OMon _ r b Wb) by exact So. reflexivity. }
  destruct (inq c) as [|p q] eqn:Q.
  2:{ eapply (Go (LMon true)); [split; [exact Logic.I|discriminate]|discriminate|]. unfold step. rewrite Cr. unfold step_mon. rewrite <- Em, So, Q. reflexivity. }
  destruct (all_or_one (data_ready (dq c)) (ds c)) as [Nd|(i & d & N & Rd)].
  2:{ destruct (step c (LData i)) as [c'|] eqn:S; [eapply Go; [| |exact S]; [split; [exact Logic.I|discriminate]|discriminate]|]. exfalso. unfold step in S. rewrite Cr in S. unfold step_data in S. rewrite N in S.
      assert (Od : okd d) by (rewrite Forall_forall in Fd; apply Fd; eapply nth_error_In; eauto).
      destruct d as [t|e|t|pd|]; try contradiction; try discriminate.
      - rewrite Un in S. discriminate.
      - destruct Od as [Kt (p & pd & F & P)]. rewrite F, P in S. discriminate.
      - rewrite K in S. cbn [data_ready] in Rd. rewrite Rd in S. discriminate. }
  destruct (all_or_one (user_ready (dq c)) (us c)) as [Nu|(i & u & N & Ru)].
  2:{ destruct (step c (LUser i true)) as [c'|] eqn:S; [eapply Go; [| |exact S]; [split; [exact Logic.I|discriminate]|discriminate]|]. exfalso. unfold step in S. rewrite Cr in S. unfold step_user in S. rewrite N in S.
      destruct (Forall2_nth _ _ _ Fu i u N) as (op & No & Ou & Lb). destruct op; try contradiction.
      - destruct Ou as [->|[->|(pd & ->)]]; [rewrite Un in S; discriminate|destruct (dq c); [discriminate|discriminate]|discriminate].
      - destruct Ou as [->|[->|(pd & ->)]]; [rewrite Un in S; discriminate|destruct (dq c); [discriminate|discriminate]|discriminate].
      - destruct Ou as [(-> & Mx)|[(s & ->)|[(s & ->)|(n & ->)]]].
        + unfold choose_stream in S. destruct Mx as [E|Lt]; [rewrite E in S; discriminate|].
          destruct (maxs c =? 1)%N; [discriminate|]. destruct (N.eqb_spec (maxs c) 0) as [E0|]; [discriminate|]. destruct (N.ltb_spec rnd (maxs c)); [discriminate|lia].
        + rewrite Un in S. discriminate.
        + inversion Lb as [|? ? Lb1 _]; subst. destruct (encodes_data _ _ Ok Lb1) as (m' & bs & E). rewrite E in S. destruct (can_write c true); discriminate.
        + discriminate.
      - destruct Ou as [->|[(s' & ->)|(n & ->)]].
        + rewrite Un in S. discriminate.
        + inversion Lb as [|? ? Lb1 _]; subst. destruct (encodes_data _ _ Ok Lb1) as (m' & bs & E). rewrite E in S. destruct (can_write c true); discriminate.
        + discriminate.
      - destruct Ou as [->| ->]; [rewrite Un in S; discriminate|discriminate]. }
  right. split; [|congruence]. split; auto.
  - clear -Fu Nu. revert Nu. induction Fu as [|op u ops ul [Ou Lb] Ft IH]; intros Nu; constructor.
    + specialize (Nu u (or_introl eq_refl)). destruct op; try contradiction; cbn [answered].
      * destruct Ou as [->|[->|(pd & ->)]]; [discriminate|right; split; [reflexivity|]; cbn in Nu; now destruct (dq c)|eauto].
      * destruct Ou as [->|[->|(pd & ->)]]; [discriminate|right; split; [reflexivity|]; cbn in Nu; now destruct (dq c)|eauto].
      * destruct Ou as [(-> & Mx)|[(s & ->)|[(s & ->)|(n & ->)]]]; try discriminate. eauto.
      * destruct Ou as [->|[(s' & ->)|(n & ->)]]; try discriminate. eauto.
      * destruct Ou as [->| ->]; [discriminate|reflexivity].
    + apply IH. intros v Iv. apply Nu. now right.
  - destruct (N.leb_spec 65535 (N.of_nat (length (dq c)))) as [Lq|Lq]; [auto|]. left. apply Forall_forall. intros d Id. specialize (Nd d Id).
    assert (Od : okd d) by (rewrite Forall_forall in Fd; auto). destruct d as [t|e|t|pd|]; try contradiction; try discriminate; [|reflexivity].
    cbn [data_ready] in Nd. apply N.ltb_ge in Nd. unfold data_cap in Nd. lia.
Qed.
Lemma grown_dec g g' ops c w : cfg_ok g -> cfg_ok g' -> speaks g -> grown g g' ops c w -> can_go c \/ (still ops c /\ idle (hs c) /\ hb_quiet (hb c)).
Proof.
  intros Ok Ok' Sp Gr. pose proof (grown_dec_quiet _ _ _ _ _ Ok Ok' Sp Gr) as Q. pose proof (gw_crash _ _ _ _ _ Gr) as Cr. pose proof (gw_open _ _ _ _ _ Gr) as So. pose proof (gw_hb _ _ _ _ _ Gr) as Hb.
  assert (FH : fair (LHb true)) by (split; [exact Logic.I|discriminate]).
  assert (Go : forall l c', fair l -> l <> LHbTimer -> step c l = Some c' -> can_go c \/ (still ops c /\ idle (hs c) /\ hb_quiet (hb c))) by (intros; left; unfold can_go; eauto).
  destruct (hb c) eqn:Hc; try (unfold bok in Hb; rewrite Hc in Hb; contradiction); try (destruct (Q Logic.I) as [H|[H1 H2]]; [left; exact H|right; split; [exact H1|split; [exact H2|exact Logic.I]]]).
  - eapply (Go (LHb true)); [exact FH|discriminate|]. unfold step, step_hb. rewrite Cr, Hc. reflexivity.
  - eapply (Go (LHb true)); [exact FH|discriminate|]. unfold step, step_hb. rewrite Cr, Hc. reflexivity.
  - eapply (Go (LHbRand (repeat x00 128))); [split; [exact Logic.I|discriminate]|discriminate|]. unfold step. rewrite Cr, Hc. reflexivity.
  - destruct (wire_total (beat d)) as [b Wb]. eapply (Go (LHb true)); [exact FH|discriminate|]. unfold step, step_hb. rewrite Cr, Hc, (signal_ok OHb c _ _ Wb So). reflexivity.
  - eapply (Go (LHb true)); [exact FH|discriminate|]. unfold step, step_hb. rewrite Cr, Hc. reflexivity.
Qed.

(** ** The handshake *)
Record plays2 (gc gs : config) (up act upk ack : list byte) (mu ma mk mc : msg) : Prop := {
  q_up : wire (asp_up gc) = Ok up; q_act : wire (asp_active gc) = Ok act;
  q_upk : wire (up_ack gs) = Ok upk; q_ack : wire (active_ack gs) = Ok ack;
  q_mu : valid up (Typed mu); q_ma : valid act (Typed ma); q_mk : valid upk (Typed mk); q_mc : valid ack (Typed mc);
  q_ku : m_kind mu = KAspUp; q_ka : m_kind ma = KAspActive; q_kk : m_kind mk = KAspUpAck; q_kc : m_kind mc = KAspActiveAck;
  q_lu : length up <= bufsize; q_la : length act <= bufsize; q_lk : length upk <= bufsize; q_lc : length ack <= bufsize }.
Lemma says_kind m x k : says m x -> (forall t, sym (Typed t) = Some x -> m_kind t = k) -> (forall g, sym (Gen g) <> Some x) ->
  exists b t, wire m = Ok b /\ valid b (Typed t) /\ m_kind t = k /\ length b <= bufsize.
Proof.
  intros (b & W & m' & V & S & L) K N. destruct m' as [t|ge]; [|now apply N in S]. exists b, t. auto.
Qed.
Lemma cfg_plays2 gc gs : speaks gc -> speaks gs -> exists up act upk ack mu ma mk mc, plays2 gc gs up act upk ack mu ma mk mc.
Proof.
  intros Sc Ss.
  destruct (says_kind _ _ KAspUp (sp_up gc Sc)) as (up & mu & W1 & V1 & K1 & L1); [intros t; cbn [sym]; now destruct (m_kind t)|intros ge; discriminate|].
  destruct (says_kind _ _ KAspActive (sp_act gc Sc)) as (act & ma & W2 & V2 & K2 & L2); [intros t; cbn [sym]; now destruct (m_kind t)|intros ge; discriminate|].
  destruct (says_kind _ _ KAspUpAck (sp_upk gs Ss)) as (upk & mk & W3 & V3 & K3 & L3); [intros t; cbn [sym]; now destruct (m_kind t)|intros ge; discriminate|].
  destruct (says_kind _ _ KAspActiveAck (sp_ack gs Ss)) as (ack & mc & W4 & V4 & K4 & L4); [intros t; cbn [sym]; now destruct (m_kind t)|intros ge; discriminate|].
  exists up, act, upk, ack, mu, ma, mk, mc. now constructor.
Qed.
Definition fresh_hb (h : bpc) : Prop := h = BStart \/ h = BWait.
Lemma young_labels c l c' : us c = [] -> ds c = [] -> ctxd c = false -> closed c = false -> fresh_hb (hb c) -> crash c = None ->
  benign l -> step c l = Some c' ->
  (hb c = BStart /\ c' = set_hb BWait c) \/ l = LInit \/ l = LMon true \/ exists i, l = LHand i true.
Proof.
  intros U D X K H C B S. unfold step in S. rewrite C in S.
  assert (Nn : forall A i, @nth_error A [] i = None) by (intros A [|]; reflexivity).
  destruct l; try contradiction; try rewrite D in S; try rewrite U in S; try rewrite X in S; try rewrite K in S; auto.
  - destruct ok; [auto|contradiction].
  - destruct (mon c); discriminate.
  - destruct ok; [eauto 6|contradiction].
  - unfold step_data in S. rewrite D, Nn in S. discriminate.
  - rewrite Nn in S. discriminate.
  - unfold step_hb in S. destruct H as [H|H]; rewrite H in *; [|discriminate]. left. injection S as <-. auto.
  - destruct H as [H|H]; rewrite H in S; discriminate.
  - destruct H as [H|H]; rewrite H in S; discriminate.
  - destruct H as [H|H]; rewrite H in S; discriminate.
  - destruct (dial c); discriminate.
  - unfold step_user in S. rewrite U, Nn in S. discriminate.
Qed.
(** one step of the script *)
Definition scripted2 (S : nat -> list (list byte) -> bpc -> conn) (w : nat -> bool) (k : nat) (q : list (list byte)) (h : bpc) (c' : conn) : Prop :=
  (h = BStart /\ c' = S k q BWait) \/
  exists q', c' = S (Datatypes.S k) q' (if k =? 16 then woken h else h) /\ (if w k then exists r, q = r :: q' else q' = q).
Lemma Cl_step2 g o p1 p2 m1 m2 b1 b2 k q h l c' : fresh_hb h -> k < 17 ->
  wire (asp_up g) = Ok b1 -> wire (asp_active g) = Ok b2 -> valid p1 (Typed m1) -> valid p2 (Typed m2) ->
  length p1 <= bufsize -> length p2 <= bufsize -> m_kind m1 = KAspUpAck -> m_kind m2 = KAspActiveAck ->
  (k = 3 -> q = [] \/ exists r, q = p1 :: r) -> (k = 10 -> q = [] \/ exists r, q = p2 :: r) ->
  benign l -> step (Cl g o p1 p2 m1 m2 b1 b2 k q h) l = Some c' ->
  scripted2 (Cl g o p1 p2 m1 m2 b1 b2) cwait k q h c'.
Proof.
  intros Hh Lk W1 W2 [P1 V1] [P2 V2] L1 L2 K1 K2 Q3 Q10 Be St.
  assert (Pl1 : plan (Typed m1) = (None, [IHandle m1; ISt Inactive])) by (unfold plan; now rewrite K1).
  assert (Pl2 : plan (Typed m2) = (None, [IHandle m2; ISt Active])) by (unfold plan; now rewrite K2).
  assert (Hn1 : forall d, handle g d Down m1 = HNil) by (intros; unfold handle; now rewrite K1).
  assert (Hn2 : forall d, handle g d Inactive m2 = HNil) by (intros; unfold handle; now rewrite K2).
  assert (F1 : firstn bufsize p1 = p1) by (apply firstn_all2; lia). assert (E1 : skipn bufsize p1 = []) by (apply skipn_all2; lia).
  assert (F2 : firstn bufsize p2 = p2) by (apply firstn_all2; lia). assert (E2 : skipn bufsize p2 = []) by (apply skipn_all2; lia).
  assert (Z : forall k, k <= 17 -> forall h h', set_hb h' (Cl g o p1 p2 m1 m2 b1 b2 k q h) = Cl g o p1 p2 m1 m2 b1 b2 k q h').
  { clear. intros k Lk h h'. do 18 (destruct k as [|k]; [reflexivity|]). lia. }
  assert (B : forall T (f : conn -> T) v, (forall s mn i l d lg, f (at_ Client g o q h s mn i l d lg) = v) -> f (Cl g o p1 p2 m1 m2 b1 b2 k q h) = v).
  { clear. intros T f v E. unfold Cl. do 17 (destruct k as [|k]; [apply E|]). apply E. }
  assert (Hbe : hb (Cl g o p1 p2 m1 m2 b1 b2 k q h) = h) by (now apply (B _ hb)).
  destruct (young_labels _ _ _ (B _ us [] ltac:(reflexivity)) (B _ ds [] ltac:(reflexivity)) (B _ ctxd false ltac:(reflexivity)) (B _ closed false ltac:(reflexivity))
    ltac:(rewrite Hbe; exact Hh) (B _ crash None ltac:(reflexivity)) Be St) as [(A1 & ->)|Lb].
  { left. rewrite Hbe in A1. rewrite Z by lia. auto. }
  clear Be. right.
  assert (Ik : In k (seq 0 17)) by (apply in_seq; lia). cbn [seq] in Ik. clear B Z Hbe Lk.
  repeat (destruct Ik as [<-|Ik]; [|]); try contradiction.
  all: destruct Lb as [->|[->|[i ->]]].
  all: unfold step, step_hand, step_mon in St; cbn [Cl at_ crash mon ini hs] in St; try discriminate;
    try (destruct i as [|[|i]]; cbn [nth_error] in St; try discriminate; try (destruct i; discriminate)).
  all: cbn [at_ sopen inq ctxd unlocked mon handle cfg hbd state] in St;
    rewrite ?P1, ?P2, ?V1, ?V2, ?Pl1, ?Pl2, ?Hn1, ?Hn2, ?(signal_ok _ _ _ _ W1), ?(signal_ok _ _ _ _ W2) in St by reflexivity;
    try (destruct (Q3 eq_refl) as [->|[r ->]]; [discriminate|]); try (destruct (Q10 eq_refl) as [->|[r ->]]; [discriminate|]);
    cbv beta iota in St; rewrite ?F1, ?E1, ?F2, ?E2 in St; cbn [andb N.eqb negb Pos.eqb] in St; injection St as <-.
  all: cbn [Nat.eqb cwait].
  all: try (exists q; split; reflexivity).
  all: try (exists r; split; [reflexivity|eexists; reflexivity]).
  exists q. destruct Hh as [-> | ->]; split; reflexivity.
Qed.
Lemma Sv_step2 g o p1 p2 m1 m2 b1 b2 k q h l c' : fresh_hb h -> k < 17 ->
  wire (up_ack g) = Ok b1 -> wire (active_ack g) = Ok b2 -> valid p1 (Typed m1) -> valid p2 (Typed m2) ->
  length p1 <= bufsize -> length p2 <= bufsize -> m_kind m1 = KAspUp -> m_kind m2 = KAspActive ->
  (k = 2 -> q = [] \/ exists r, q = p1 :: r) -> (k = 9 -> q = [] \/ exists r, q = p2 :: r) ->
  benign l -> step (Sv g o p1 p2 m1 m2 b1 b2 k q h) l = Some c' ->
  scripted2 (Sv g o p1 p2 m1 m2 b1 b2) swait k q h c'.
Proof.
  intros Hh Lk W1 W2 [P1 V1] [P2 V2] L1 L2 K1 K2 Q3 Q10 Be St.
  assert (Pl1 : plan (Typed m1) = (None, [IHandle m1; ISt Inactive])) by (unfold plan; now rewrite K1).
  assert (Pl2 : plan (Typed m2) = (None, [IHandle m2; ISt Active])) by (unfold plan; now rewrite K2).
  assert (Hn1 : forall d, handle g d Down m1 = HReply (up_ack g)) by (intros; unfold handle; now rewrite K1).
  assert (Hn2 : forall d, handle g d Inactive m2 = HReply (active_ack g)) by (intros; unfold handle; now rewrite K2).
  assert (F1 : firstn bufsize p1 = p1) by (apply firstn_all2; lia). assert (E1 : skipn bufsize p1 = []) by (apply skipn_all2; lia).
  assert (F2 : firstn bufsize p2 = p2) by (apply firstn_all2; lia). assert (E2 : skipn bufsize p2 = []) by (apply skipn_all2; lia).
  assert (Z : forall k, k <= 17 -> forall h h', set_hb h' (Sv g o p1 p2 m1 m2 b1 b2 k q h) = Sv g o p1 p2 m1 m2 b1 b2 k q h').
  { clear. intros k Lk h h'. do 18 (destruct k as [|k]; [reflexivity|]). lia. }
  assert (B : forall T (f : conn -> T) v, (forall s mn i l d lg, f (at_ Server g o q h s mn i l d lg) = v) -> f (Sv g o p1 p2 m1 m2 b1 b2 k q h) = v).
  { clear. intros T f v E. unfold Sv. do 17 (destruct k as [|k]; [apply E|]). apply E. }
  assert (Hbe : hb (Sv g o p1 p2 m1 m2 b1 b2 k q h) = h) by (now apply (B _ hb)).
  destruct (young_labels _ _ _ (B _ us [] ltac:(reflexivity)) (B _ ds [] ltac:(reflexivity)) (B _ ctxd false ltac:(reflexivity)) (B _ closed false ltac:(reflexivity))
    ltac:(rewrite Hbe; exact Hh) (B _ crash None ltac:(reflexivity)) Be St) as [(A1 & ->)|Lb].
  { left. rewrite Hbe in A1. rewrite Z by lia. auto. }
  clear Be. right.
  assert (Ik : In k (seq 0 17)) by (apply in_seq; lia). cbn [seq] in Ik. clear B Z Hbe Lk.
  repeat (destruct Ik as [<-|Ik]; [|]); try contradiction.
  all: destruct Lb as [->|[->|[i ->]]].
  all: unfold step, step_hand, step_mon in St; cbn [Sv at_ crash mon ini hs] in St; try discriminate;
    try (destruct i as [|[|i]]; cbn [nth_error] in St; try discriminate; try (destruct i; discriminate)).
  all: cbn [at_ sopen inq ctxd unlocked mon handle cfg hbd state] in St;
    rewrite ?P1, ?P2, ?V1, ?V2, ?Pl1, ?Pl2, ?Hn1, ?Hn2, ?(signal_ok _ _ _ _ W1), ?(signal_ok _ _ _ _ W2) in St by reflexivity;
    try (destruct (Q3 eq_refl) as [->|[r ->]]; [discriminate|]); try (destruct (Q10 eq_refl) as [->|[r ->]]; [discriminate|]);
    cbv beta iota in St; rewrite ?F1, ?E1, ?F2, ?E2 in St; cbn [andb N.eqb negb Pos.eqb] in St; injection St as <-.
  all: cbn [Nat.eqb swait].
  all: try (exists q; split; reflexivity).
  all: try (exists r; split; [reflexivity|eexists; reflexivity]).
  exists q. destruct Hh as [-> | ->]; split; reflexivity.
Qed.
