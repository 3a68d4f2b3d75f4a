(** The example client, and the octets that the example programs send. *)
From Verif Require Import GoBase BaseProofs ParamsModel MessagesModel WireSpec ParamsSpec MsgSpec ParamsProofs AccessorProofs MessagesProofs MessagesProofs2 ConfigModel
  ConnModel CfgSpec ConnSpec ConnBase ConnInv ConnTrace ConnUser ConnCodec ConnMacro ConnMore ConnStable ConnData ConnPieces DemoModel DemoSpec DemoProofs CliSpec.
From Coq Require Import Arith Lia Permutation.
Open Scope nat_scope.

(** ** What a step does to a call *)
Definition wmove (c : conn) (u v : upc) (ws : list (N * list byte)) : Prop :=
  match u with
  | UGo (OpWrite b _) => ws = [] /\ exists s, v = UGo (OpWriteTo b s) /\ ((maxs c < 65536)%N -> (1 <= s <= maxs c)%N)
  | UGo (OpWriteTo b s) => ws = [] /\ (v = USend s (user_data (cfg c) b) \/ v = UDone RNotEstablished)
  | UGo (OpWriteSignal _) => True
  | USend s m => (v = UDone RWriteError /\ ws = []) \/ exists b n, encodes m b /\ v = UDone (RWrote n) /\ ws = [(s, b)]
  | UDone _ => False
  | _ => ws = []
  end.
Lemma writes_app a b : writes (a ++ b) = writes a ++ writes b.
Proof. apply flat_map_app. Qed.
Lemma wcalls_step c l c' : step c l = Some c' -> (forall op, l <> LCall op) ->
  (us c' = us c /\ writes (log c') = writes (log c)) \/
  (exists i u v ws, nth_error (us c) i = Some u /\ us c' = upd (us c) i v /\ wmove c u v ws /\ writes (log c') = writes (log c) ++ ws).
Proof.
  intros S Nc. apply step_stepR in S as [C S].
  destruct S; try (left; split; [reflexivity|]; cb; rewrite ?writes_app; cbn [writes flat_map]; rewrite ?app_nil_r; reflexivity).
  - left. rewrite state_update_eq. cb. rewrite writes_app. cbn [writes flat_map]. now rewrite app_nil_r.
  - left. destruct (broadcast_fields (set_dial DOk c)) as (_ & _ & _ & _ & _ & _ & _ & _ & _ & _ & _ & _ & _ & _ & E1 & _ & _ & _ & _ & L).
    cb. rewrite E1, L. auto.
  - left. destruct (broadcast_fields (closing c)) as (_ & _ & _ & _ & _ & _ & _ & _ & _ & _ & _ & _ & _ & _ & E1 & _ & _ & _ & _ & L).
    destruct (closing_fields c) as (_ & _ & _ & _ & _ & _ & _ & _ & _ & _ & _ & _ & _ & _ & E1' & _ & _ & _ & _ & L').
    cb. rewrite E1, L, E1', L', writes_app. cbn [writes flat_map]. now rewrite app_nil_r.
  - left. destruct (hba c); auto.
  - exfalso. eapply Nc. reflexivity.
  - right. exists i, (UGo op), u, []. split; [assumption|]. split; [reflexivity|]. split; [|cb; now rewrite app_nil_r].
    destruct op; cbn in *; try discriminate; auto. split; [reflexivity|]. left. match goal with K : Some _ = Some u |- _ => injection K as <- end. reflexivity.
  - right. exists i, (UGo op), (UDone RNotEstablished), []. split; [assumption|]. split; [reflexivity|]. split; [|cb; now rewrite app_nil_r].
    destruct op; cbn in *; try discriminate; auto.
  - right. exists i, (UGo (OpWrite b rnd)), (UGo (OpWriteTo b s)), []. split; [assumption|]. split; [reflexivity|]. split; [|cb; now rewrite app_nil_r].
    cbn. split; [reflexivity|]. exists s. split; [reflexivity|]. intros Mx. eapply choose_stream_range; eauto.
  - right. do 4 eexists. split; [eassumption|]. split; [cb; reflexivity|]. split; [cbn; reflexivity|]. cb. now rewrite app_nil_r.
  - right. do 4 eexists. split; [eassumption|]. split; [cb; reflexivity|]. split; [exact I|]. cb. rewrite writes_app. reflexivity.
  - right. exists i, (UGo (OpWriteSignal m)), (UDone RWriteError), []. split; [assumption|]. split; [cb; reflexivity|]. split; [exact I|]. cb. now rewrite app_nil_r.
  - right. destruct (closing_fields c) as (_ & _ & _ & _ & _ & _ & _ & _ & _ & _ & _ & _ & _ & _ & E1' & _ & _ & _ & _ & L').
    exists i, (UGo OpClose), (UDone (RClosed (sopen c))), []. split; [assumption|]. split; [cb; now rewrite E1'|]. split; [cbn; eauto|].
    cb. rewrite L', writes_app. reflexivity.
  - right. do 4 eexists. split; [eassumption|]. split; [cb; reflexivity|]. split; [cbn; reflexivity|]. cb. now rewrite app_nil_r.
  - right. do 4 eexists. split; [eassumption|]. split; [cb; reflexivity|]. split; [cbn; reflexivity|]. cb. rewrite writes_app. reflexivity.
  - right. do 4 eexists. split; [eassumption|]. split; [cb; reflexivity|]. split; [cbn; reflexivity|]. cb. now rewrite app_nil_r.
  - right. exists i, (USend s m), (UDone (RWrote (length b + length b))), [(s, b)]. split; [assumption|]. split; [cb; reflexivity|].
    split; [cbn; right; exists b, (length b + length b); split; [eexists; eassumption|auto]|]. cb. rewrite writes_app. reflexivity.
  - right. exists i, (USend s m), (UDone RWriteError), []. split; [assumption|]. split; [cb; reflexivity|]. split; [cbn; auto|]. cb. now rewrite app_nil_r.
  - left. cb. split; [reflexivity|]. rewrite writes_app. destruct H0 as [->|[->|(o & e & _ & ->)]]; cbn; now rewrite app_nil_r.
Qed.

(** ** The client *)
Definition wrote (u : upc) : Prop := exists n, u = UDone (RWrote n).
Definition good (d : list byte) (c : conn) (w : N * list byte) : Prop := (1 <= fst w <= maxs c)%N /\ encodes (user_data (cfg c) d) (snd w).
(** call number i, the messages written and the lines *)
Definition turn (d : list byte) (c : conn) (i k : nat) (u : upc) : Prop :=
  match u with
  | UGo (OpWrite b _) => b = d /\ k = i
  | UGo (OpWriteTo b s) => b = d /\ k = i /\ (1 <= s <= maxs c)%N
  | USend s m => m = user_data (cfg c) d /\ k = i /\ (1 <= s <= maxs c)%N
  | UDone (RWrote _) => k = S i
  | UDone r => (r = RNotEstablished \/ r = RWriteError) /\ k = i
  | _ => False
  end.
Definition speaks (d : list byte) (c : conn) (g : prog) : Prop :=
  let k := length (writes (log c)) in
  Forall (good d c) (writes (log c)) /\
  match g_at g with
  | AEstablish => us c = [] /\ k = 0 /\ g_out g = []
  | ACall => dial c = DOk /\ Forall wrote (us c) /\ length (us c) = k /\ g_out g = repeat (PSent d) k
  | AReturn i => exists us0 u, us c = us0 ++ [u] /\ length us0 = i /\ Forall wrote us0 /\ turn d c i k u /\ g_out g = repeat (PSent d) i
                 /\ dial c = DOk
  | AClosing _ => False
  | AEnd => (exists us0 r, us c = us0 ++ [UDone r] /\ Forall wrote us0 /\ length us0 = k /\ g_out g = repeat (PSent d) k ++ [PFatalWrite]) \/
      (us c = [] /\ k = 0 /\ g_out g = [PFatalEstablish])
  end.
Lemma wrote_none c u v ws us i : Forall wrote us -> nth_error us i = Some u -> wmove c u v ws -> False.
Proof. intros F N M. rewrite Forall_forall in F. destruct (F u (nth_error_In _ _ N)) as [r ->]. exact M. Qed.
Lemma last_or us0 (w : upc) i u : nth_error (us0 ++ [w]) i = Some u -> (i = length us0 /\ u = w) \/ nth_error us0 i = Some u.
Proof.
  intros N. destruct (le_lt_dec (length us0) i) as [Li|Li].
  - rewrite nth_error_app2 in N by exact Li. destruct (i - length us0) as [|k] eqn:Ek; [|destruct k; discriminate].
    injection N as ->. left. split; [lia|reflexivity].
  - rewrite nth_error_app1 in N by exact Li. now right.
Qed.
Lemma speaks_lib d c g l c' : reachable c -> speaks d c g -> (forall op, l <> LCall op) -> step c l = Some c' -> speaks d c' g.
Proof.
  intros Re [Gd H] Nc S. pose proof (dial_lasts _ _ _ S) as Dl. destruct (static_step _ _ _ S) as (_ & Eg & Em).
  pose proof (maxs_small c Re) as Mx.
  assert (Gd' : Forall (good d c') (writes (log c))) by (refine (Forall_impl _ _ Gd); intros w; unfold good; now rewrite Eg, Em).
  unfold speaks. destruct (wcalls_step _ _ _ S Nc) as [[Eu Ed]|(i & u & v & ws & N & Eu & M & Ed)].
  - rewrite Ed. split; [exact Gd'|]. destruct (g_at g); unfold turn in *; rewrite ?Eu, ?Eg, ?Em; auto.
    + destruct H as (A & B & E & F). auto.
    + destruct H as (us0 & u & A & B & E & F & G & J). exists us0, u. auto 8.
  - destruct (g_at g).
    + destruct H as (E & _). rewrite E in N. destruct i; discriminate.
    + destruct H as (_ & F & _). exfalso. eapply wrote_none; eauto.
    + destruct H as (us0 & w & E & L & F & An & O & Di). rewrite E in N. destruct (last_or _ _ _ _ N) as [[-> ->]|N']; [|exfalso; eapply wrote_none; eauto].
      rewrite Ed. assert (Q : Forall (good d c') ws /\ turn d c' i0 (length (writes (log c) ++ ws)) v).
      { rewrite app_length. destruct w as [op|buf|s m|r]; cbn [turn] in An; try contradiction; [destruct op; try contradiction|].
        - destruct M as [-> (s & -> & Ms)]. destruct An as [-> K]. split; [constructor|]. cbn [turn length]. rewrite Em. repeat split; try lia; now apply Ms.
        - destruct M as [-> [->| ->]]; destruct An as (-> & K & Ks); (split; [constructor|]); cbn [turn length]; rewrite ?Em, ?Eg; repeat split; auto; lia.
        - destruct An as (-> & K & Ks). destruct M as [[-> ->]|(b & n & En & -> & ->)].
          + split; [constructor|]. cbn [turn length]. split; [auto|lia].
          + split; [repeat constructor; cbn [fst snd]; rewrite ?Em, ?Eg; auto; apply Ks|]. cbn [turn length]. lia. }
      destruct Q as [Q1 Q2]. split; [apply Forall_app; auto|]. exists us0, v. rewrite Eu, E, upd_snoc. auto 8.
    + destruct H.
    + exfalso. destruct H as [(us0 & r & E & F & _)|(E & _)]; rewrite E in N.
      * destruct (last_or _ _ _ _ N) as [[_ ->]|N']; [exact M|eapply wrote_none; eauto].
      * destruct i; discriminate.
Qed.
Lemma speaks_prog d rnd c g c' g' : speaks d c g -> client_step d rnd c g = Some (c', g') ->
  speaks d c' g' /\ (c' = c \/ exists op, step c (LCall op) = Some c').
Proof.
  intros [Gd H] S. unfold client_step in S. destruct (crash c) eqn:C; [discriminate|]. destruct (g_at g) as [| |i|i|] eqn:A; [| | |discriminate|discriminate].
  - destruct H as (E & D & O). destruct (dial c) eqn:Dc; try discriminate; injection S as <- <-; (split; [|auto]); (split; [exact Gd|]); cbn [g_at g_out]; rewrite ?D, ?E, ?O; cbn; auto.
  - destruct H as (D & F & L & O). destruct (step c (LCall (OpWrite d rnd))) as [c1|] eqn:St; [|discriminate]. injection S as <- <-.
    split; [|eauto]. destruct (call_step _ _ _ St) as [_ ->]. split; [exact Gd|]. cbn [g_at g_buf g_out]. cb.
    exists (us c), (UGo (OpWrite d rnd)). rewrite O, L. cbn [turn]. auto 8.
  - destruct H as (us0 & u & E & L & F & An & O & D). subst i. rewrite E, nth_error_app2, Nat.sub_diag in S by lia. cbn [nth_error] in S.
    destruct u as [op|buf|s m|r]; try discriminate. assert (Dn : wrote (UDone r) \/ ((r = RNotEstablished \/ r = RWriteError) /\ length (writes (log c)) = length us0)).
    { destruct r; cbn [turn] in An; try (right; exact An). left. now eexists. }
    destruct Dn as [[n Dn]|[Dn K]].
    + injection Dn as ->. injection S as <- <-. split; [|auto]. split; [exact Gd|]. cbn [g_at g_out]. cbn [turn] in An.
      rewrite E, An, app_length, O. cbn [length]. split; [exact D|]. split; [apply Forall_app; split; [exact F|repeat constructor; now eexists]|].
      split; [lia|]. change (repeat (PSent d) (S (length us0))) with (PSent d :: repeat (PSent d) (length us0)). now rewrite repeat_cons.
    + assert (S' : Some (c, mkProg AEnd (g_buf g) (g_out g ++ [PFatalWrite])) = Some (c', g')) by (destruct Dn as [->| ->]; exact S). clear S.
      injection S' as <- <-. split; [|auto]. split; [exact Gd|]. cbn [g_at g_out]. left. exists us0, r. rewrite O, K. auto.
Qed.
Lemma client_run_app d a : forall b s, client_run d s (a ++ b) = match client_run d s a with Some s1 => client_run d s1 b | None => None end.
Proof. induction a as [|x a IH]; intros b s; [reflexivity|]. cbn [app client_run]. destruct (client_run1 d s x); [apply IH|reflexivity]. Qed.
Lemma client_inv d m g o ls : forall c p, client_run d (start m g o, client_start) ls = Some (c, p) ->
  reachable c /\ speaks d c p /\ exists l, run (start m g o) l = Some c.
Proof.
  induction ls as [|l ls IH] using rev_ind; intros c p R.
  - cbn in R. injection R as <- <-. split; [apply reachable_start|]. split; [|now exists []]. split; [constructor|]. cbn. auto.
  - rewrite client_run_app in R. destruct (client_run d (start m g o, client_start) ls) as [[c1 p1]|]; [|discriminate].
    destruct (IH _ _ eq_refl) as (R1 & H1 & l1 & Rl). cbn [client_run] in R. destruct (client_run1 d (c1, p1) l) as [s2|] eqn:S; [|discriminate]. injection R as ->.
    destruct l as [l|rnd]; cbn [client_run1 fst snd] in S.
    + assert (Q : (forall op, l <> LCall op) /\ step c1 l = Some c /\ p = p1).
      { destruct l; try (destruct (step c1 _) as [x|] eqn:E; [|discriminate]; injection S as <- <-; repeat split; auto; discriminate). discriminate. }
      destruct Q as (Nc & St & ->). split; [eapply reachable_run; [exact R1|apply run_one; exact St]|]. split; [eapply speaks_lib; eauto|].
      exists (l1 ++ [l]). rewrite run_app, Rl. now apply run_one.
    + destruct (speaks_prog _ _ _ _ _ _ H1 S) as (H2 & [->|[op St]]); [eauto|]. split; [eapply reachable_run; [exact R1|apply run_one; exact St]|].
      split; [auto|]. exists (l1 ++ [LCall op]). rewrite run_app, Rl. now apply run_one.
Qed.
Lemma client_prints d m g o ls c p : client_run d (start m g o, client_start) ls = Some (c, p) -> sent_right d c p.
Proof.
  intros R. destruct (client_inv _ _ _ _ _ _ _ R) as (_ & [_ H] & _). unfold sent_right. destruct (g_at p) as [| |i|i|].
  - destruct H as (A & B & E). auto.
  - destruct H as (_ & _ & A & B). auto.
  - destruct H as (us0 & u & E & L & _ & An & O & _). subst i. rewrite E, nth_error_app2, Nat.sub_diag, app_length by lia. cbn [length nth_error]. split; [lia|].
    destruct u as [op|buf|s x|r]; cbn [turn] in An; try contradiction.
    + destruct op; try contradiction; [destruct An as (_ & K)|destruct An as (_ & K & _)]; auto.
    + destruct An as (_ & K & _). auto.
    + destruct r; try (destruct An as ([An|An] & K); try discriminate An; auto). auto.
  - exact H.
  - destruct H as [(us0 & r & E & _ & L & O)|(A & B & E)]; [left|right; auto]. split; [exact O|]. rewrite E, app_length. cbn. lia.
Qed.

(** ** The octets *)
(** a configuration but for the heartbeat *)
Definition plain (g : config) : config := mkConfig None (cf_aspid g) (cf_tmt g) (cf_na g) (cf_rc g) (cf_corr g) (cf_opc g) (cf_dpc g) (cf_si g) (cf_ni g) (cf_mp g) (cf_sls g).
Lemma check_plain g g' : check_interval (Some g) = Ok g' -> plain g' = plain g.
Proof. unfold check_interval. destruct (cf_hb g); [|discriminate]. destruct (_ =? _)%Z; intros E; injection E as <-; reflexivity. Qed.
Lemma client_plain h g : check_interval (Some (client_config h)) = Ok g -> plain g = plain (client_config 0).
Proof. intros E. rewrite (check_plain _ _ E). reflexivity. Qed.
Lemma server_plain h t g : check_interval (Some (server_config h t)) = Ok g -> plain g = plain (server_config 0 0).
Proof. intros E. rewrite (check_plain _ _ E). reflexivity. Qed.

Lemma small_len n : (N.of_nat n <= 65531)%N -> n <= max_value_len.
Proof. intros H. unfold max_value_len. lia. Qed.
Lemma ok_snd {A B} (x y : A) (b b' : B) : Ok (x, b) = Ok (y, b') -> b = b'.
Proof. intros E. now injection E. Qed.
Lemma unsupported_octets x b : length x <= 40 ->
  encodes (Typed (NewError (Some (NewErrorCode 4)) None None None (Some (NewDiagnosticInformation x)))) b -> b = w_unsupported x.
Proof.
  intros L [m' En].
  destruct (NewError_rt (Some (NewErrorCode 4)) None None None (Some (NewDiagnosticInformation x))) as (t & E & _).
  { repeat (apply Forall2_cons; cbn [slot_ok]; auto); [split; [reflexivity|apply small_len; vm_compute; discriminate]|].
    split; [reflexivity|]. cbn [NewDiagnosticInformation p_data]. apply small_len. cbn. lia. }
  rewrite E in En. apply ok_snd in En. rewrite <- En. clear En E t m'.
  unfold packet, w_unsupported, body_for. cbn [present flat_map app map].
  change (body_of [tv (NewErrorCode 4); tv (NewDiagnosticInformation x)]) with ([x00; x0c; x00; x08; x00; x00; x00; x04] ++ tlv 7 x ++ []).
  rewrite app_nil_r, app_length, tlv_length. unfold rfc_class, rfc_type. cbn [length].
  replace (8 + (8 + (4 + length x + pad_len (length x)))) with (20 + length x + pad_len (length x)) by lia. reflexivity.
Qed.
Lemma data_octets g d b : plain g = plain (client_config 0) -> (N.of_nat (length d) <= 65519)%N -> encodes (user_data g d) b -> b = w_data d.
Proof.
  intros P L [m' En]. change (user_data g d) with (user_data (plain g) d) in En. rewrite P in En.
  set (pd := NewProtocolData 0x11111111 0x22222222 x03 x00 x00 x01 d).
  change (user_data (plain (client_config 0)) d) with
    (Typed (NewData (Some (NewNetworkAppearance 0)) (Some (NewRoutingContext [1%N; 2%N])) (Some pd) None)) in En.
  destruct (NewData_rt (Some (NewNetworkAppearance 0)) (Some (NewRoutingContext [1%N; 2%N])) (Some pd) None) as (t & E & _).
  { repeat (apply Forall2_cons; cbn [slot_ok]; auto); try (split; [reflexivity|apply small_len; vm_compute; discriminate]).
    split; [unfold pd; rewrite NewProtocolData_eq; reflexivity|]. unfold pd. rewrite NewProtocolData_data. apply small_len. lia. }
  rewrite E in En. apply ok_snd in En. rewrite <- En. clear En E t m'.
  assert (Tg : tv pd = (0x210%N, [x11; x11; x11; x11; x22; x22; x22; x22; x03; x00; x00; x01] ++ d)) by (unfold pd; rewrite NewProtocolData_eq; reflexivity).
  unfold packet, w_data, body_for. cbn [present flat_map app map]. rewrite Tg.
  change (body_of [tv (NewNetworkAppearance 0); tv (NewRoutingContext [1%N; 2%N]); (0x210%N, [x11; x11; x11; x11; x22; x22; x22; x22; x03; x00; x00; x01] ++ d)]) with
    ([x02; x00; x00; x08; x00; x00; x00; x00; x00; x06; x00; x0c; x00; x00; x00; x01; x00; x00; x00; x02] ++
     tlv 0x210 ([x11; x11; x11; x11; x22; x22; x22; x22; x03; x00; x00; x01] ++ d) ++ []).
  rewrite app_nil_r, app_length, tlv_length, app_length. cbn [length].
  assert (Pl : pad_len (12 + length d) = pad_len (length d)).
  { unfold pad_len. replace (12 + length d) with (length d + 3 * 4) by lia. now rewrite Nat.mod_add by lia. }
  rewrite Pl. replace (8 + (20 + (4 + (12 + length d) + pad_len (length d)))) with (44 + length d + pad_len (length d)) by lia.
  unfold tlv. rewrite app_length. cbn [length]. rewrite Pl. replace (4 + (12 + length d)) with (16 + length d) by lia. rewrite <- !app_assoc. reflexivity.
Qed.
Lemma errors_octets g pc e r b : cf_rc g = cf_rc (client_config 0) -> cf_na g = cf_na (client_config 0) -> (pc = x11 /\ cf_opc g = 0x11111111%N) \/ (pc = x22 /\ cf_opc g = 0x22222222%N) ->
  ConnSpec.answers g e r -> encodes r b -> errors_said pc b.
Proof.
  intros Er En Hp A Eb. destruct A as [v|m x Ex|m].
  - left. destruct Eb as [m' Eb]. vm_compute in Eb. injection Eb as _ <-. reflexivity.
  - right; right. exists (firstn 40 x). split; [rewrite firstn_length; lia|]. apply unsupported_octets; [rewrite firstn_length; lia|exact Eb].
  - right; left. rewrite Er, En in Eb. destruct Eb as [m' Eb]. destruct Hp as [[-> Eo]|[-> Eo]]; rewrite Eo in Eb; vm_compute in Eb; injection Eb as _ <-; reflexivity.
Qed.
Lemma reply_octets g t sts r b raw : plain g = plain (client_config 0) \/ plain g = plain (server_config 0 0) ->
  reply_table g t = Some (sts, r) -> encodes r b -> Some (octets b) = ack_octets raw (m_kind t) ->
  In b [if match cf_aspid g with Some _ => true | None => false end then w_up_ack_id else w_up_ack; w_down_ack; w_active_ack; w_inactive_ack] \/ snd (octets b) = 6%N.
Proof.
  intros P T Eb Ab.
  assert (F : (cf_aspid g = cf_aspid (client_config 0) \/ cf_aspid g = None) /\ cf_tmt g = cf_tmt (client_config 0) /\ cf_rc g = cf_rc (client_config 0)).
  { destruct P as [P|P].
    - split; [left; exact (f_equal cf_aspid P)|]. split; [exact (f_equal cf_tmt P)|exact (f_equal cf_rc P)].
    - split; [right; exact (f_equal cf_aspid P)|]. split; [exact (f_equal cf_tmt P)|exact (f_equal cf_rc P)]. }
  destruct F as (Fa & Ft & Fr). unfold reply_table in T. destruct (m_kind t); try discriminate T.
  - injection T as _ <-. left. left. destruct Eb as [m' Eb]. destruct Fa as [Fa|Fa]; rewrite Fa in *; vm_compute in Eb; injection Eb as _ <-; reflexivity.
  - injection T as _ <-. left. right; left. destruct Eb as [m' Eb]. vm_compute in Eb. injection Eb as _ <-. reflexivity.
  - right. cbn [ack_octets] in Ab. apply (f_equal (fun x => match x with Some y => snd y | None => 0%N end)) in Ab. exact Ab.
  - injection T as _ <-. left. right; right; left. destruct Eb as [m' Eb]. rewrite Ft, Fr in Eb. vm_compute in Eb. injection Eb as _ <-. reflexivity.
  - injection T as _ <-. left. right; right; right; left. destruct Eb as [m' Eb]. rewrite Fr in Eb. vm_compute in Eb. injection Eb as _ <-. reflexivity.
Qed.

(** ** Everything that is sent *)
Lemma sent_by c o s m b : reachable c -> In (ESend o s m b) (log c) ->
  match o with
  | OUser _ => In (s, b) (writes (log c))
  | OMon => s = 0%N /\ encodes m b /\ ((exists x, initial (mode c) (cfg c) x = Some m) \/ (exists e, ConnSpec.answers (cfg c) e m))
  | OHand _ => s = 0%N /\ encodes m b /\ exists raw t sts, reply_table (cfg c) t = Some (sts, m) /\ Some (octets b) = ack_octets raw (m_kind t)
  | OHb => s = 0%N /\ exists x, length x = 128 /\ encodes (beat x) b
  | OData _ => False
  end.
Proof.
  intros R I. assert (U : forall i, o = OUser i -> In (s, b) (writes (log c))).
  { intros i ->. unfold writes. apply in_flat_map. eexists. split; [exact I|]. cbn. auto. }
  apply in_split in I as (l1 & l2 & E). destruct o as [|i|i| |i]; [| | | |eauto].
  - destruct (mon_sends _ _ _ _ _ _ R E) as (-> & En & [(l0 & x & l3 & _ & J & _)|(l0 & o & e & l3 & _ & A & _)]); eauto 6.
  - destruct (reply_justified _ _ _ _ _ _ _ R E) as (-> & En & _ & raw & t & sts & _ & _ & T & O & _). eauto 8.
  - destruct (trace_reachable c R) as [h H]. destruct (history_split _ _ _ _ _ _ _ H E) as (ha & he & Ha & S & _). inversion S.
  - destruct (trace_reachable c R) as [h H]. destruct (history_split _ _ _ _ _ _ _ H E) as (ha & he & Ha & S & _). inversion S; subst. eauto 6.
Qed.
Lemma client_packets h g d o ls c p : check_interval (Some (client_config h)) = Ok g -> (N.of_nat (length d) <= 65519)%N ->
  client_run d (start Client g o, client_start) ls = Some (c, p) ->
  forall w s m b, In (ESend w s m b) (log c) -> client_says d (maxs c) w s b.
Proof.
  intros Ck L R w s m b I. destruct (client_inv _ _ _ _ _ _ _ R) as (Re & [Gd _] & l & Rl).
  destruct (static_run _ _ _ Rl) as (Em & Eg & _). cbn [start mode cfg] in Em, Eg. pose proof (client_plain _ _ Ck) as P. rewrite <- Eg in P.
  pose proof (sent_by _ _ _ _ _ Re I) as Q. unfold client_says. destruct w as [|i|i| |i].
  - destruct Q as (-> & En & [[x J]|[e A]]); (split; [reflexivity|]).
    + rewrite Em in J. destruct x; cbn [initial] in J; try discriminate; injection J as <-.
      * left. change (asp_up (cfg c)) with (asp_up (plain (cfg c))) in En. rewrite P in En. destruct En as [m' En]. vm_compute in En. injection En as _ <-. reflexivity.
      * right; left. change (asp_active (cfg c)) with (asp_active (plain (cfg c))) in En. rewrite P in En. destruct En as [m' En]. vm_compute in En. injection En as _ <-. reflexivity.
    + right; right. apply (errors_octets (cfg c) _ e m b); [exact (f_equal cf_rc P)|exact (f_equal cf_na P)|left; split; [reflexivity|exact (f_equal cf_opc P)]|exact A|exact En].
  - destruct Q as (-> & En & raw & t & sts & T & O). split; [reflexivity|]. pose proof (reply_octets _ _ _ _ _ _ (or_introl P) T En O) as H.
    replace (cf_aspid (cfg c)) with (cf_aspid (client_config 0)) in H by (symmetry; exact (f_equal cf_aspid P)). exact H.
  - exact Q.
  - destruct Q as (-> & x & _ & En). split; [reflexivity|]. eapply beat_octets; exact En.
  - rewrite Forall_forall in Gd. destruct (Gd _ Q) as [Gs Ge]. cbn [fst snd] in *. split; [eapply data_octets; eauto|exact Gs].
Qed.
Lemma serve_run_snoc a : forall b s, serve_run s (a ++ b) = match serve_run s a with Some s1 => serve_run s1 b | None => None end.
Proof. induction a as [|x a IH]; intros b s; [reflexivity|]. cbn [app serve_run]. destruct (serve_run1 s x); [apply IH|reflexivity]. Qed.
Lemma serve_silent size m g o ls : 1476 <= size -> forall c p, serve_run (start m g o, serve_start size) ls = Some (c, p) ->
  writes (log c) = [] /\ exists l, run (start m g o) l = Some c.
Proof.
  intros Ls. induction ls as [|l ls IH] using rev_ind; intros c p R.
  - cbn in R. injection R as <- <-. split; [reflexivity|now exists []].
  - rewrite serve_run_snoc in R. destruct (serve_run (start m g o, serve_start size) ls) as [[c1 p1]|] eqn:R0; [|discriminate].
    destruct (IH _ _ eq_refl) as (W & l1 & Rl). destruct (serve_inv _ _ _ _ _ _ _ Ls R0) as [Re [_ H]].
    cbn [serve_run] in R. destruct (serve_run1 (c1, p1) l) as [s2|] eqn:S; [|discriminate]. injection R as ->.
    destruct l as [l|]; cbn [serve_run1 fst snd] in S.
    + assert (Q : (forall op, l <> LCall op) /\ step c1 l = Some c /\ p = p1).
      { destruct l; try (destruct (step c1 _) as [x|] eqn:E; [|discriminate]; injection S as <- <-; repeat split; auto; discriminate). discriminate. }
      destruct Q as (Nc & St & ->). split; [|exists (l1 ++ [l]); rewrite run_app, Rl; now apply run_one].
      destruct (wcalls_step _ _ _ St Nc) as [[_ ->]|(i & u & v & ws & N & _ & M & ->)]; [exact W|]. rewrite W.
      assert (Q : (exists b, u = UGo (OpRead b)) \/ (exists b, u = URecv b) \/ (exists r, u = UDone r) \/ u = UGo OpClose).
      { assert (Fd : forall us0, Forall read_done us0 -> nth_error us0 i = Some u -> exists r, u = UDone r).
        { intros us0 F N0. rewrite Forall_forall in F. exact (F _ (nth_error_In _ _ N0)). }
        destruct (g_at p1).
        - destruct H as (E & _). rewrite E in N. destruct i; discriminate.
        - destruct H as (_ & F & _). eauto.
        - destruct H as (_ & us0 & x & E & _ & F & An). rewrite E in N. destruct (last_or _ _ _ _ N) as [[_ ->]|N']; [|eauto].
          destruct x as [op|b|y z|r]; cbn [answer] in An; [destruct An as [-> _]| |contradiction|]; eauto.
        - destruct H as (us0 & x & E & _ & F & _ & An). rewrite E in N. destruct (last_or _ _ _ _ N) as [[_ ->]|N']; [|eauto].
          destruct An as [->|[b ->]]; eauto.
        - destruct H as (F & _). eauto. }
      destruct Q as [[b ->]|[[b ->]|[[r ->]| ->]]]; cbn in M; subst; try reflexivity. destruct M.
    + destruct (serves_prog _ _ _ _ _ Re Ls (proj2 (serve_inv _ _ _ _ _ _ _ Ls R0)) S) as (_ & _ & [->|[op St]]); [eauto|].
      split; [|exists (l1 ++ [LCall op]); rewrite run_app, Rl; now apply run_one]. destruct (call_step _ _ _ St) as [_ ->]. exact W.
Qed.
Lemma server_packets h t g o ls c p : check_interval (Some (server_config h t)) = Ok g ->
  serve_run (start Server g o, serve_start 1500) ls = Some (c, p) ->
  forall w s m b, In (ESend w s m b) (log c) -> server_says w s b.
Proof.
  intros Ck R w s m b I. assert (Ls : 1476 <= 1500) by lia. destruct (serve_inv _ _ _ _ _ _ _ Ls R) as [Re _].
  destruct (serve_silent _ _ _ _ _ Ls _ _ R) as (W & l & Rl).
  destruct (static_run _ _ _ Rl) as (Em & Eg & _). cbn [start mode cfg] in Em, Eg. pose proof (server_plain _ _ _ Ck) as P. rewrite <- Eg in P.
  pose proof (sent_by _ _ _ _ _ Re I) as Q. unfold server_says. destruct w as [|i|i| |i].
  - destruct Q as (-> & En & [[x J]|[e A]]); (split; [reflexivity|]).
    + rewrite Em in J. destruct x; discriminate J.
    + apply (errors_octets (cfg c) _ e m b); [exact (f_equal cf_rc P)|exact (f_equal cf_na P)|right; split; [reflexivity|exact (f_equal cf_opc P)]|exact A|exact En].
  - destruct Q as (-> & En & raw & tt & sts & T & O). split; [reflexivity|]. pose proof (reply_octets _ _ _ _ _ _ (or_intror P) T En O) as H.
    replace (cf_aspid (cfg c)) with (@None param) in H by (symmetry; exact (f_equal cf_aspid P)). exact H.
  - exact Q.
  - destruct Q as (-> & x & _ & En). split; [reflexivity|]. eapply beat_octets; exact En.
  - rewrite W in Q. destruct Q.
Qed.
