(** The example programs. *)
From Verif Require Import GoBase BaseProofs ParamsModel MessagesModel WireSpec ParamsSpec MsgSpec ParamsProofs AccessorProofs MessagesProofs MessagesProofs2 ConfigModel
  ConnModel CfgSpec ConnSpec ConnBase ConnInv ConnTrace ConnUser ConnCodec ConnMacro ConnMore ConnStable ConnData ConnPieces DemoModel DemoSpec.
From Coq Require Import Arith Lia Permutation.
Open Scope nat_scope.
Opaque max_value_len.

(** ** The size of a payload *)
Lemma TLVs_size b l : TLVs b l -> forall t v, In (t, v) l -> length v + 4 <= length b.
Proof.
  induction 1 as [|tag v pad Ht Hl Hp|tag v pad rest l Ht Hl Hp T IH]; intros t w I.
  - destruct I.
  - destruct I as [[= <- <-]|[]]. rewrite !app_length, !be_length. lia.
  - rewrite !app_length, !be_length. destruct I as [[= <- <-]|I]; [lia|]. specialize (IH _ _ I). lia.
Qed.
Lemma last_with_in t ps p : last_with t ps = Some p -> In p ps.
Proof.
  unfold last_with. intros H. apply find_some in H as [H _]. now apply in_rev.
Qed.
Lemma payload_size raw pd : In pd (payload raw) -> length (pd_data pd) + 24 <= length raw.
Proof.
  unfold payload. destruct (Parse raw) as [m|e|e] eqn:P; try (intros []; fail).
  destruct (le_lt_dec 8 (length raw)) as [L|L]; [|rewrite Parse_short in P by exact L; discriminate].
  destruct (packet_of_8 raw L) as (v & r & c & ty & len & body & Hl & ->).
  destruct m as [t|g]; cbn [sig_payload]; [|intros []]. destruct (b2n (Version (Typed t)) =? 1)%N; [|intros []].
  unfold msg_payload. destruct (m_kind t) eqn:K; try (intros []; fail).
  destruct (fget FProtocolData (m_f t)) as [q|] eqn:F; [|intros []].
  destruct (ProtocolData q) as [pd'|e|e] eqn:D; try (intros []; fail). intros [->|[]].
  rewrite packet_length. pose proof P as P0. rewrite Parse_packet in P0 by exact Hl. cbv zeta in P0.
  destruct (ParseMultiParams body) as [ps|e|e] eqn:Ps; cbn [bind] in P0; try discriminate.
  destruct (dispatch c ty) as [k|] eqn:Dk; [|discriminate].
  destruct (go_type_surj k) as [mt <-].
  pose proof (Parse_typed mt v r c ty len body ps Hl Dk Ps) as [A B].
  destruct (allowed_dec (go_type mt) ps) as [Al|Al]; [|rewrite (assign_all_err _ _ no_fields Al) in P0; discriminate].
  rewrite rfc_order in Al. destruct (A Al) as (m' & P' & _ & _ & Fg). rewrite P in P'. injection P' as <-.
  rewrite Fg in F. destruct (in_dec _ _ _); [|discriminate]. apply last_with_in in F.
  pose proof (proj1 (ParseMultiParams_iff _ _) Ps) as [_ T].
  assert (S : length (p_data q) + 4 <= length body) by (apply (TLVs_size _ _ T (p_tag q)); apply in_map_iff; exists q; split; [reflexivity|exact F]).
  rewrite ProtocolData_any in D. destruct (negb _); [discriminate|]. destruct (length (p_data q) <? 12) eqn:L12; [discriminate|].
  apply Nat.ltb_ge in L12. assert (E : pd_data pd = skipn 12 (p_data q)) by (injection D as <-; reflexivity). rewrite E, skipn_length. lia.
Qed.
Lemma reads_size c : reachable c -> forall r, In r (reads (log c)) -> length r <= 1500.
Proof.
  intros (m & g & o & ls & R) r I. pose proof (fifo _ _ _ _ _ R) as E.
  assert (Ir : In r (flat_map chunks (arrivals ls))) by (rewrite E; apply in_or_app; auto).
  apply in_flat_map in Ir as (p & _ & Ic). clear - Ic.
  remember (length p) as n eqn:En. assert (Ln : length p <= n) by lia. clear En. revert p Ln Ic.
  induction n as [n IH] using lt_wf_ind; intros p Ln Ic. rewrite chunks_eq in Ic. destruct Ic as [<-|Ic]; [rewrite firstn_length; lia|].
  destruct (skipn 1500 p) as [|x y] eqn:Es; [destruct Ic|]. apply (IH (length (x :: y))) with (p := x :: y); auto.
  assert (length (x :: y) = length p - 1500) by (rewrite <- Es; apply skipn_length). cbn [length] in *. lia.
Qed.
Lemma delivered_size c p : reachable c -> In p (delivered (log c)) -> length (pd_data p) <= 1476.
Proof.
  intros R I. destruct (no_invention c R) as [rest Pm].
  assert (J : In p (flat_map payload (reads (log c)))) by (eapply Permutation_in; [exact Pm|apply in_or_app; auto]).
  apply in_flat_map in J as (r & Ir & Ip). apply payload_size in Ip. pose proof (reads_size c R r Ir). lia.
Qed.

(** ** What a step does to the calls *)
Definition moves (c : conn) (u v : upc) (ps : list pdpayload) : Prop :=
  match u with
  | UGo (OpRead b) => (v = URecv (Some b) \/ v = UDone RNotEstablished) /\ ps = []
  | UGo OpClose => (exists r, v = UDone (RClosed r)) /\ ps = []
  | URecv buf => (exists pd, v = UDone (read_result buf pd) /\ ps = [pd]) \/ (v = UDone RNotEstablished /\ ps = [])
  | UDone _ => False
  | _ => ps = []
  end.
Lemma calls_step c l c' : step c l = Some c' -> (forall op, l <> LCall op) ->
  (us c' = us c /\ delivered (log c') = delivered (log c)) \/
  (exists i u v ps, nth_error (us c) i = Some u /\ us c' = upd (us c) i v /\ moves c u v ps /\ delivered (log c') = delivered (log c) ++ ps).
Proof.
  intros S Nc. apply step_stepR in S as [C S].
  assert (D0 : forall l : list event, delivered (l ++ []) = delivered l) by (intros; now rewrite app_nil_r).
  destruct S; try (left; split; [reflexivity|]; cb; rewrite ?delivered_app; cbn [delivered flat_map]; rewrite ?app_nil_r; reflexivity);
    try (right; do 4 eexists; split; [eassumption|]; split; [cb; reflexivity|]; split; [cbn; eauto 8; fail|]; cb; rewrite ?delivered_app; cbn [delivered flat_map]; rewrite ?app_nil_r; reflexivity).
  - left. rewrite state_update_eq. cb. rewrite delivered_app. cbn [delivered flat_map]. now rewrite app_nil_r.
  - left. destruct (broadcast_fields (set_dial DOk c)) as (_ & _ & _ & _ & _ & _ & _ & _ & _ & _ & _ & _ & _ & _ & E1 & _ & _ & _ & _ & L).
    cb. rewrite E1, L. auto.
  - left. destruct (broadcast_fields (closing c)) as (_ & _ & _ & _ & _ & _ & _ & _ & _ & _ & _ & _ & _ & _ & E1 & _ & _ & _ & _ & L).
    destruct (closing_fields c) as (_ & _ & _ & _ & _ & _ & _ & _ & _ & _ & _ & _ & _ & _ & E1' & _ & _ & _ & _ & L').
    cb. rewrite E1, L, E1', L', delivered_app. cbn [delivered flat_map]. now rewrite app_nil_r.
  - left. destruct (hba c); auto.
  - exfalso. eapply Nc. reflexivity.
  - right. exists i, (UGo op), u, []. split; [assumption|]. split; [reflexivity|]. split; [|cb; now rewrite app_nil_r].
    destruct op; cbn in *; try discriminate; auto. split; [|reflexivity]. left. congruence.
  - right. exists i, (UGo op), (UDone RNotEstablished), []. split; [assumption|]. split; [reflexivity|]. split; [|cb; now rewrite app_nil_r].
    destruct op; cbn in *; try discriminate; auto.
  - right. destruct (closing_fields c) as (_ & _ & _ & _ & _ & _ & _ & _ & _ & _ & _ & _ & _ & _ & E1' & _ & _ & _ & _ & L').
    exists i, (UGo OpClose), (UDone (RClosed (sopen c))), []. split; [assumption|]. split; [cb; now rewrite E1'|]. split; [cbn; eauto|].
    cb. rewrite L', delivered_app. reflexivity.
  - right. exists i, (URecv buf), (UDone RNotEstablished), []. split; [assumption|]. split; [reflexivity|]. split; [cbn; auto|]. cb. now rewrite app_nil_r.
  - left. cb. split; [reflexivity|]. rewrite delivered_app. destruct H0 as [->|[->|(o & e & _ & ->)]]; cbn; now rewrite app_nil_r.
Qed.
Lemma call_step c op c' : step c (LCall op) = Some c' -> dial c = DOk /\ c' = set_us (us c ++ [UGo op]) c.
Proof. unfold step. destruct (crash c); [discriminate|]. destruct (dial c); try discriminate. intros [= <-]. auto. Qed.

(** ** serve *)
Definition read_done (u : upc) : Prop := exists r, u = UDone r.
Definition answer (buf : list byte) (c : conn) (out : list line) (u : upc) : Prop :=
  match u with
  | UGo op => op = OpRead buf /\ out = told (log c)
  | URecv b => b = Some buf /\ out = told (log c)
  | UDone r => (r = RNotEstablished /\ out = told (log c)) \/
               exists ps pd, delivered (log c) = ps ++ [pd] /\ r = read_result (Some buf) pd /\ out = lines ps
  | USend _ _ => False
  end.
Definition serves (size : nat) (c : conn) (g : prog) : Prop :=
  length (g_buf g) = size /\
  match g_at g with
  | AEstablish => us c = [] /\ delivered (log c) = [] /\ g_out g = []
  | ACall => dial c = DOk /\ Forall read_done (us c) /\ g_out g = told (log c)
  | AReturn i => dial c = DOk /\ exists us0 u, us c = us0 ++ [u] /\ length us0 = i /\ Forall read_done us0 /\ answer (g_buf g) c (g_out g) u
  | AClosing i => exists us0 u, us c = us0 ++ [u] /\ length us0 = i /\ Forall read_done us0 /\ g_out g = told (log c) ++ [PReadError] /\
      (u = UGo OpClose \/ exists b, u = UDone (RClosed b))
  | AEnd => Forall read_done (us c) /\
      (g_out g = told (log c) ++ [PReadError] \/ (us c = [] /\ g_out g = [PFatalEstablish] /\ delivered (log c) = []))
  end.
Lemma lines_app a b : lines (a ++ b) = lines a ++ lines b.
Proof. apply map_app. Qed.
Lemma done_stays us i u v : Forall read_done us -> nth_error us i = Some u -> u = UDone v -> exists r, u = UDone r.
Proof. eauto. Qed.
Lemma dial_lasts c l c' : step c l = Some c' -> dial c = DOk -> dial c' = DOk.
Proof.
  intros S D. apply step_stepR in S as [C S]. destruct S; cb; auto; try congruence.
  - rewrite state_update_eq. exact D.
  - destruct (broadcast_fields (closing c)) as (_ & _ & _ & _ & _ & _ & _ & _ & _ & _ & _ & _ & _ & _ & _ & E1 & _).
    destruct (closing_fields c) as (_ & _ & _ & _ & _ & _ & _ & _ & _ & _ & _ & _ & _ & _ & _ & E1' & _). congruence.
  - destruct (hba c); auto.
  - destruct (closing_fields c) as (_ & _ & _ & _ & _ & _ & _ & _ & _ & _ & _ & _ & _ & _ & _ & E1' & _). congruence.
Qed.
Lemma done_none c u v ps us i : Forall read_done us -> nth_error us i = Some u -> moves c u v ps -> False.
Proof. intros F N M. rewrite Forall_forall in F. destruct (F u (nth_error_In _ _ N)) as [r ->]. exact M. Qed.
Lemma upd_snoc {A} (l : list A) x y : upd (l ++ [x]) (length l) y = l ++ [y].
Proof. induction l as [|z l IH]; cbn; [reflexivity|now rewrite IH]. Qed.
Lemma serves_lib size c g l c' : serves size c g -> (forall op, l <> LCall op) -> step c l = Some c' -> serves size c' g.
Proof.
  intros [Ls H] Nc S. split; [exact Ls|]. pose proof (dial_lasts _ _ _ S) as Dl.
  assert (Tl : forall ps, delivered (log c') = delivered (log c) ++ ps -> told (log c') = told (log c) ++ lines ps).
  { intros ps E. unfold told. now rewrite E, lines_app. }
  assert (Td : delivered (log c') = delivered (log c) -> told (log c') = told (log c)) by (unfold told; congruence).
  destruct (calls_step _ _ _ S Nc) as [[Eu Ed]|(i & u & v & ps & N & Eu & M & Ed)].
  - destruct (g_at g); unfold answer in *; rewrite ?Eu, ?Ed, ?(Td Ed); auto.
    + destruct H as (D & F & O). auto.
    + destruct H as (D & us0 & u & E & L & F & An). split; [auto|]. exists us0, u. repeat (split; [assumption|]).
      destruct u; rewrite ?(Td Ed), ?Ed; auto.
  - destruct (g_at g).
    + destruct H as (E & _). rewrite E in N. destruct i; discriminate.
    + destruct H as (_ & F & _). exfalso. eapply done_none; eauto.
    + destruct H as (D & us0 & w & E & L & F & An). rewrite E in N. destruct (le_lt_dec (length us0) i) as [Li|Li].
      * rewrite nth_error_app2 in N by exact Li. destruct (i - length us0) as [|k] eqn:Ek; [|destruct k; discriminate].
        injection N as ->. assert (i = length us0) by lia. subst i. split; [auto|]. exists us0, v. rewrite Eu, E, upd_snoc.
        repeat (split; [solve [auto]|]). specialize (Tl _ Ed). destruct u as [op|buf|s m|r]; cbn in An; try contradiction.
        -- destruct An as [-> O]. cbn in M. destruct M as [[->| ->] ->]; rewrite app_nil_r in Tl; cbn [answer]; rewrite Tl; auto.
        -- destruct An as [-> O]. cbn in M. destruct M as [(pd & -> & ->)|[-> ->]].
           ++ cbn [answer]. right. exists (delivered (log c)), pd. auto.
           ++ cbn [answer]. left. rewrite Tl, app_nil_r. auto.
      * rewrite nth_error_app1 in N by exact Li. exfalso. eapply done_none; eauto.
    + destruct H as (us0 & w & E & L & F & O & An). rewrite E in N. destruct (le_lt_dec (length us0) i) as [Li|Li].
      * rewrite nth_error_app2 in N by exact Li. destruct (i - length us0) as [|k] eqn:Ek; [|destruct k; discriminate].
        injection N as ->. assert (i = length us0) by lia. subst i. exists us0, v. rewrite Eu, E, upd_snoc.
        repeat (split; [solve [auto]|]). specialize (Tl _ Ed). destruct An as [->|[b ->]]; [|destruct M]. cbn in M. destruct M as [[r ->] ->].
        rewrite Tl, app_nil_r. eauto.
      * rewrite nth_error_app1 in N by exact Li. exfalso. eapply done_none; eauto.
    + destruct H as (F & _). exfalso. eapply done_none; eauto.
Qed.
Lemma read_result_len buf pd : read_result (Some buf) pd = RRead (length (pd_data pd)) (firstn (length buf) (pd_data pd) ++ skipn (length (pd_data pd)) buf).
Proof. reflexivity. Qed.
Lemma serves_prog size c g c' g' : reachable c -> 1476 <= size -> serves size c g -> serve_step c g = Some (c', g') ->
  serves size c' g' /\ crash c' = None /\ (c' = c \/ exists op, step c (LCall op) = Some c').
Proof.
  intros R Ls [Lb H] S. unfold serve_step in S. destruct (crash c) eqn:C; [discriminate|]. destruct (g_at g) as [| |i|i|] eqn:A; [| | | |discriminate].
  - destruct H as (E & D & O). destruct (dial c) eqn:Dc; try discriminate; injection S as <- <-.
    + split; [|auto]. split; [exact Lb|]. cbn [g_at]. cbn [g_out]. unfold told. rewrite E, D, O. auto.
    + split; [|auto]. split; [exact Lb|]. cbn [g_at g_out]. rewrite E, O. auto.
    + split; [|auto]. split; [exact Lb|]. cbn [g_at g_out]. rewrite E, O. auto.
  - destruct H as (D & F & O). destruct (step c (LCall (OpRead (g_buf g)))) as [c1|] eqn:St; [|discriminate]. injection S as <- <-.
    split; [|split; [|eauto]].
    + destruct (call_step _ _ _ St) as [_ ->]. split; [exact Lb|]. cbn [g_at g_buf g_out]. cb. split; [exact D|].
      exists (us c), (UGo (OpRead (g_buf g))). cbn [answer]. cb. auto.
    + destruct (call_step _ _ _ St) as [_ ->]. exact C.
  - destruct H as (D & us0 & u & E & L & F & An). subst i. rewrite E, nth_error_app2, Nat.sub_diag in S by lia. cbn [nth_error] in S.
    destruct u as [op|buf|s m|r]; try discriminate. cbn [answer] in An. destruct An as [[-> O]|(ps & pd & Ed & -> & O)].
    + destruct (step c (LCall OpClose)) as [c1|] eqn:St; [|discriminate]. injection S as <- <-. split; [|split; [|eauto]].
      * destruct (call_step _ _ _ St) as [_ ->]. split; [exact Lb|]. cbn [g_at g_buf g_out]. cb. exists (us c), (UGo OpClose).
        repeat (split; [solve [auto; now rewrite E]|]). rewrite O. split; [|auto]. rewrite E. apply Forall_app. split; [exact F|]. repeat constructor. now eexists.
      * destruct (call_step _ _ _ St) as [_ ->]. exact C.
    + pose proof (delivered_size c pd R) as Sz. rewrite Ed in Sz. specialize (Sz ltac:(apply in_or_app; cbn; auto)).
      rewrite read_result_len in S.
      assert (Lr : length (firstn (length (g_buf g)) (pd_data pd) ++ skipn (length (pd_data pd)) (g_buf g)) = length (g_buf g)) by (rewrite app_length, firstn_length, skipn_length; lia).
      rewrite Lr in S. replace (length (pd_data pd) <=? length (g_buf g)) with true in S by (symmetry; apply Nat.leb_le; lia). injection S as <- <-.
      split; [|auto]. split; [cbn [g_buf]; congruence|]. cbn [g_at g_out]. split; [exact D|]. split.
      * rewrite E. apply Forall_app. split; [exact F|]. repeat constructor. now eexists.
      * unfold told. rewrite Ed, lines_app, O. f_equal. cbn [lines map]. f_equal. f_equal. rewrite firstn_all2 with (n := length (g_buf g)) by lia.
        rewrite firstn_app, Nat.sub_diag, firstn_all. cbn. apply app_nil_r.
  - destruct H as (us0 & u & E & L & F & O & An). destruct (nth_error (us c) i) as [[| | |r]|] eqn:N; try discriminate. injection S as <- <-.
    split; [|auto]. split; [exact Lb|]. cbn [g_at g_out]. split; [|auto]. rewrite E. apply Forall_app. split; [exact F|]. repeat constructor.
    subst i. rewrite E, nth_error_app2, Nat.sub_diag in N by lia. cbn in N. injection N as ->. now eexists.
Qed.
Lemma serve_start_ok size c : us c = [] -> delivered (log c) = [] -> serves size c (serve_start size).
Proof. intros E D. split; [apply repeat_length|]. cbn. auto. Qed.
Lemma serve_inv size m g o ls c p : 1476 <= size -> serve_run (start m g o, serve_start size) ls = Some (c, p) ->
  reachable c /\ serves size c p.
Proof.
  intros Ls. revert c p. induction ls as [|l ls IH] using rev_ind; intros c p R.
  - cbn in R. injection R as <- <-. split; [apply reachable_start|]. now apply serve_start_ok.
  - assert (A : forall a b s, serve_run s (a ++ b) = match serve_run s a with Some s1 => serve_run s1 b | None => None end).
    { induction a as [|x a IHa]; intros b s; [reflexivity|]. cbn [app serve_run]. destruct (serve_run1 s x); [apply IHa|reflexivity]. }
    rewrite A in R. destruct (serve_run (start m g o, serve_start size) ls) as [[c1 p1]|]; [|discriminate].
    destruct (IH _ _ eq_refl) as [R1 H1]. cbn [serve_run] in R. destruct (serve_run1 (c1, p1) l) as [s2|] eqn:S; [|discriminate]. injection R as ->.
    destruct l as [l|]; cbn [serve_run1 fst snd] in S.
    + assert (Q : (forall op, l <> LCall op) /\ step c1 l = Some c /\ p = p1).
      { destruct l; try (destruct (step c1 _) as [x|] eqn:E; [|discriminate]; injection S as <- <-; repeat split; auto; discriminate). discriminate. }
      destruct Q as (Nc & St & ->). split; [eapply reachable_run; [exact R1|apply run_one; exact St]|eapply serves_lib; eauto].
    + destruct (serves_prog _ _ _ _ _ R1 Ls H1 S) as (H2 & _ & [->|[op St]]); split; auto.
      eapply reachable_run; [exact R1|apply run_one; exact St].
Qed.
Lemma serve_prints size m g o ls c p : 1476 <= size -> serve_run (start m g o, serve_start size) ls = Some (c, p) ->
  printed_right c p /\
  (forall i r, g_at p = AReturn i -> nth_error (us c) i = Some (UDone r) -> r = RNotEstablished \/ exists n b, r = RRead n b) /\
  (forall c' p', serve_step c p = Some (c', p') -> crash c' = None).
Proof.
  intros Ls R. destruct (serve_inv _ _ _ _ _ _ _ Ls R) as [Re H]. split; [|split].
  - destruct H as [Lb H]. unfold printed_right. destruct (g_at p) as [| |i|i|].
    + destruct H as (_ & D & O). unfold told. rewrite D. auto.
    + apply H.
    + destruct H as (_ & us0 & u & E & L & _ & An). subst i. rewrite E, nth_error_app2, Nat.sub_diag by lia. cbn [nth_error].
      destruct u as [op|buf|s x|r]; cbn [answer] in An; try contradiction.
      * exists []. rewrite app_nil_r. split; [now symmetry|reflexivity].
      * exists []. rewrite app_nil_r. split; [now symmetry|reflexivity].
      * destruct An as [[-> O]|(ps & pd & Ed & -> & O)]; [exists []; rewrite app_nil_r; split; [now symmetry|reflexivity]|].
        pose proof (delivered_size c pd Re) as Sz. rewrite Ed in Sz. specialize (Sz ltac:(apply in_or_app; cbn; auto)).
        exists [PRead (pd_data pd)]. split; [unfold told; rewrite Ed, lines_app, O; reflexivity|]. rewrite read_result_len.
        assert (Lr : length (firstn (length (g_buf p)) (pd_data pd) ++ skipn (length (pd_data pd)) (g_buf p)) = length (g_buf p)) by (rewrite app_length, firstn_length, skipn_length; lia).
        rewrite Lr. split; [reflexivity|]. split; [|lia]. do 2 f_equal. rewrite firstn_all2 with (n := length (g_buf p)) by lia.
        rewrite firstn_app, Nat.sub_diag, firstn_all. cbn. now rewrite app_nil_r.
    + destruct H as (us0 & u & _ & _ & _ & O & _). exact O.
    + destruct H as (_ & [O|(_ & O & D)]); [auto|]. right. unfold told. rewrite D. auto.
  - intros i r A N. destruct H as [_ H]. rewrite A in H. destruct H as (_ & us0 & u & E & L & _ & An). subst i.
    rewrite E, nth_error_app2, Nat.sub_diag in N by lia. cbn in N. injection N as ->. cbn [answer] in An. destruct An as [[-> _]|(ps & pd & _ & -> & _)]; [auto|].
    right. rewrite read_result_len. eauto.
  - intros c' p' S. apply (serves_prog _ _ _ _ _ Re Ls H S).
Qed.
