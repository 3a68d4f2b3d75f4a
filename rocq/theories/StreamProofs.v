(** The streams of the packets: an invariant of the calls and of what they have sent. *)
From Verif Require Import GoBase BaseProofs ParamsModel MessagesModel MsgSpec MessagesProofs ConfigModel
  ConnModel ConnSpec ConnBase ConnInv ConnTrace ConnUser ConnCodec ConnStable ConnData ConnPair ConnE2E GainProofs StreamSpec.
From Coq Require Import Arith Lia.
Open Scope nat_scope.

(** one step of a call, and what it sends *)
Definition hop (c : conn) (u v : upc) (xs : list (N * m3ua * list byte)) : Prop :=
  match u with
  | UGo (OpWrite b rnd) => xs = [] /\ exists s, v = UGo (OpWriteTo b s) /\ choose_stream (maxs c) rnd = Ok (Some s)
  | UGo (OpWritePD pd rnd) => xs = [] /\ exists s, v = UGo (OpWritePDTo pd s) /\ choose_stream (maxs c) rnd = Ok (Some s)
  | UGo (OpWriteTo b s) => xs = [] /\ (v = USend s (data_msg (cfg c) b) \/ v = UDone RNotEstablished)
  | UGo (OpWritePDTo pd s) => xs = [] /\ (v = USend s (pd_msg (cfg c) pd) \/ v = UDone RNotEstablished)
  | UGo (OpWriteSignal m) => (exists b, wire m = Ok b /\ v = UDone (RWrote (m3_MarshalLen m + length b)) /\ xs = [(0%N, m, b)]) \/ (v = UDone RWriteError /\ xs = [])
  | USend s m => (exists m' b, m3_MarshalBinary m = Ok (m', b) /\ v = UDone (RWrote (length b + length b)) /\ xs = [(s, m, b)]) \/ (v = UDone RWriteError /\ xs = [])
  | UDone _ => False
  | _ => xs = [] /\ ((exists r, v = UDone r /\ forall n, r <> RWrote n) \/ exists b, v = URecv b)
  end.
Lemma read_result_not_wrote buf pd n : read_result buf pd <> RWrote n.
Proof. destruct buf; discriminate. Qed.
Lemma upd_sends i j s m b : usends j [ESend (OUser i) s m b] = if j =? i then [(s, m, b)] else [].
Proof. cbn. destruct (j =? i); reflexivity. Qed.
Lemma hop_step c l c' : step c l = Some c' -> (forall op, l <> LCall op) ->
  (us c' = us c /\ forall j, usends j (log c') = usends j (log c)) \/
  (exists i u v xs, nth_error (us c) i = Some u /\ us c' = upd (us c) i v /\ hop c u v xs /\
     forall j, usends j (log c') = usends j (log c) ++ if j =? i then xs else []).
Proof.
  intros S Nc. apply step_stepR in S as [C S].
  destruct S; try (left; split; [reflexivity|]; intros j; cb; rewrite ?usends_app; cbn [usends flat_map]; rewrite ?app_nil_r; reflexivity).
  - left. rewrite state_update_eq. split; [reflexivity|]. intros j. cb. rewrite usends_app. cbn [usends flat_map]. now rewrite app_nil_r.
  - left. bfields (set_dial DOk c). cb. split; [exact B15|]. intros j. rewrite B20. reflexivity.
  - left. fields c. bfields (closing c). cb. split; [congruence|]. intros j. rewrite B20, K20, usends_app. cbn. now rewrite app_nil_r.
  - left. destruct (hba c); auto.
  - exfalso. eapply Nc. reflexivity.
  - right. exists i, (UGo op), u, []. split; [assumption|]. split; [reflexivity|]. split.
    + destruct op; cbn in *; try discriminate; match goal with K : Some _ = Some _ |- _ => injection K as <- end; eauto 6.
    + intros j. cb. destruct (j =? i); now rewrite app_nil_r.
  - right. exists i, (UGo op), (UDone RNotEstablished), []. split; [assumption|]. split; [reflexivity|]. split.
    + destruct op; cbn in *; try discriminate; split; auto; left; eexists; split; [reflexivity|discriminate|reflexivity|discriminate].
    + intros j. cb. destruct (j =? i); now rewrite app_nil_r.
  - right. exists i, (UGo (OpWrite b rnd)), (UGo (OpWriteTo b s)), []. split; [assumption|]. split; [reflexivity|]. split; [cbn; eauto|].
    intros j. cb. destruct (j =? i); now rewrite app_nil_r.
  - right. exists i, (UGo (OpWritePD pd rnd)), (UGo (OpWritePDTo pd s)), []. split; [assumption|]. split; [reflexivity|]. split; [cbn; eauto|].
    intros j. cb. destruct (j =? i); now rewrite app_nil_r.
  - right. exists i, (UGo (OpWriteSignal m)), (UDone (RWrote (m3_MarshalLen m + length b))), [(0%N, m, b)]. split; [assumption|]. split; [reflexivity|]. split; [cbn; eauto 6|].
    intros j. cb. rewrite usends_app, upd_sends. reflexivity.
  - right. exists i, (UGo (OpWriteSignal m)), (UDone RWriteError), []. split; [assumption|]. split; [reflexivity|]. split; [cbn; auto|].
    intros j. cb. destruct (j =? i); now rewrite app_nil_r.
  - right. fields c.
    exists i, (UGo OpClose), (UDone (RClosed (sopen c))), []. split; [assumption|]. split; [cb; congruence|]. split; [cbn; split; [reflexivity|]; left; eexists; split; [reflexivity|discriminate]|].
    intros j. cb. rewrite K20, usends_app. cbn. destruct (j =? i); reflexivity.
  - right. exists i, (UGo OpState), (UDone (RState (state c))), []. split; [assumption|]. split; [reflexivity|]. split; [cbn; split; [reflexivity|]; left; eexists; split; [reflexivity|discriminate]|].
    intros j. cb. destruct (j =? i); now rewrite app_nil_r.
  - right. exists i, (URecv buf), (UDone (read_result buf pd)), []. split; [assumption|]. split; [reflexivity|].
    split; [cbn [hop]; split; [reflexivity|]; left; eexists; split; [reflexivity|apply read_result_not_wrote]|].
    intros j. cb. rewrite usends_app. cbn. destruct (j =? i); reflexivity.
  - right. exists i, (URecv buf), (UDone RNotEstablished), []. split; [assumption|]. split; [reflexivity|].
    split; [cbn [hop]; split; [reflexivity|]; left; eexists; split; [reflexivity|discriminate]|].
    intros j. cb. destruct (j =? i); now rewrite app_nil_r.
  - right. exists i, (USend s m), (UDone (RWrote (length b + length b))), [(s, m, b)]. split; [assumption|]. split; [reflexivity|]. split; [cbn; eauto 7|].
    intros j. cb. rewrite usends_app, upd_sends. reflexivity.
  - right. exists i, (USend s m), (UDone RWriteError), []. split; [assumption|]. split; [reflexivity|]. split; [cbn; auto|].
    intros j. cb. destruct (j =? i); now rewrite app_nil_r.
  - left. cb. split; [reflexivity|]. intros j. rewrite usends_app. destruct H0 as [->|[->|(o & e & _ & ->)]]; cbn; now rewrite app_nil_r.
Qed.

(** ** The calls *)
Inductive stage (g : config) (max : N) : uop -> upc -> list (N * m3ua * list byte) -> Prop :=
| ST_go op : stage g max op (UGo op) []
| ST_write b rnd s : (1 <= s <= max)%N -> stage g max (OpWrite b rnd) (UGo (OpWriteTo b s)) []
| ST_write_pd pd rnd s : (1 <= s <= max)%N -> stage g max (OpWritePD pd rnd) (UGo (OpWritePDTo pd s)) []
| ST_send op s m : stream_for max op s -> carries g op m -> stage g max op (USend s m) []
| ST_wait op b : stage g max op (URecv b) []
| ST_none op r : (forall n, r <> RWrote n) -> stage g max op (UDone r) []
| ST_write_done op s m b : stream_for max op s -> carries g op m -> encodes m b -> stage g max op (UDone (RWrote (2 * length b))) [(s, m, b)]
| ST_signal m b : encodes m b -> stage g max (OpWriteSignal m) (UDone (RWrote (2 * length b))) [(0%N, m, b)].
Lemma stage_carried g max op u xs : stage g max op u xs -> carried g max op u xs.
Proof. destruct 1; try (apply CR_nothing; discriminate); [apply CR_nothing; congruence|now apply CR_write|now apply CR_signal]. Qed.
Lemma wire_encodes m b : wire m = Ok b -> encodes m b /\ m3_MarshalLen m = length b.
Proof.
  intros W. assert (E : encodes m b). { unfold wire in W. unfold encodes, m3_MarshalBinary. destruct (m3_MarshalTo m (zeros (m3_MarshalLen m))) as [[m' b']|e|p]; try discriminate. injection W as ->. eauto. }
  split; [exact E|]. symmetry. exact (encodes_len m b E).
Qed.
Lemma stage_hop c max op u xs v ys : maxs c = max -> (max < 65536)%N -> stage (cfg c) max op u xs -> hop c u v ys -> xs = [] /\ stage (cfg c) max op v ys.
Proof.
  intros <- L T H. destruct T as [op|b rnd s R|pd rnd s R|op s m Sf Ca|op b|op r Nr|op s m b Sf Ca En|m b En]; cbn [hop] in H; try contradiction; (split; [reflexivity|]).
  - destruct op.
    + destruct H as [-> [(r & -> & Nr)|(b & ->)]]; constructor; auto.
    + destruct H as [-> [(r & -> & Nr)|(b & ->)]]; constructor; auto.
    + destruct H as [-> (s & -> & Ch)]. apply ST_write. eapply choose_stream_range; eauto.
    + destruct H as [-> [->| ->]]; [|constructor; discriminate]. apply ST_send; [reflexivity|constructor].
    + destruct H as [-> (s & -> & Ch)]. apply ST_write_pd. eapply choose_stream_range; eauto.
    + destruct H as [-> [->| ->]]; [|constructor; discriminate]. apply ST_send; [reflexivity|constructor].
    + destruct H as [(b & W & -> & ->)|[-> ->]]; [|constructor; discriminate]. destruct (wire_encodes _ _ W) as [En ->].
      replace (length b + length b) with (2 * length b) by lia. now apply ST_signal.
    + destruct H as [-> [(r & -> & Nr)|(b & ->)]]; constructor; auto.
    + destruct H as [-> [(r & -> & Nr)|(b & ->)]]; constructor; auto.
  - destruct H as [-> [->| ->]]; [|constructor; discriminate]. apply ST_send; [exact R|constructor].
  - destruct H as [-> [->| ->]]; [|constructor; discriminate]. apply ST_send; [exact R|constructor].
  - destruct H as [(m' & b & W & -> & ->)|[-> ->]]; [|constructor; discriminate].
    replace (length b + length b) with (2 * length b) by lia. apply ST_write_done; auto. now exists m'.
  - destruct H as [-> [(r & -> & Nr)|(b' & ->)]]; constructor; auto.
Qed.
Lemma staged m g o ls : forall c, run (start m g o) ls = Some c ->
  length (us c) = length (calls ls) /\ (forall j, length (calls ls) <= j -> usends j (log c) = []) /\
  forall i op u, nth_error (calls ls) i = Some op -> nth_error (us c) i = Some u -> stage (cfg c) (maxs c) op u (usends i (log c)).
Proof.
  induction ls as [|l ls IH] using rev_ind; intros c R.
  - injection R as <-. split; [reflexivity|]. split; [reflexivity|]. intros [|i] op u N; discriminate.
  - apply run_snoc in R as (c1 & R1 & S). destruct (IH c1 R1) as (Ln & No & T). rewrite calls_snoc.
    destruct (static_step _ _ _ S) as (_ & Ec & Em). rewrite Ec, Em.
    assert (Mx : (maxs c1 < 65536)%N) by (apply maxs_small; exists m, g, o, ls; exact R1).
    destruct (call_or_not l) as [(op & ->)|Nl].
    + destruct (called _ _ _ S) as [-> ->]. rewrite !app_length. cbn [length]. split; [lia|]. split; [intros j Lj; apply No; lia|].
      intros i x u Nx Nu. destruct (Nat.lt_ge_cases i (length (calls ls))) as [Li|Li].
      * rewrite nth_error_app1 in Nx by exact Li. rewrite nth_error_app1 in Nu by lia. now apply T.
      * rewrite nth_error_app2 in Nx by exact Li. rewrite nth_error_app2 in Nu by lia. rewrite Ln in Nu.
        destruct (i - length (calls ls)) as [|k]; [|destruct k; discriminate]. injection Nx as <-. injection Nu as <-.
        rewrite No by exact Li. apply ST_go.
    + rewrite (not_call l Nl), app_nil_r. destruct (hop_step _ _ _ S Nl) as [[-> Eq]|(i & u & v & xs & N & -> & H & Eq)].
      * split; [exact Ln|]. split; [intros j Lj; rewrite Eq; auto|]. intros i x u Nx Nu. rewrite Eq. now apply T.
      * assert (Li : i < length (us c1)) by (apply nth_error_Some; congruence).
        split; [rewrite upd_len; exact Ln|]. split.
        -- intros j Lj. rewrite Eq, No by exact Lj. destruct (Nat.eqb_spec j i); [lia|reflexivity].
        -- intros j x w Nx Nw. rewrite Eq. destruct (Nat.eqb_spec j i) as [->|Ne].
           ++ rewrite (upd_nth_same _ _ _ _ N) in Nw. injection Nw as <-.
              destruct (stage_hop c1 (maxs c1) x u _ v xs eq_refl Mx (T i x u Nx N) H) as [E St]. rewrite E. exact St.
           ++ rewrite upd_nth_other in Nw by congruence. rewrite app_nil_r. now apply T.
Qed.

(** ** What the library sends on its own account *)
Lemma own_sends c o s m b : reachable c -> In (ESend o s m b) (log c) -> by_user o = false ->
  s = 0%N /\ encodes m b /\ octets b <> data_octets /\
  (octets b = (0, 0)%N -> exists x k, m = Typed x /\ m_kind x = KError /\ fget FErrorCode (m_f x) = Some (NewErrorCode k) /\ In k [1; 4; 6]%N).
Proof.
  intros R I U. apply in_split in I as (l1 & l2 & E). destruct o as [|i|i| |i]; try discriminate.
  - destruct (mon_sends _ _ _ _ _ _ R E) as (-> & En & [(l0 & x & l3 & -> & J & Q)|(l0 & o & e & l3 & -> & A & Q)]); (split; [reflexivity|]; split; [exact En|]).
    + unfold initial in J. destruct (mode c), x; try discriminate; injection J as <-; rewrite (new_msg_octets _ _ _ En); split; discriminate.
    + rewrite (answers_octets _ _ _ _ A En). split; [discriminate|]. intros _. destruct A; eexists _, _; (split; [reflexivity|]; split; [reflexivity|]; split; [reflexivity|cbn; auto]).
  - destruct (reply_justified _ _ _ _ _ _ _ R E) as (-> & En & _ & raw & t & sts & _ & _ & _ & K & _). split; [reflexivity|]. split; [exact En|].
    unfold ack_octets in K. destruct (m_kind t); try discriminate;
      apply (f_equal (fun x => match x with Some y => y | None => (0, 0)%N end)) in K; cbn beta iota in K; rewrite K; split; try discriminate; intros [=].
  - destruct (trace_reachable c R) as [h H]. destruct (history_split _ _ _ _ _ _ _ H E) as (ha & he & Ha & S & _). inversion S.
  - destruct (trace_reachable c R) as [h H]. destruct (history_split _ _ _ _ _ _ _ H E) as (ha & he & Ha & S & _). inversion S; subst.
    split; [reflexivity|]. match goal with B : encodes (beat _) _ |- _ => split; [exact B|]; rewrite (beat_octets _ _ B) end. split; discriminate.
Qed.
Lemma in_usends i s m b l : In (ESend (OUser i) s m b) l <-> In (s, m, b) (usends i l).
Proof.
  unfold usends. rewrite in_flat_map. split.
  - intros I. exists (ESend (OUser i) s m b). split; [exact I|]. rewrite Nat.eqb_refl. left. reflexivity.
  - intros (e & I & J). destruct e as [| |o s' m' b'| | |]; try contradiction. destruct o as [|k|k| |k]; try contradiction. destruct (Nat.eqb_spec i k) as [->|]; [|contradiction].
    destruct J as [[= -> -> ->]|[]]. exact I.
Qed.
(** every packet *)
Lemma each_stream mo g o ls c w s m b : run (start mo g o) ls = Some c -> In (ESend w s m b) (log c) ->
  (by_user w = false /\ s = 0%N /\ octets b <> data_octets) \/
  (exists i op, w = OUser i /\ nth_error (calls ls) i = Some op /\ nth_error (us c) i = Some (UDone (RWrote (2 * length b))) /\ usends i (log c) = [(s, m, b)] /\ encodes m b /\
     ((op = OpWriteSignal m /\ s = 0%N) \/ (carries (cfg c) op m /\ stream_for (maxs c) op s))).
Proof.
  intros R I. destruct (by_user w) eqn:U.
  - right. destruct w as [|i|i| |i]; try discriminate. destruct (staged _ _ _ _ _ R) as (Ln & No & T).
    pose proof I as J. apply in_usends in J.
    assert (Li : i < length (calls ls)). { destruct (Nat.lt_ge_cases i (length (calls ls))) as [|L]; [assumption|]. rewrite (No i L) in J. contradiction. }
    destruct (nth_error (calls ls) i) as [op|] eqn:N; [|apply nth_error_None in N; lia]. destruct (nth_error (us c) i) as [u|] eqn:N'; [|apply nth_error_None in N'; lia].
    pose proof (stage_carried _ _ _ _ _ (T i op u N N')) as Ca. exists i, op. split; [reflexivity|]. split; [exact N|]. rewrite N'.
    remember (usends i (log c)) as xs. destruct Ca as [op s' m' b' Sf Cr En|m' b' En|op u Nu]; [| |contradiction];
      destruct J as [[= -> -> ->]|[]]; (split; [reflexivity|]; split; [reflexivity|]; split; [exact En|]); auto.
  - left. assert (Rc : reachable c) by (exists mo, g, o, ls; exact R). destruct (own_sends c w s m b Rc I U) as (-> & _ & D & _). auto.
Qed.
