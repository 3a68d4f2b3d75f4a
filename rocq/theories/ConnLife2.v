(** Two endpoints from Dial and Accept on: the scripts of the handshake and one endpoint. *)
From Verif Require Import GoBase BaseProofs ParamsModel MessagesModel WireSpec ParamsSpec MsgSpec MessagesProofs MessagesProofs2 ConfigModel
  ConnModel CfgSpec ConfigWire ConnSpec ConnBase ConnInv ConnTrace ConnUser ConnCodec ConnMore ConnStable ConnData ConnPair ConnPieces ConnPace ConnE2E
  DialogSpec ConnDialog ConnDuo TalkSpec ConnTalk ParamsProofs ConnLife.
From Coq Require Import Arith Lia Permutation.
Open Scope nat_scope.
Opaque max_value_len.

(** a packet of the handshake *)
Definition inert (r : list byte) : Prop := value r = 0 /\ beat_in r = [] /\ back_in r = [].
Lemma inert_kind r t : valid r (Typed t) -> m_kind t = KAspUp \/ m_kind t = KAspActive \/ m_kind t = KAspUpAck \/ m_kind t = KAspActiveAck -> inert r.
Proof. intros [P _] K. unfold inert, value, beat_in, back_in, beat_of, back_of. rewrite P. destruct K as [->|[->|[->| ->]]]; auto. Qed.
Lemma inert_list l : Forall inert l -> flat_map beat_in l = [] /\ flat_map back_in l = [] /\ cost l = length l /\ total value l = 0.
Proof.
  intros F. induction F as [|r l (V & B1 & B2) F IH]; [auto|]. destruct IH as (I1 & I2 & I3 & I4). cbn [flat_map length]. rewrite B1, B2, I1, I2. unfold cost in *. cbn [total]. rewrite V, I3, I4. auto.
Qed.
Lemma win_incl {A} a b (l : list A) : incl (win a b l) l.
Proof.
  intros x I. unfold win in I. rewrite <- (firstn_skipn a l). apply in_or_app. right. rewrite <- (firstn_skipn (b - a) (skipn a l)). apply in_or_app. now left.
Qed.
Lemma inert_win a b l : Forall inert l -> Forall inert (win a b l).
Proof. intros F. apply Forall_forall. intros x I. rewrite Forall_forall in F. apply F. eapply win_incl; eauto. Qed.
Lemma win_length {A} a b (l : list A) : length (win a b l) <= b - a.
Proof. unfold win. rewrite firstn_length. lia. Qed.

(** The script of the handshake of one endpoint: its k-th state, which packets it has sent and read, and where it waits for one *)
Record script (g g' : config) (o : N) (mo : cmode) (S : nat -> list (list byte) -> bpc -> conn) (wt : nat -> bool) (sent read : nat -> nat) (out inn : list (list byte)) : Prop := {
  sc_start : S 0 [] BStart = start mo g o;
  sc_step : forall k q h l c', fresh_hb h -> k < 17 -> (wt k = true -> q = [] \/ exists x r, nth_error inn (read k) = Some x /\ q = x :: r) ->
    benign l -> step (S k q h) l = Some c' -> scripted2 S wt k q h c';
  sc_go : forall k q h, k < 17 -> (wt k = true -> q <> []) -> can_go (S k q h);
  sc_arrive : forall k q h raw, k <= 17 -> step (S k q h) (LArrive raw) = Some (S k (q ++ [raw]) h);
  sc_inq : forall k q h, k <= 17 -> inq (S k q h) = q;
  sc_hb : forall k q h, k <= 17 -> hb (S k q h) = h;
  sc_log : forall k q h q' h', k <= 17 -> log (S k q h) = log (S k q' h');
  sc_pk : forall k q h, k <= 17 -> packets (log (S k q h)) = firstn (sent k) out;
  sc_mild : forall k q h, k <= 17 -> Forall mild (log (S k q h)) /\ refusals (log (S k q h)) = 0;
  sc_tok : forall k q h, k <= 17 -> hbeat (cur (hs (S k q h))) = [] /\ hback (cur (hs (S k q h))) = [] /\ acking (cur (hs (S k q h))) = false;
  sc_dial : forall k q h, k < 17 -> dial (S k q h) = DWait;
  sc_sound : forall k q h, k <= 17 -> sound (S k q h);
  sc_end : forall q h, Forall (proper g') q -> fresh_hb h -> grown g g' [] (S 17 q (woken h)) (bw (woken h) + total value q);
  sc_read : forall k, k < 17 -> read (Datatypes.S k) = (if wt k then Datatypes.S (read k) else read k);
  sc_sent : forall k, k < 17 -> sent k <= sent (Datatypes.S k) <= Datatypes.S (sent k) /\ sent (Datatypes.S k) <= 2;
  sc_len : length out = 2 /\ length inn = 2;
  sc_inert : Forall inert out /\ Forall inert inn }.

Lemma read2 (p : list byte) : length p <= bufsize -> firstn bufsize p = p /\ skipn bufsize p = [].
Proof. intros L. apply read_any. exact L. Qed.
Lemma script_cl gc gs oc up act upk ack mu ma mk mc : plays2 gc gs up act upk ack mu ma mk mc ->
  script gc gs oc Client (Cl gc oc upk ack mk mc up act) cwait csent cread [up; act] [upk; ack].
Proof.
  intros Pl. pose proof (q_kk _ _ _ _ _ _ _ _ _ _ Pl) as Kk. pose proof (q_kc _ _ _ _ _ _ _ _ _ _ Pl) as Kc.
  pose proof (q_ku _ _ _ _ _ _ _ _ _ _ Pl) as Ku. pose proof (q_ka _ _ _ _ _ _ _ _ _ _ Pl) as Ka. destruct Pl.
  assert (Iu : inert up) by (eapply inert_kind; [eassumption|tauto]). assert (Ia : inert act) by (eapply inert_kind; [eassumption|tauto]).
  assert (Ik : inert upk) by (eapply inert_kind; [eassumption|tauto]). assert (Ic : inert ack) by (eapply inert_kind; [eassumption|tauto]).
  split.
  - reflexivity.
  - intros k q h l c' H Lk Hq B St. eapply Cl_step2; try eassumption.
    + intros ->. destruct (Hq eq_refl) as [->|(x & r & N & ->)]; [auto|]. cbn in N. injection N as ->. eauto.
    + intros ->. destruct (Hq eq_refl) as [->|(x & r & N & ->)]; [auto|]. cbn in N. injection N as ->. eauto.
  - intros k q h Lk Hq. destruct (Cl_go gc oc upk ack mk mc up act k q h) as (c' & B & St); try eassumption. exists (clabel k), c'. split; [split; [exact B|]|split; [|exact St]].
    + intros i E. clear -E. do 17 (destruct k as [|k]; [discriminate E|]). discriminate E.
    + intros E. clear -E. do 17 (destruct k as [|k]; [discriminate E|]). discriminate E.
  - intros. now apply Cl_arrive.
  - intros k q h Lk. do 18 (destruct k as [|k]; [reflexivity|]). lia.
  - intros k q h Lk. do 18 (destruct k as [|k]; [reflexivity|]). lia.
  - intros k q h q' h' Lk. do 18 (destruct k as [|k]; [reflexivity|]). lia.
  - intros. now apply Cl_packets.
  - intros k q h Lk. do 18 (destruct k as [|k]; [split; [repeat (apply Forall_cons || apply Forall_nil); exact Logic.I|reflexivity]|]). lia.
  - intros k q h Lk. destruct Ik as (_ & K1 & K2). destruct Ic as (_ & C1 & C2).
    do 18 (destruct k as [|k]; [cbn [Cl at_ hs cur last hbeat hback acking beat_of back_of]; rewrite ?K1, ?K2, ?C1, ?C2, ?Kk, ?Kc; repeat split; reflexivity|]). lia.
  - intros k q h Lk. do 17 (destruct k as [|k]; [reflexivity|]). lia.
  - intros k q h Lk. do 18 (destruct k as [|k]; [repeat split|]). lia.
  - intros q h F Hh. split; try reflexivity; try (now constructor); try exact F.
    + unfold bok. destruct Hh as [-> | ->]; exact Logic.I.
    + intros _. split; [destruct Hh as [-> | ->]; exact Logic.I|reflexivity].
    + discriminate.
    + exists 0. split; [apply V_read; repeat constructor|]. destruct Hh as [-> | ->]; cbn; lia.
  - intros k Lk. now apply cread_S.
  - intros k Lk. do 17 (destruct k as [|k]; [cbn; lia|]). lia.
  - auto.
  - auto.
Qed.
Lemma script_sv gc gs os up act upk ack mu ma mk mc : plays2 gc gs up act upk ack mu ma mk mc ->
  script gs gc os Server (Sv gs os up act mu ma upk ack) swait ssent sread [upk; ack] [up; act].
Proof.
  intros Pl. pose proof (q_kk _ _ _ _ _ _ _ _ _ _ Pl) as Kk. pose proof (q_kc _ _ _ _ _ _ _ _ _ _ Pl) as Kc.
  pose proof (q_ku _ _ _ _ _ _ _ _ _ _ Pl) as Ku. pose proof (q_ka _ _ _ _ _ _ _ _ _ _ Pl) as Ka. destruct Pl.
  assert (Iu : inert up) by (eapply inert_kind; [eassumption|tauto]). assert (Ia : inert act) by (eapply inert_kind; [eassumption|tauto]).
  assert (Ik : inert upk) by (eapply inert_kind; [eassumption|tauto]). assert (Ic : inert ack) by (eapply inert_kind; [eassumption|tauto]).
  split.
  - reflexivity.
  - intros k q h l c' H Lk Hq B St. eapply Sv_step2; try eassumption.
    + intros ->. destruct (Hq eq_refl) as [->|(x & r & N & ->)]; [auto|]. cbn in N. injection N as ->. eauto.
    + intros ->. destruct (Hq eq_refl) as [->|(x & r & N & ->)]; [auto|]. cbn in N. injection N as ->. eauto.
  - intros k q h Lk Hq. destruct (Sv_go gs os up act mu ma upk ack k q h) as (c' & B & St); try eassumption. exists (slabel k), c'. split; [split; [exact B|]|split; [|exact St]].
    + intros i E. clear -E. do 17 (destruct k as [|k]; [discriminate E|]). discriminate E.
    + intros E. clear -E. do 17 (destruct k as [|k]; [discriminate E|]). discriminate E.
  - intros. now apply Sv_arrive.
  - intros k q h Lk. do 18 (destruct k as [|k]; [reflexivity|]). lia.
  - intros k q h Lk. do 18 (destruct k as [|k]; [reflexivity|]). lia.
  - intros k q h q' h' Lk. do 18 (destruct k as [|k]; [reflexivity|]). lia.
  - intros. now apply Sv_packets.
  - intros k q h Lk. do 18 (destruct k as [|k]; [split; [repeat (apply Forall_cons || apply Forall_nil); exact Logic.I|reflexivity]|]). lia.
  - intros k q h Lk. destruct Iu as (_ & K1 & K2). destruct Ia as (_ & C1 & C2).
    do 18 (destruct k as [|k]; [cbn [Sv at_ hs cur last hbeat hback acking beat_of back_of]; rewrite ?K1, ?K2, ?C1, ?C2, ?Ku, ?Ka; repeat split; reflexivity|]). lia.
  - intros k q h Lk. do 17 (destruct k as [|k]; [reflexivity|]). lia.
  - intros k q h Lk. do 18 (destruct k as [|k]; [repeat split|]). lia.
  - intros q h F Hh. split; try reflexivity; try (now constructor); try exact F.
    + unfold bok. destruct Hh as [-> | ->]; exact Logic.I.
    + intros _. split; [destruct Hh as [-> | ->]; exact Logic.I|reflexivity].
    + discriminate.
    + exists 0. split; [apply V_read; repeat constructor|]. destruct Hh as [-> | ->]; cbn; lia.
  - intros k Lk. now apply sread_S.
  - intros k Lk. do 17 (destruct k as [|k]; [cbn; lia|]). lia.
  - auto.
  - auto.
Qed.

(** ** One endpoint *)
Definition yh (h : bpc) : nat := match h with BStart => 34 | _ => 33 end.
Definition life g g' (S : nat -> list (list byte) -> bpc -> conn) (k : nat) (ops : list uop) (c : conn) (w : nat) : Prop :=
  (k < 17 /\ ops = [] /\ exists h, fresh_hb h /\ c = S k (inq c) h /\ w = 2 * (17 - k) + yh h + total value (inq c)) \/
  (k = 17 /\ grown g g' ops c w).
Lemma bw_woken h : fresh_hb h -> bw (woken h) < yh h.
Proof. intros [-> | ->]; cbn; lia. Qed.
Lemma yh_33 h : 33 <= yh h <= 34.
Proof. destruct h; cbn; lia. Qed.
Lemma win_step {A} (l : list A) r x : nth_error l r = Some x -> win r (Datatypes.S r) l = [x].
Proof. unfold win. intros N. replace (Datatypes.S r - r) with 1 by lia. revert r N. induction l as [|y l IH]; intros [|r] N; cbn in *; try discriminate; [congruence|now apply IH]. Qed.
Lemma win_empty {A} a (l : list A) : win a a l = [].
Proof. unfold win. now rewrite Nat.sub_diag. Qed.
Lemma firstn_win {A} (l : list A) a b : a <= b -> firstn b l = firstn a l ++ win a b l.
Proof.
  unfold win. revert l b. induction a as [|a IH]; intros l b L; [now rewrite Nat.sub_0_r|].
  destruct b as [|b]; [lia|]. destruct l as [|x l]; [cbn; now rewrite firstn_nil|]. cbn [firstn skipn app Nat.sub]. f_equal. apply IH. lia.
Qed.

Lemma life_step g g' o mo S wt sent read out inn k ops c w l c' : script g g' o mo S wt sent read out inn -> cfg_ok g -> cfg_ok g' -> speaks g ->
  life g g' S k ops c w -> waits c -> (k < 17 -> wt k = true -> inq c = [] \/ exists x r, nth_error inn (read k) = Some x /\ inq c = x :: r) ->
  (k = 16 -> Forall (proper g') (inq c)) -> fair l -> l <> LHbTimer -> step c l = Some c' ->
  exists k' es w', life g g' S k' ops c' w' /\ k <= k' <= 17 /\ log c' = log c ++ es /\ Forall mild es /\ w' + cost (packets es) < w /\ moves c c' es /\
    ((k = 17 /\ Forall (proper g) (packets es)) \/ (k < 17 /\ packets es = win (sent k) (sent k') out /\ inq c = win (read k) (read k') inn ++ inq c')).
Proof.
  intros Sc Ok Ok' Sp [(Lk & -> & h & Fh & Ec & Ew)|(-> & Gr)] Wt Hd Pr F Nt St.
  2:{ destruct (grown_step _ _ _ _ _ _ _ Ok Ok' Sp Gr Wt F Nt St) as (es & w' & Gr' & El & M & P & L & Mv).
      exists 17, es, w'. split; [right; auto|]. split; [lia|]. split; [exact El|]. split; [exact M|]. split; [exact L|]. split; [exact Mv|]. left. auto. }
  pose proof (sc_inert _ _ _ _ _ _ _ _ _ _ Sc) as [Io Ii].
  assert (St' := St). rewrite Ec in St'. destruct F as [B _].
  destruct (sc_step _ _ _ _ _ _ _ _ _ _ Sc _ _ _ _ _ Fh Lk (Hd Lk) B St') as [(Eh & ->)|(q' & -> & Hq)].
  - (* the heartbeat goroutine reaches its Wait *)
    assert (Eq : inq (S k (inq c) BWait) = inq c) by (apply (sc_inq _ _ _ _ _ _ _ _ _ _ Sc); lia).
    exists k, [], (2 * (17 - k) + 33 + total value (inq c)).
    split; [left; split; [exact Lk|]; split; [reflexivity|]; exists BWait; rewrite Eq; split; [now right|]; split; [reflexivity|reflexivity]|].
    split; [lia|]. split; [rewrite app_nil_r, Ec; apply (sc_log _ _ _ _ _ _ _ _ _ _ Sc); lia|]. split; [constructor|].
    split; [rewrite Ew, Eh; cbn [yh packets flat_map cost total]; lia|]. split.
    + unfold moves, dueb, duea, owed. rewrite Eq.
      destruct (sc_tok _ _ _ _ _ _ _ _ _ _ Sc k (inq c) BWait) as (T1 & T2 & T3); [lia|]. destruct (sc_tok _ _ _ _ _ _ _ _ _ _ Sc k (inq c) h) as (U1 & U2 & U3); [lia|].
      rewrite <- Ec in U1, U2, U3. rewrite T1, T2, T3, U1, U2, U3.
      rewrite (sc_hb _ _ _ _ _ _ _ _ _ _ Sc) by lia. assert (hb c = h) as -> by (rewrite Ec; apply (sc_hb _ _ _ _ _ _ _ _ _ _ Sc); lia). rewrite Eh.
      cbn [packets flat_map hbt]. split; intros z; cbn [nof count_occ]; lia.
    + right. split; [exact Lk|]. rewrite Eq, !win_empty. auto.
  - pose proof (sc_sent _ _ _ _ _ _ _ _ _ _ Sc k Lk) as [[S1 S2] S3]. pose proof (sc_read _ _ _ _ _ _ _ _ _ _ Sc k Lk) as Rd.
    set (h' := if k =? 16 then woken h else h) in *.
    assert (Eq : inq (S (Datatypes.S k) q' h') = q') by (apply (sc_inq _ _ _ _ _ _ _ _ _ _ Sc); lia).
    assert (Iq : inq c = win (read k) (read (Datatypes.S k)) inn ++ q').
    { rewrite Rd. destruct (wt k) eqn:Wk; [|rewrite win_empty; cbn [app]; now symmetry].
      destruct Hq as [r Hq]. destruct (Hd Lk eq_refl) as [E|(x & r' & N & E)]; [congruence|]. rewrite (win_step _ _ _ N), E. cbn [app]. congruence. }
    destruct (log_grows _ _ _ St) as [es El].
    assert (Pk : packets es = win (sent k) (sent (Datatypes.S k)) out).
    { pose proof (sc_pk _ _ _ _ _ _ _ _ _ _ Sc (Datatypes.S k) q' h' ltac:(lia)) as P1. rewrite El, packets_app in P1. rewrite Ec in P1 at 1.
      rewrite (sc_pk _ _ _ _ _ _ _ _ _ _ Sc) in P1 by lia. rewrite (firstn_win out _ _ S1) in P1. now apply app_inv_head in P1. }
    assert (Cp : cost (packets es) <= 1).
    { rewrite Pk. destruct (inert_list _ (inert_win (sent k) (sent (Datatypes.S k)) _ Io)) as (_ & _ & -> & _). pose proof (win_length (sent k) (sent (Datatypes.S k)) out). lia. }
    assert (Vq : total value (inq c) = total value q').
    { rewrite Iq, total_app. destruct (inert_list _ (inert_win (read k) (read (Datatypes.S k)) _ Ii)) as (_ & _ & _ & ->). reflexivity. }
    assert (Fm : Forall mild es).
    { destruct (sc_mild _ _ _ _ _ _ _ _ _ _ Sc (Datatypes.S k) q' h' ltac:(lia)) as [Fm _]. rewrite El in Fm. now apply Forall_app in Fm. }
    assert (Hbc : hb c = h) by (rewrite Ec; apply (sc_hb _ _ _ _ _ _ _ _ _ _ Sc); lia).
    assert (Mv : moves c (S (Datatypes.S k) q' h') es).
    { unfold moves, dueb, duea, owed. rewrite Eq, Iq, !flat_map_app.
      destruct (inert_list _ (inert_win (read k) (read (Datatypes.S k)) _ Ii)) as (-> & -> & _ & _).
      destruct (inert_list _ (inert_win (sent k) (sent (Datatypes.S k)) _ Io)) as (P1 & P2 & _ & _). rewrite <- Pk in P1, P2. rewrite P1, P2.
      destruct (sc_tok _ _ _ _ _ _ _ _ _ _ Sc (Datatypes.S k) q' h') as (T1 & T2 & T3); [lia|]. destruct (sc_tok _ _ _ _ _ _ _ _ _ _ Sc k (inq c) h) as (U1 & U2 & U3); [lia|].
      rewrite <- Ec in U1, U2, U3. rewrite T1, T2, T3, U1, U2, U3, Hbc.
      rewrite (sc_hb _ _ _ _ _ _ _ _ _ _ Sc) by lia. 
      assert (hbt h' (hbd (S (Datatypes.S k) q' h')) = [] /\ hbt h (hbd c) = []) as [-> ->] by (unfold h'; destruct Fh as [-> | ->], (k =? 16); auto).
      cbn [app]. split; intros z; cbn [nof count_occ]; lia. }
    exists (Datatypes.S k), es. destruct (Nat.eq_dec k 16) as [->|Nk].
    + change h' with (woken h) in *. assert (Pq : Forall (proper g') q') by (specialize (Pr eq_refl); rewrite Iq in Pr; now apply Forall_app in Pr).
      exists (bw (woken h) + total value q'). split; [right; split; [reflexivity|]; apply (sc_end _ _ _ _ _ _ _ _ _ _ Sc); assumption|].
      split; [lia|]. split; [exact El|]. split; [exact Fm|]. split; [pose proof (bw_woken h Fh); lia|]. split; [exact Mv|]. right. rewrite Eq. auto.
    + assert (h' = h) as Eh by (unfold h'; destruct (Nat.eqb_spec k 16); [contradiction|reflexivity]). rewrite Eh in *. clear h' Eh.
      exists (2 * (17 - Datatypes.S k) + yh h + total value q'). split.
      { left. split; [lia|]. split; [reflexivity|]. exists h. rewrite Eq. auto. }
      split; [lia|]. split; [exact El|]. split; [exact Fm|]. split; [lia|]. split; [exact Mv|]. right. rewrite Eq. auto.
Qed.
Lemma life_arrive g g' o mo S wt sent read out inn k ops c w raw : script g g' o mo S wt sent read out inn -> life g g' S k ops c w -> (k = 17 -> proper g' raw) ->
  exists c', step c (LArrive raw) = Some c' /\ life g g' S k ops c' (value raw + w) /\ log c' = log c /\ inq c' = inq c ++ [raw] /\
    (forall x, nof x (dueb c') = nof x (dueb c) + nof x (beat_in raw)) /\ (forall x, nof x (duea c') = nof x (duea c) + nof x (back_in raw)) /\ owed c' = owed c.
Proof.
  intros Sc [(Lk & -> & h & Fh & Ec & Ew)|(-> & Gr)] Pr.
  - pose proof (sc_arrive _ _ _ _ _ _ _ _ _ _ Sc k (inq c) h raw ltac:(lia)) as St. rewrite <- Ec in St. eexists. split; [exact St|].
    assert (Iq : inq (S k (inq c ++ [raw]) h) = inq c ++ [raw]) by (apply (sc_inq _ _ _ _ _ _ _ _ _ _ Sc); lia).
    split; [left; split; [exact Lk|]; split; [reflexivity|]; exists h; rewrite Iq; split; [exact Fh|]; split; [reflexivity|]; rewrite total_app; cbn [total]; lia|].
    unfold step in St. destruct (crash c); [discriminate|]. apply some_inj in St. rewrite <- St. split; [reflexivity|]. split; [reflexivity|].
    unfold dueb, duea, owed. cb. split; [|split; [|reflexivity]]; intros z; rewrite flat_map_app, !nof_app; cbn [flat_map]; rewrite app_nil_r; lia.
  - destruct (grown_arrive _ _ _ _ _ raw Gr (Pr eq_refl)) as (c' & St & Gr' & El & T1 & T2 & T3). exists c'. split; [exact St|]. split; [right; auto|]. split; [exact El|].
    split; [|auto]. unfold step in St. destruct (crash c); [discriminate|]. apply some_inj in St. now rewrite <- St.
Qed.
Lemma life_up g g' o mo S wt sent read out inn k ops c w : script g g' o mo S wt sent read out inn -> life g g' S k ops c w -> dial c = DOk -> k = 17 /\ grown g g' ops c w.
Proof.
  intros Sc [(Lk & -> & h & Fh & Ec & Ew)|H] D; [|exact H]. rewrite Ec, (sc_dial _ _ _ _ _ _ _ _ _ _ Sc) in D by exact Lk. discriminate.
Qed.
Lemma life_asleep g g' o mo S wt sent read out inn k ops c w : script g g' o mo S wt sent read out inn -> life g g' S k ops c w -> hb c = BSleep -> k = 17 /\ grown g g' ops c w.
Proof.
  intros Sc [(Lk & -> & h & Fh & Ec & Ew)|H] D; [|exact H]. rewrite Ec, (sc_hb _ _ _ _ _ _ _ _ _ _ Sc) in D by lia. destruct Fh; congruence.
Qed.
Lemma life_sound g g' o mo S wt sent read out inn k ops c w : script g g' o mo S wt sent read out inn -> life g g' S k ops c w -> sound c.
Proof.
  intros Sc [(Lk & -> & h & Fh & Ec & Ew)|(-> & Gr)]; [rewrite Ec; apply (sc_sound _ _ _ _ _ _ _ _ _ _ Sc); lia|]. destruct Gr. now repeat split.
Qed.
Lemma life_refusals g g' o mo S wt sent read out inn k ops c w : script g g' o mo S wt sent read out inn -> life g g' S k ops c w ->
  refusals (log c) <= 1 /\ (hb_on g = false -> refusals (log c) = 0).
Proof.
  intros Sc [(Lk & -> & h & Fh & Ec & Ew)|(-> & Gr)].
  - destruct (sc_mild _ _ _ _ _ _ _ _ _ _ Sc k (inq c) h ltac:(lia)) as [_ R]. rewrite <- Ec in R. lia.
  - destruct Gr as [_ _ _ _ _ _ _ _ _ _ _ _ Off _ Ref _ _]. split; [lia|]. intros H. destruct (Off H). lia.
Qed.
