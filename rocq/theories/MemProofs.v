(** Proofs about the memory of the receive path (MemModel.v). *)
From Verif Require Import GoBase ParamsModel MessagesModel ReuseModel ReuseSpec BaseProofs ReuseProofs MemModel MemSpec.
From Coq Require Import Arith Lia FinFun.
Open Scope nat_scope.

(** * Decoding in place agrees with decoding values *)

Lemma load_sub h s a n :
  length (load h s) = s_len s -> a + n <= s_len s ->
  load h (mkSlc (s_blk s) (s_off s + a) n) = firstn n (skipn a (load h s)).
Proof.
  unfold load. cbn [s_blk s_off s_len]. intros _ L.
  rewrite skipn_firstn_comm, firstn_firstn, Nat.min_l by lia. now rewrite skipn_add.
Qed.

Lemma pd_ref_ok h s : length (load h s) = s_len s ->
  match pd_ref h s with
  | Some r => ParseProtocolDataPayload (load h s) = Ok (look h r) /\ s_blk (r_data r) = s_blk s /\
              s_off (r_data r) = s_off s + 12
  | None => forall pd, ParseProtocolDataPayload (load h s) <> Ok pd
  end.
Proof.
  intros L. unfold pd_ref, ParseProtocolDataPayload.
  destruct (length (load h s) <? 12) eqn:E; [discriminate|].
  destruct (Uint32 (load h s) 0) as [a|a|a]; cbn [bind]; try discriminate.
  destruct (Uint32 (load h s) 4) as [b|b|b]; cbn [bind]; try discriminate.
  destruct (index (load h s) 8) as [c|c|c]; cbn [bind]; try discriminate.
  destruct (index (load h s) 9) as [d|d|d]; cbn [bind]; try discriminate.
  destruct (index (load h s) 10) as [e|e|e]; cbn [bind]; try discriminate.
  destruct (index (load h s) 11) as [f|f|f]; cbn [bind]; try discriminate.
  rewrite slice_full by lia. cbn [bind]. unfold look. cbn [r_opc r_dpc r_si r_ni r_mp r_sls r_data s_blk s_off].
  split; [|split; reflexivity]. do 2 f_equal.
  rewrite load_sub by lia. rewrite firstn_all2; [reflexivity|]. rewrite skipn_length. lia.
Qed.

Lemma fget_fset_pd f v s :
  fget FProtocolData (fset f v s) = match f with FProtocolData => v | _ => fget FProtocolData s end.
Proof. destruct s, f; reflexivity. Qed.

Lemma pd_view_ok b ws : forall cur fs,
  fget FProtocolData fs = option_map (see b) cur ->
  match assign_all KData fs (map (see b) ws), pd_view cur ws with
  | Ok fs', Some cur' => fget FProtocolData fs' = option_map (see b) cur' /\
       match cur' with Some w => cur = Some w \/ (In w ws /\ w_tag w = tProtocolData) | None => True end
  | Err _, None => True
  | _, _ => False
  end.
Proof.
  induction ws as [|w ws IH]; intros cur fs H; cbn [map assign_all pd_view].
  - split; [exact H|]. destruct cur; auto.
  - change (p_tag (see b w)) with (w_tag w).
    destruct (lookup_case (w_tag w) (unmarshal_cases KData)) as [f|] eqn:E; [|exact Logic.I].
    assert (K : f = FProtocolData -> w_tag w = tProtocolData).
    { intros ->. unfold unmarshal_cases in E. cbn [lookup_case] in E.
      repeat match type of E with (if ?c then _ else _) = _ => destruct c eqn:?; [try discriminate; now apply N.eqb_eq|] end.
      discriminate. }
    destruct f;
      match goal with
      | |- match assign_all _ (fset ?f ?v ?fs) _ with _ => _ end =>
          specialize (IH (match f with FProtocolData => Some w | _ => cur end) (fset f v fs));
          rewrite fget_fset_pd in IH
      end; cbv iota in IH; try specialize (IH H); try specialize (IH eq_refl);
      set (X := assign_all KData _ (map (see b) ws)) in *;
      match goal with |- context [pd_view ?c ws] => set (Y := pd_view c ws) in * end;
      destruct X, Y as [cur'|]; try exact IH;
      destruct IH as [A B]; split; try exact A; destruct cur' as [w'|]; try exact Logic.I;
      destruct B as [B|[B B']]; auto; try (right; split; [now right|exact B']).
    injection B as <-. right. split; [now left|auto].
Qed.

Lemma chain_fits ws : forall off n w, chain off ws n -> In w ws -> w_off w + w_len w <= n.
Proof.
  induction ws as [|v ws IH]; intros off n w C I; [destruct I|].
  cbn [chain] in C. destruct C as (_ & C & D). destruct I as [<-|I]; [exact C|]. exact (IH _ _ _ D I).
Qed.

Lemma decode_at_ok h raw : length (load h raw) = s_len raw ->
  match decode_at h raw with
  | Some r => carries (load h raw) (look h r) /\ s_blk (r_data r) = s_blk raw /\
              s_off raw <= s_off (r_data r)
  | None => forall pd, ~ carries (load h raw) pd
  end.
Proof.
  intros L. unfold decode_at, carries, Parse. set (b := load h raw) in *.
  destruct (length b <? 8) eqn:E8.
  { intros pd (m & p & P & _). destruct (length b <? 4); [discriminate|].
    destruct (index b 2) as [c|c|c]; cbn [bind] in P; try discriminate.
    destruct (index b 3) as [t|t|t]; cbn [bind] in P; try discriminate.
    destruct (dispatch c t); unfold msg_Unmarshal, gen_Unmarshal, ParseHeader in P; rewrite E8 in P;
      cbn [bind] in P; discriminate. }
  replace (length b <? 4) with false by lia.
  destruct (index b 2) as [c|c|c] eqn:I2; cbn [bind]; [|now intros pd (m & p & P & _)..].
  destruct (index b 3) as [t|t|t] eqn:I3; cbn [bind]; [|now intros pd (m & p & P & _)..].
  assert (H8 : exists hd, ParseHeader b = Ok hd /\ h_payload hd = skipn 8 b).
  { unfold ParseHeader. rewrite E8.
    unfold index in *. 
    destruct b as [|b0 [|b1 [|b2 [|b3 [|b4 [|b5 [|b6 [|b7 b8]]]]]]]]; try (cbn [length] in E8; discriminate).
    rewrite slice_full by (cbn [length]; lia).
    cbn [nth_error bind]. unfold Uint32, index. cbn. eexists. split; reflexivity. }
  destruct H8 as (hd & PH & PL).
  destruct (dispatch c t) as [k|].
  2:{ intros pd (m & p & P & _). destruct (gen_Unmarshal b); cbn [bind] in P; discriminate. }
  assert (KK : forall m, msg_Unmarshal k b = Ok m -> m_kind m = k).
  { intros m. unfold msg_Unmarshal. rewrite PH. cbn [bind].
    destruct (ParseMultiParams _) as [ps|x|x]; cbn [bind]; try discriminate.
    destruct (assign_all k no_fields ps) as [fs|x|x]; cbn [bind]; try discriminate. now intros [= <-]. }
  destruct k; try (intros pd (m & p & P & K & _);
    destruct (msg_Unmarshal _ b) as [m'|x|x]; cbn [bind] in P; try discriminate;
    injection P as <-; specialize (KK _ eq_refl); congruence).
  clear KK. unfold msg_Unmarshal. rewrite PH. cbn [bind]. rewrite PL.
  pose proof (views_ok (skipn 8 b)) as V.
  destruct (ParseMultiParams (skipn 8 b)) as [ps|x|x], (ParseViews (skipn 8 b)) as [ws|y|y]; try contradiction.
  2:{ intros pd (m & p & P & _). cbn [bind] in P. discriminate. }
  destruct V as [-> CH]. cbn [bind].
  pose proof (pd_view_ok (skipn 8 b) ws None no_fields eq_refl) as V.
  destruct (assign_all KData no_fields (map (see (skipn 8 b)) ws)) as [fs|x|x]; cbn [bind];
    destruct (pd_view None ws) as [cur|]; try contradiction.
  2:{ intros pd (m & p & P & _). discriminate. }
  destruct V as [F W]. destruct cur as [w|].
  2:{ intros pd (m & p & P & _ & G & _). injection P as <-. cbn [m_f] in G. rewrite F in G. discriminate. }
  destruct W as [W|[W T]]; [discriminate|].
  pose proof (chain_fits _ _ _ _ CH W) as FT. rewrite skipn_length in FT.
  assert (LS : load h (mkSlc (s_blk raw) (s_off raw + 8 + w_off w) (w_len w)) = p_data (see (skipn 8 b) w)).
  { rewrite <- Nat.add_assoc. rewrite load_sub by (fold b; lia). fold b. cbn [see p_data]. now rewrite skipn_add. }
  assert (LL : length (load h (mkSlc (s_blk raw) (s_off raw + 8 + w_off w) (w_len w))) = w_len w).
  { rewrite LS. cbn [see p_data]. rewrite firstn_length, !skipn_length. lia. }
  pose proof (pd_ref_ok h (mkSlc (s_blk raw) (s_off raw + 8 + w_off w) (w_len w)) LL) as R.
  rewrite LS in R. cbn [s_blk s_off] in R.
  assert (PDE : ProtocolData (see (skipn 8 b) w) = ParseProtocolDataPayload (p_data (see (skipn 8 b) w))).
  { unfold ProtocolData. cbn [see p_tag]. now rewrite T, N.eqb_refl. }
  cbn [option_map] in F.
  destruct (pd_ref h _) as [r|].
  - destruct R as (R & R1 & R2). split; [|split; [exact R1|lia]].
    eexists _, _. split; [reflexivity|]. cbn [m_kind m_f]. split; [reflexivity|].
    split; [exact F|]. now rewrite PDE.
  - intros pd (m & p & P & _ & G & Q). injection P as <-. cbn [m_f] in G. rewrite F in G. injection G as <-.
    pose proof (eq_trans (eq_sym PDE) Q) as Q2. exact (R _ Q2).
Qed.

(** * The blocks *)

Lemma skipn_tl {A} i : forall l : list A, skipn (S i) l = tl (skipn i l).
Proof. induction i as [|i IH]; intros [|x l]; try reflexivity. cbn [skipn]. rewrite <- IH. reflexivity. Qed.

Lemma set_blk_nth h i b : i < length h -> forall j, nth j (set_blk h i b) [] = if j =? i then b else nth j h [].
Proof.
  intros L j. unfold set_blk. destruct (Nat.eqb_spec j i) as [->|N].
  - rewrite app_nth2; rewrite firstn_length, Nat.min_l by lia; [|lia]. now rewrite Nat.sub_diag.
  - rewrite <- (firstn_skipn i h) at 3.
    destruct (Nat.lt_ge_cases j i).
    + rewrite !app_nth1; rewrite ?firstn_length; try lia. reflexivity.
    + rewrite !app_nth2; rewrite ?firstn_length, ?Nat.min_l by lia; try lia.
      destruct (j - i) as [|k] eqn:K; [lia|]. cbn [nth].
      rewrite skipn_tl. destruct (skipn i h); cbn [tl nth]; [now destruct k|reflexivity].
Qed.

Lemma set_blk_len h i b : i < length h -> length (set_blk h i b) = length h.
Proof. intros L. unfold set_blk. rewrite app_length. cbn [length]. rewrite firstn_length, skipn_length. lia. Qed.

Opaque set_blk.

(** Packet [i] lives in block [i+1]; that block holds what was read unless the
    user wrote into the payload of that packet. *)
Definition kept (es : list mev) (m : mem) : Prop :=
  length (m_heap m) = S (length (packets es)) /\
  length (m_raw m) = length (packets es) /\
  length (nth 0 (m_heap m) []) = 1500 /\
  (forall i pkt, nth_error (packets es) i = Some pkt ->
     length (nth (S i) (m_heap m) []) = Nat.min (length pkt) 1500 /\
     (untouched i es -> nth (S i) (m_heap m) [] = firstn 1500 pkt)) /\
  (forall i s, nth_error (m_raw m) i = Some (Some s) ->
     s = mkSlc (S i) 0 (length (nth (S i) (m_heap m) []))) /\
  (forall i r, In (i, r) (m_out m) ->
     nth_error (m_raw m) i = Some None /\ s_blk (r_data r) = S i /\
     exists pkt, nth_error (packets es) i = Some pkt /\
     (untouched i es -> carries (firstn 1500 pkt) (look (m_heap m) r))) /\
  (forall i, ~ (exists r, In (i, r) (m_out m)) -> untouched i es) /\
  NoDup (map fst (m_out m)).

Lemma packets_app a b : packets (a ++ b) = packets a ++ packets b.
Proof. induction a as [|[p|i|i o bs] a IH]; cbn [app packets]; rewrite ?IH; reflexivity. Qed.

Lemma untouched_app i a e : untouched i (a ++ [e]) -> untouched i a.
Proof. intros U o bs I. apply (U o bs). apply in_or_app. now left. Qed.

Lemma run_app a : forall m b, mem_run m (a ++ b) = match mem_run m a with Some m' => mem_run m' b | None => None end.
Proof. induction a as [|e a IH]; intros m b; cbn [app mem_run]; [reflexivity|]. destruct (mem_step m e); auto. Qed.

Lemma load_ext h h' s : nth (s_blk s) h [] = nth (s_blk s) h' [] -> load h s = load h' s.
Proof. unfold load. now intros ->. Qed.

Lemma look_ext h h' r : nth (s_blk (r_data r)) h [] = nth (s_blk (r_data r)) h' [] -> look h r = look h' r.
Proof. intros E. unfold look. now rewrite (load_ext _ _ _ E). Qed.

Lemma nth_error_put {A} (l : list A) i x : i < length l ->
  forall j, nth_error (firstn i l ++ x :: skipn (S i) l) j = if j =? i then Some x else nth_error l j.
Proof.
  intros L j. destruct (Nat.eqb_spec j i) as [->|N].
  - rewrite nth_error_app2; rewrite firstn_length, Nat.min_l by lia; [|lia]. now rewrite Nat.sub_diag.
  - rewrite <- (firstn_skipn i l) at 3.
    destruct (Nat.lt_ge_cases j i).
    + rewrite !nth_error_app1; rewrite ?firstn_length; try lia. reflexivity.
    + rewrite !nth_error_app2; rewrite ?firstn_length, ?Nat.min_l by lia; try lia.
      destruct (j - i) as [|k] eqn:K; [lia|]. cbn [nth_error].
      rewrite skipn_tl. destruct (skipn i l); cbn [tl nth_error]; [now destruct k|reflexivity].
Qed.

Lemma kept_start : kept [] mem_start.
Proof.
  unfold kept, mem_start. cbn [m_heap m_raw m_out packets length nth]. repeat split; try reflexivity.
  - destruct i; discriminate.
  - destruct i; discriminate.
  - intros i s E. destruct i; discriminate.
  - destruct H.
  - destruct H.
  - destruct H.
  - intros i _ o bs [].
  - constructor.
Qed.

Lemma load_whole h i : load h (mkSlc i 0 (length (nth i h []))) = nth i h [].
Proof. unfold load. cbn [s_blk s_off s_len skipn]. now rewrite firstn_all. Qed.

Lemma nth_error_snoc {A} (l : list A) x i y :
  nth_error (l ++ [x]) i = Some y -> (i < length l /\ nth_error l i = Some y) \/ (i = length l /\ y = x).
Proof.
  intros H. destruct (Nat.lt_ge_cases i (length l)).
  - left. rewrite nth_error_app1 in H by lia. auto.
  - right. rewrite nth_error_app2 in H by lia. destruct (i - length l) as [|[|k]] eqn:K; cbn in H; try discriminate.
    injection H as <-. split; [lia|reflexivity].
Qed.

Lemma kept_read es m pkt m' : kept es m -> mem_step m (MRead pkt) = Some m' -> kept (es ++ [MRead pkt]) m'.
Proof.
  intros (H1 & H2 & H3 & H4 & H5 & H6 & H7 & H8) E. cbn [mem_step] in E. rewrite H3 in E. injection E as <-.
  set (n := Nat.min (length pkt) 1500).
  set (buf := firstn n pkt ++ skipn n (nth 0 (m_heap m) [])).
  assert (LB : length buf = 1500).
  { unfold buf. rewrite app_length, firstn_length, skipn_length, H3. unfold n. lia. }
  assert (RW : firstn n buf = firstn 1500 pkt).
  { unfold buf. rewrite firstn_app, firstn_firstn, Nat.min_id, firstn_length.
    replace (n - Nat.min n (length pkt)) with 0 by (unfold n; lia). rewrite firstn_O, app_nil_r. unfold n.
    rewrite Nat.min_comm, <- firstn_firstn, firstn_all. reflexivity. }
  rewrite RW.
  assert (LS : length (set_blk (m_heap m) 0 buf) = S (length (packets es))) by (rewrite set_blk_len; lia).
  assert (NB : forall i, i < length (packets es) ->
     nth (S i) (set_blk (m_heap m) 0 buf ++ [firstn 1500 pkt]) [] = nth (S i) (m_heap m) []).
  { intros i L. rewrite app_nth1 by lia. rewrite set_blk_nth by lia. reflexivity. }
  assert (NL : nth (S (length (packets es))) (set_blk (m_heap m) 0 buf ++ [firstn 1500 pkt]) [] = firstn 1500 pkt).
  { rewrite app_nth2 by lia. rewrite LS, Nat.sub_diag. reflexivity. }
  unfold kept. cbn [m_heap m_raw m_out]. rewrite packets_app. cbn [packets].
  split; [rewrite !app_length; cbn [length]; lia|].
  split; [rewrite !app_length; cbn [length]; lia|].
  split; [rewrite app_nth1 by lia; rewrite set_blk_nth by lia; exact LB|].
  split.
  { intros i p N. apply nth_error_snoc in N as [[L N]|[-> ->]].
    - rewrite NB by exact L. destruct (H4 i p N) as [A B]. split; [exact A|].
      intros U. apply B. exact (untouched_app _ _ _ U).
    - rewrite NL. split; [rewrite firstn_length; lia|reflexivity]. }
  split.
  { intros i s N. apply nth_error_snoc in N as [[L N]|[-> N]].
    - rewrite NB by lia. exact (H5 _ _ N).
    - injection N as ->. rewrite H2, NL, H1, firstn_length. f_equal. unfold n. lia. }
  split.
  { intros i r N. destruct (H6 i r N) as (A & B & p & C & D).
    assert (L : i < length (packets es)) by (apply nth_error_Some; congruence).
    split; [rewrite nth_error_app1 by lia; exact A|]. split; [exact B|].
    exists p. split; [rewrite nth_error_app1 by lia; exact C|].
    intros U. rewrite (look_ext _ (m_heap m)); [exact (D (untouched_app _ _ _ U))|].
    rewrite B. apply NB. exact L. }
  split; [|exact H8].
  intros i N o bs I. apply in_app_or in I as [I|[I|[]]]; [|discriminate]. exact (H7 i N o bs I).
Qed.

Lemma kept_decode es m i m' : kept es m -> mem_step m (MDecode i) = Some m' -> kept (es ++ [MDecode i]) m'.
Proof.
  intros (H1 & H2 & H3 & H4 & H5 & H6 & H7 & H8) E. cbn [mem_step] in E.
  destruct (nth_error (m_raw m) i) as [[s|]|] eqn:R; try discriminate.
  assert (LI : i < length (m_raw m)) by (apply nth_error_Some; congruence).
  assert (UT : forall j, untouched j (es ++ [MDecode i]) <-> untouched j es).
  { intros j. split; [apply untouched_app|]. intros U o bs I. apply in_app_or in I as [I|[I|[]]]; [|discriminate].
    exact (U o bs I). }
  assert (NO : ~ exists r, In (i, r) (m_out m)).
  { intros (r & I). destruct (H6 _ _ I) as (A & _). congruence. }
  assert (PK : exists pkt, nth_error (packets es) i = Some pkt).
  { destruct (nth_error (packets es) i) eqn:X; [eauto|]. apply nth_error_None in X. lia. }
  destruct PK as (pkt & PK). destruct (H4 _ _ PK) as (_ & CT). specialize (CT (H7 i NO)).
  pose proof (H5 _ _ R) as S1.
  assert (LD : load (m_heap m) s = firstn 1500 pkt) by (rewrite S1, load_whole; exact CT).
  pose proof (decode_at_ok (m_heap m) s) as D. rewrite LD in D.
  assert (LL : length (firstn 1500 pkt) = s_len s) by (rewrite <- CT, S1; reflexivity).
  specialize (D LL).
  set (raws := firstn i (m_raw m) ++ None :: skipn (S i) (m_raw m)) in *.
  assert (NR : forall j, nth_error raws j = if j =? i then Some None else nth_error (m_raw m) j)
    by (intros j; apply nth_error_put; exact LI).
  assert (LR : length raws = length (packets es)).
  { unfold raws. rewrite app_length. cbn [length]. rewrite firstn_length, skipn_length. lia. }
  assert (HOLD : forall j r, In (j, r) (m_out m) ->
     nth_error raws j = Some None /\ s_blk (r_data r) = S j /\
     exists p, nth_error (packets es) j = Some p /\
     (untouched j (es ++ [MDecode i]) -> carries (firstn 1500 p) (look (m_heap m) r))).
  { intros j r I. destruct (H6 j r I) as (A & B & p & C & F). split; [rewrite NR, A; now destruct (j =? i)|].
    split; [exact B|]. exists p. split; [exact C|]. intros U. apply F. now apply UT. }
  destruct (decode_at (m_heap m) s) as [r|]; injection E as <-; unfold kept; cbn [m_heap m_raw m_out];
    rewrite packets_app; cbn [packets]; rewrite app_nil_r;
    (split; [exact H1|]; split; [exact LR|]; split; [exact H3|];
     split; [intros j p N; destruct (H4 j p N) as [A B]; split; [exact A|]; intros U; apply B; now apply UT|];
     split; [intros j t N; rewrite NR in N; destruct (j =? i); [discriminate|]; exact (H5 _ _ N)|]).
  - destruct D as (D & DB & _). split.
    { intros j q I. apply in_app_or in I as [I|[I|[]]]; [exact (HOLD _ _ I)|]. injection I as <- <-.
      split; [rewrite NR, Nat.eqb_refl; reflexivity|].
      split; [rewrite DB, S1; reflexivity|]. exists pkt. split; [exact PK|]. intros _. exact D. }
    split.
    { intros j N. apply UT, H7. intros (q & I). apply N. exists q. apply in_or_app. now left. }
    rewrite map_app. cbn [map fst].
    apply NoDup_rev in H8. rewrite <- (rev_involutive (map fst (m_out m) ++ [i])). apply NoDup_rev.
    rewrite rev_app_distr. cbn [rev app]. constructor; [|exact H8].
    intros I. apply in_rev in I. apply in_map_iff in I as ((j & q) & X & I). cbn [fst] in X. subst j. apply NO. eauto.
  - split; [exact HOLD|]. split; [|exact H8]. intros j N. now apply UT, H7.
Qed.

Lemma kept_scribble es m i o bs m' :
  kept es m -> mem_step m (MScribble i o bs) = Some m' -> kept (es ++ [MScribble i o bs]) m'.
Proof.
  intros (H1 & H2 & H3 & H4 & H5 & H6 & H7 & H8) E. cbn [mem_step] in E.
  destruct (find _ (m_out m)) as [[j r]|] eqn:F; [|discriminate].
  apply find_some in F as [I Q]. cbn [fst] in Q. apply Nat.eqb_eq in Q as ->.
  destruct (H6 _ _ I) as (RN & BK & pkt & PK & _). rewrite BK in E.
  destruct ((s_off (r_data r) <=? o) && (o + length bs <=? length (nth (S i) (m_heap m) []))) eqn:G; [|discriminate].
  injection E as <-. set (blk := firstn o _ ++ bs ++ _).
  assert (LBLK : length blk = length (nth (S i) (m_heap m) [])).
  { unfold blk. rewrite !app_length, firstn_length, skipn_length. apply andb_prop in G as [_ G].
    apply Nat.leb_le in G. lia. }
  assert (LI : i < length (packets es)) by (apply nth_error_Some; congruence).
  assert (NB : forall k, nth k (set_blk (m_heap m) (S i) blk) [] = if k =? S i then blk else nth k (m_heap m) [])
    by (apply set_blk_nth; lia).
  assert (OTHER : forall k, untouched k (es ++ [MScribble i o bs]) -> k <> i /\ untouched k es).
  { intros k U. split; [|exact (untouched_app _ _ _ U)]. intros ->. apply (U o bs). apply in_or_app. right. now left. }
  unfold kept. cbn [m_heap m_raw m_out]. rewrite packets_app. cbn [packets]. rewrite app_nil_r.
  split; [rewrite set_blk_len; lia|]. split; [exact H2|]. split; [rewrite NB; exact H3|].
  split.
  { intros k p N. destruct (H4 k p N) as [A B]. rewrite NB. cbn [Nat.eqb]. destruct (Nat.eqb_spec k i) as [->|D].
    - split; [rewrite LBLK; exact A|]. intros U. apply OTHER in U as [U _]. contradiction.
    - split; [exact A|]. intros U. apply B. now apply OTHER. }
  split.
  { intros k s N. rewrite NB. cbn [Nat.eqb]. destruct (Nat.eqb_spec k i) as [->|D]; [congruence|]. exact (H5 _ _ N). }
  split.
  { intros k q J. destruct (H6 k q J) as (A & B & p & C & D). split; [exact A|]. split; [exact B|].
    exists p. split; [exact C|]. intros U. apply OTHER in U as [U V].
    rewrite (look_ext _ (m_heap m)); [exact (D V)|]. rewrite B, NB. cbn [Nat.eqb].
    destruct (Nat.eqb_spec k i); [contradiction|reflexivity]. }
  split; [|exact H8].
  intros k N o' bs' J. apply in_app_or in J as [J|[J|[]]]; [exact (H7 k N o' bs' J)|].
  injection J as <- _ _. apply N. eauto.
Qed.

Lemma kept_run es : forall m, mem_run mem_start es = Some m -> kept es m.
Proof.
  induction es as [|e es IH] using rev_ind; intros m R.
  - injection R as <-. exact kept_start.
  - rewrite run_app in R. destruct (mem_run mem_start es) as [m1|]; [|discriminate]. specialize (IH m1 eq_refl).
    cbn [mem_run] in R. destruct (mem_step m1 e) as [m2|] eqn:S2; [|discriminate]. injection R as <-.
    destruct e; [eapply kept_read|eapply kept_decode|eapply kept_scribble]; eassumption.
Qed.

Lemma payload_kept es m : mem_run mem_start es = Some m ->
  forall i r, In (i, r) (m_out m) -> untouched i es ->
  exists pkt, nth_error (packets es) i = Some pkt /\ carries (firstn 1500 pkt) (look (m_heap m) r).
Proof.
  intros R i r I U. apply kept_run in R as (_ & _ & _ & _ & _ & H6 & _).
  destruct (H6 i r I) as (_ & _ & p & C & D). eauto.
Qed.

Lemma payload_comes es m i m' : mem_run mem_start es = Some m -> mem_step m (MDecode i) = Some m' ->
  exists pkt, nth_error (packets es) i = Some pkt /\
  ((exists r, m_out m' = m_out m ++ [(i, r)] /\ carries (firstn 1500 pkt) (look (m_heap m') r)) \/
   (m_out m' = m_out m /\ forall pd, ~ carries (firstn 1500 pkt) pd)).
Proof.
  intros R E. apply kept_run in R as (H1 & H2 & H3 & H4 & H5 & H6 & H7 & H8). cbn [mem_step] in E.
  destruct (nth_error (m_raw m) i) as [[s|]|] eqn:RR; try discriminate.
  assert (LI : i < length (m_raw m)) by (apply nth_error_Some; congruence).
  assert (NO : ~ exists r, In (i, r) (m_out m)).
  { intros (r & I). destruct (H6 _ _ I) as (A & _). congruence. }
  destruct (nth_error (packets es) i) as [pkt|] eqn:PK; [|apply nth_error_None in PK; lia].
  exists pkt. split; [reflexivity|].
  destruct (H4 _ _ PK) as (_ & CT). specialize (CT (H7 i NO)).
  pose proof (H5 _ _ RR) as S1.
  assert (LD : load (m_heap m) s = firstn 1500 pkt) by (rewrite S1, load_whole; exact CT).
  pose proof (decode_at_ok (m_heap m) s) as D. rewrite LD in D.
  assert (LL : length (firstn 1500 pkt) = s_len s) by (rewrite <- CT, S1; reflexivity).
  specialize (D LL).
  destruct (decode_at (m_heap m) s) as [r|]; injection E as <-; cbn [m_out m_heap].
  - left. exists r. split; [reflexivity|]. apply D.
  - right. split; [reflexivity|exact D].
Qed.

Lemma payload_own es m : mem_run mem_start es = Some m ->
  NoDup (map (fun x => s_blk (r_data (snd x))) (m_out m)) /\
  forall i r, In (i, r) (m_out m) -> s_blk (r_data r) <> 0.
Proof.
  intros R. apply kept_run in R as (H1 & H2 & H3 & H4 & H5 & H6 & H7 & H8). split.
  - assert (E : map (fun x => s_blk (r_data (snd x))) (m_out m) = map S (map fst (m_out m))).
    { rewrite map_map. apply map_ext_in. intros (i & r) I. cbn [fst snd]. apply H6 in I. now apply I. }
    rewrite E. apply Injective_map_NoDup; [|exact H8]. intros a b X. now injection X.
  - intros i r I. destruct (H6 i r I) as (_ & -> & _). discriminate.
Qed.
