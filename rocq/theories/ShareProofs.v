From Verif Require Import GoBase ParamsModel MessagesModel ConfigModel ConnModel WireSpec ParamsSpec MsgSpec BaseProofs ParamsProofs MessagesProofs ConnBase ShareModel ShareSpec.
From Coq Require Import Arith Lia.
Open Scope nat_scope.

(** ** Closed forms *)
Definition Hs (m0 : mem) (a : nat) : param := SetLength (cells m0 a).
Definition wires (m0 : mem) (l : list nat) : list byte := concat (map (fun a => pwire (Hs m0 a)) l).
Definition hdr1 (m0 : mem) (s : send) : header :=
  let h := msgs m0 (s_msg s) in
  if s_new s then set_hlen h (u32 (N.of_nat (8 + length (wires m0 (params_of s))))) else h.
(** equal up to the payload *)
Definition same_hdr (h h' : header) : Prop := set_payload h [] = set_payload h' [].

Lemma wires_app m0 l l' : wires m0 (l ++ l') = wires m0 l ++ wires m0 l'.
Proof. unfold wires. rewrite map_app, concat_app. reflexivity. Qed.

Lemma fget_deref h r f : fget f (deref h r) = option_map h (r f).
Proof. destruct f; reflexivity. Qed.

Lemma slots_refs k hd h r :
  present (slots_of (mkMsg k hd (deref h r))) = map h (refs_over r (marshal_order k)).
Proof.
  unfold slots_of. cbn [m_f m_kind]. unfold refs_over. generalize (marshal_order k) as l.
  induction l as [|f l IH]; [reflexivity|]. cbn [map present flat_map]. rewrite fget_deref.
  fold (present (map (fun f => fget f (deref h r)) l)). rewrite IH.
  destruct (r f); cbn [option_map app map]; reflexivity.
Qed.

Lemma len_refs k hd h r :
  msg_MarshalLen (mkMsg k hd (deref h r)) = 8 + length (concat (map (fun a => pwire (h a)) (refs_over r (marshal_order k)))).
Proof.
  rewrite msg_MarshalLen_sum, sum_len_length, slots_refs, map_map. reflexivity.
Qed.

Lemma pwire_len_data p q : p_data p = p_data q -> length (pwire p) = length (pwire q).
Proof. intros E. rewrite !pwire_length. unfold MarshalLen, Padding. now rewrite E. Qed.

(** cells only ever get their right Length *)
Definition cells_ok (m0 m : mem) : Prop := forall a, cells m a = cells m0 a \/ cells m a = Hs m0 a.
Lemma cells_data m0 m a : cells_ok m0 m -> p_data (cells m a) = p_data (Hs m0 a).
Proof. intros H. destruct (H a) as [-> | ->]; reflexivity. Qed.

Lemma len_now m0 m s hd : cells_ok m0 m ->
  msg_MarshalLen (mkMsg (s_kind s) hd (deref (cells m) (s_refs s))) = 8 + length (wires m0 (params_of s)).
Proof.
  intros H. rewrite len_refs. f_equal. unfold wires, params_of. generalize (refs_over (s_refs s) (marshal_order (s_kind s))) as l.
  induction l as [|a l IH]; [reflexivity|]. cbn [map concat]. rewrite !app_length, IH. f_equal.
  apply pwire_len_data, cells_data, H.
Qed.

(** gaps of a prefix of the parameters *)
Definition partial (m0 : mem) (l : list nat) (b : list byte) : Prop :=
  exists vs, gaps (map (fun a => pwire (Hs m0 a)) l) vs /\ b = concat vs.

Lemma gaps_length ws vs : gaps ws vs -> length (concat ws) = length (concat vs).
Proof.
  induction 1 as [|w v ws vs E _ IH]; [reflexivity|]. cbn [concat]. rewrite !app_length, IH.
  destruct E as [-> | ->]; rewrite ?zeros_length; reflexivity.
Qed.
Lemma gaps_zero ws : gaps ws (map (fun w => zeros (length w)) ws).
Proof. induction ws; constructor; auto. Qed.
Lemma concat_zeros (ws : list (list byte)) : concat (map (fun w => zeros (length w)) ws) = zeros (length (concat ws)).
Proof.
  induction ws as [|w ws IH]; [reflexivity|]. cbn [map concat]. rewrite IH, app_length. unfold zeros.
  now rewrite <- repeat_app.
Qed.
Lemma partial_zero m0 l : partial m0 l (zeros (length (wires m0 l))).
Proof. eexists. split; [apply gaps_zero|]. now rewrite concat_zeros. Qed.
Lemma partial_length m0 l b : partial m0 l b -> length b = length (wires m0 l).
Proof. intros (vs & G & ->). symmetry. now apply gaps_length in G. Qed.

(** writing one parameter in its place *)
Lemma put_slot (pre s post w : list byte) p :
  w = pwire p -> (s = w \/ s = zeros (length w)) ->
  (let! sub := slice (pre ++ s ++ post) (length pre) (length (pre ++ s ++ post)) in MarshalTo p sub) = Ok (w ++ post).
Proof.
  intros Ew Es. rewrite slice_full by (rewrite app_length; lia). cbn [bind].
  rewrite skipn_app, skipn_all, Nat.sub_diag. cbn [skipn app].
  assert (L : length s = length w) by (destruct Es as [-> | ->]; rewrite ?zeros_length; reflexivity).
  rewrite MarshalTo_ok by (rewrite app_length, L, Ew, pwire_length; lia).
  f_equal. rewrite Ew. unfold pwire. rewrite <- !app_assoc. do 3 f_equal.
  assert (LW : length w = 4 + length (p_data p) + pad_len (length (p_data p))).
  { rewrite Ew, pwire_length. unfold MarshalLen. rewrite Padding_pad. reflexivity. }
  rewrite skipn_app. replace (4 + length (p_data p) - length s) with 0 by lia. cbn [skipn]. f_equal.
  destruct Es as [-> | ->].
  - rewrite Ew. unfold pwire. rewrite !app_assoc. rewrite skipn_app.
    rewrite skipn_all2 by (rewrite !app_length, !be_length; lia). cbn [app].
    replace (4 + length (p_data p) - length ((be 2 (p_tag p) ++ be 2 (p_length p)) ++ p_data p)) with 0
      by (rewrite !app_length, !be_length; lia). reflexivity.
  - rewrite skipn_zeros. unfold zeros. f_equal. lia.
Qed.

Lemma partial_put m0 done a rest b :
  partial m0 (done ++ a :: rest) b ->
  exists sub, (let! sub := slice b (length (wires m0 done)) (length b) in MarshalTo (Hs m0 a) sub) = Ok sub /\
    partial m0 (done ++ a :: rest) (firstn (length (wires m0 done)) b ++ sub) /\
    (b = wires m0 done ++ zeros (length (wires m0 (a :: rest))) ->
     firstn (length (wires m0 done)) b ++ sub = wires m0 (done ++ [a]) ++ zeros (length (wires m0 rest))).
Proof.
  intros (vs & G & ->). rewrite map_app in G. cbn [map] in G.
  apply Forall2_app_inv_l in G. destruct G as (v1 & v2 & G1 & G2 & ->).
  inversion G2 as [|w v ws v2' Ev G3 E1 E2]. subst. clear G2.
  assert (L : length (concat v1) = length (wires m0 done)) by (symmetry; apply gaps_length; exact G1).
  rewrite concat_app. cbn [concat]. exists (pwire (Hs m0 a) ++ concat v2').
  assert (F : firstn (length (wires m0 done)) (concat v1 ++ v ++ concat v2') = concat v1).
  { rewrite <- L, firstn_app, firstn_all, Nat.sub_diag. cbn [firstn]. apply app_nil_r. }
  split; [|split].
  - rewrite <- L. apply put_slot; [reflexivity|]. exact Ev.
  - rewrite F. exists (v1 ++ pwire (Hs m0 a) :: v2'). split.
    + rewrite map_app. apply Forall2_app; [exact G1|]. constructor; [now left|exact G3].
    + now rewrite concat_app.
  - intros E. rewrite F.
    assert (EL : concat v1 = wires m0 done).
    { pose proof (f_equal (firstn (length (wires m0 done))) E) as E'. rewrite F in E'.
      rewrite firstn_app, firstn_all, Nat.sub_diag in E'. cbn [firstn] in E'. now rewrite app_nil_r in E'. }
    rewrite EL in E. apply app_inv_head in E. rewrite wires_app. unfold wires at 2. cbn [map concat]. rewrite app_nil_r, <- app_assoc, EL.
    do 2 f_equal. unfold wires in E. cbn [map concat] in E. fold (wires m0 rest) in E. rewrite app_length in E.
    pose proof (f_equal (skipn (length v)) E) as E'. rewrite skipn_app, skipn_all, Nat.sub_diag in E'. cbn [skipn app] in E'.
    rewrite E'. rewrite skipn_zeros. f_equal.
    assert (LV : length v = length (pwire (Hs m0 a))) by (destruct Ev as [-> | ->]; rewrite ?zeros_length; reflexivity). lia.
Qed.

(** ** Where a goroutine is *)
Definition all_set (m0 : mem) (s : send) (m : mem) : Prop := forall a, In a (params_of s) -> cells m a = Hs m0 a.
Definition payload_at (m : mem) (s : send) : list byte := h_payload (msgs m (s_msg s)).
Definition full (m0 : mem) (s : send) : nat := length (wires m0 (params_of s)).

Inductive phase (m0 : mem) (s : send) (private : Prop) (m : mem) (t : thr) : Prop :=
| P0 done rest : s_new s = true -> params_of s = done ++ rest -> t_ops t = map OSet rest ++ OHdrLen :: marshal_ops s ->
    t_end t = None -> msgs m (s_msg s) = msgs m0 (s_msg s) -> (forall a, In a done -> cells m a = Hs m0 a) ->
    phase m0 s private m t
| P1 : t_ops t = marshal_ops s -> t_end t = None -> same_hdr (msgs m (s_msg s)) (hdr1 m0 s) -> all_set m0 s m ->
    phase m0 s private m t
| P2 : t_ops t = OPayload :: map OPut (params_of s) ++ [OHeader] -> t_end t = None -> same_hdr (msgs m (s_msg s)) (hdr1 m0 s) ->
    all_set m0 s m -> t_buf t = zeros (8 + full m0 s) -> phase m0 s private m t
| P3 done rest : params_of s = done ++ rest -> t_ops t = map OPut rest ++ [OHeader] -> t_end t = None ->
    same_hdr (msgs m (s_msg s)) (hdr1 m0 s) -> all_set m0 s m -> t_buf t = zeros (8 + full m0 s) ->
    t_off t = length (wires m0 done) -> partial m0 (params_of s) (payload_at m s) ->
    (private -> payload_at m s = wires m0 done ++ zeros (length (wires m0 rest))) -> phase m0 s private m t
| P4 pl : t_ops t = [] -> t_end t = Some (Ok (hdr_bytes (set_payload (hdr1 m0 s) pl))) -> partial m0 (params_of s) pl ->
    (private -> pl = wires m0 (params_of s)) -> phase m0 s private m t.

Lemma put_same {A} (h : nat -> A) a v : put h a v a = v.
Proof. unfold put. now rewrite Nat.eqb_refl. Qed.
Lemma put_other {A} (h : nat -> A) a b v : a <> b -> put h a v b = h b.
Proof. unfold put. intros H. apply Nat.eqb_neq in H. now rewrite H. Qed.

Lemma payload_put c ms s h : payload_at (mkMem c (put ms (s_msg s) h)) s = h_payload h.
Proof. unfold payload_at. cbn [msgs]. now rewrite put_same. Qed.

(** the effect of one access on the rest of the memory *)
Definition mild (m0 : mem) (s : send) (m m' : mem) : Prop :=
  (forall a, cells m' a = cells m a \/ cells m' a = Hs m0 a) /\
  (forall y, y <> s_msg s -> msgs m' y = msgs m y) /\
  (s_new s = false -> same_hdr (msgs m' (s_msg s)) (msgs m (s_msg s)) /\
     (partial m0 (params_of s) (payload_at m s) -> partial m0 (params_of s) (payload_at m' s))).

Lemma mild_refl m0 s m : mild m0 s m m.
Proof. split; [auto|]. split; [auto|]. intros _. split; [reflexivity|auto]. Qed.

Lemma cells_ok_mild m0 s m m' : cells_ok m0 m -> mild m0 s m m' -> cells_ok m0 m'.
Proof. intros H (C & _) a. destruct (C a) as [-> | ->]; [apply H|now right]. Qed.

Lemma own_step m0 s private m t o k m' t' :
  cells_ok m0 m -> (s_new s = true -> msgs m0 (s_msg s) = mkHeader x01 x00 (kind_class (s_kind s)) (kind_type (s_kind s)) 0 []) ->
  phase m0 s private m t -> t_ops t = o :: k -> op_step s o k m t = (m', t') ->
  phase m0 s private m' t' /\ mild m0 s m m'.
Proof.
  intros OK FR PH EO ES.
  assert (CS : forall a l, (forall b, In b l -> cells m b = Hs m0 b) -> forall b, In b l -> put (cells m) a (SetLength (cells m a)) b = Hs m0 b).
  { intros a l H b Hb. destruct (Nat.eq_dec a b) as [->|N]; [|rewrite put_other by exact N; auto].
    rewrite put_same, (H b Hb). reflexivity. }
  assert (CS1 : forall a, put (cells m) a (SetLength (cells m a)) a = Hs m0 a).
  { intros a. rewrite put_same. destruct (OK a) as [-> | ->]; reflexivity. }
  assert (CS2 : forall a b, put (cells m) a (SetLength (cells m a)) b = cells m b \/ put (cells m) a (SetLength (cells m a)) b = Hs m0 b).
  { intros a b. destruct (Nat.eq_dec a b) as [->|N]; [right; apply CS1|left; now apply put_other]. }
  destruct PH as [done rest HN HP HT HE HM HC | HT HE HM HC | HT HE HM HC HB | done rest HP HT HE HM HC HB HO HL HX | pl HT HE HL HX].
  - destruct rest as [|a rest]; rewrite HT in EO; cbn [map app] in EO; injection EO as <- <-; cbn [op_step] in ES; injection ES as <- <-.
    + split.
      * apply P1; cbn [t_ops t_end]; auto.
        -- cbn [msgs]. rewrite put_same, (len_now m0 m s _ OK). unfold hdr1. rewrite HN, HM. reflexivity.
        -- intros a Ha. cbn [cells]. apply HC. rewrite HP, app_nil_r in Ha. exact Ha.
      * split; [cbn [cells]; auto|]. split; [cbn [msgs]; intros y Hy; apply put_other; auto|]. intros E. congruence.
    + split.
      * apply (P0 _ _ _ _ _ (done ++ [a]) rest); cbn [t_ops t_end msgs cells]; auto.
        -- rewrite <- app_assoc. exact HP.
        -- intros b Hb. apply in_app_or in Hb. destruct Hb as [Hb|[<-|[]]]; [apply (CS a done); auto|apply CS1].
      * split; [cbn [cells]; auto|]. split; [auto|]. intros E. congruence.
  - rewrite HT in EO. unfold marshal_ops in EO. injection EO as <- <-. cbn [op_step] in ES. injection ES as <- <-.
    split; [|apply mild_refl]. apply P2; cbn [t_ops t_end t_buf]; auto. rewrite (len_now m0 m s _ OK). reflexivity.
  - rewrite HT in EO. injection EO as <- <-. cbn [op_step] in ES. rewrite (len_now m0 m s _ OK), HB, zeros_length in ES.
    unfold full in ES. rewrite (proj2 (Nat.ltb_ge _ _)) in ES by lia. injection ES as <- <-.
    cbn [Nat.add Nat.sub]. rewrite Nat.sub_0_r. fold (full m0 s).
    split.
    + apply (P3 _ _ _ _ _ [] (params_of s)); cbn [t_ops t_end t_buf t_off msgs cells]; auto.
      * rewrite put_same. exact HM.
      * unfold payload_at. cbn [msgs]. rewrite put_same. apply partial_zero.
      * intros _. unfold payload_at. cbn [msgs]. rewrite put_same. reflexivity.
    + split; [auto|]. split; [cbn [msgs]; intros y Hy; apply put_other; auto|]. intros _. cbn [msgs].
      unfold payload_at. cbn [msgs]. rewrite put_same. split; [reflexivity|]. intros _. apply partial_zero.
  - destruct rest as [|a rest]; rewrite HT in EO; cbn [map app] in EO; injection EO as <- <-; cbn [op_step] in ES.
    + assert (LP : length (payload_at m s) = full m0 s) by (apply partial_length; exact HL).
      rewrite Header_MarshalTo_ok in ES.
      2:{ rewrite HB, zeros_length. unfold Header_MarshalLen. fold (payload_at m s). lia. }
      rewrite skipn_all2 in ES by (rewrite HB, zeros_length; unfold Header_MarshalLen; fold (payload_at m s); lia).
      rewrite app_nil_r in ES. injection ES as <- <-. split; [|apply mild_refl]. apply (P4 _ _ _ _ _ (payload_at m s)); cbn [t_ops t_end]; auto.
      * do 3 f_equal. unfold payload_at. unfold same_hdr, set_payload in HM. cbn in HM. unfold set_payload.
        destruct (msgs m (s_msg s)), (hdr1 m0 s). cbn in *. congruence.
      * intros Hp. rewrite (HX Hp), HP, app_nil_r. cbn. now rewrite app_nil_r.
    + rewrite HP in HL. destruct (partial_put m0 done a rest _ HL) as (sub & E1 & E2 & E3).
      assert (EC : cells m a = Hs m0 a) by (apply HC; rewrite HP; apply in_or_app; right; now left).
      rewrite EC, HO in ES. fold (payload_at m s) in ES. rewrite E1 in ES. injection ES as <- <-.
      split.
      * apply (P3 _ _ _ _ _ (done ++ [a]) rest); cbn [t_ops t_end t_buf t_off msgs cells]; auto.
        -- rewrite <- app_assoc. exact HP.
        -- rewrite put_same. exact HM.
        -- rewrite wires_app, app_length. f_equal. unfold wires. cbn [map concat]. rewrite app_nil_r. symmetry. apply pwire_length.
        -- rewrite payload_put. cbn [set_payload h_payload]. rewrite HP. exact E2.
        -- intros Hp. rewrite payload_put. cbn [set_payload h_payload]. apply E3. apply HX. exact Hp.
      * split; [auto|]. split; [cbn [msgs]; intros y Hy; apply put_other; auto|]. intros _.
        rewrite payload_put. cbn [msgs set_payload h_payload]. rewrite put_same. split; [reflexivity|]. intros _. rewrite HP. exact E2.
  - rewrite HT in EO. discriminate EO.
Qed.

(** an access of another goroutine *)
Lemma other_step m0 s private s' m m' t :
  phase m0 s private m t -> mild m0 s' m m' ->
  (s_msg s' = s_msg s -> s_new s = false /\ s_new s' = false /\ params_of s' = params_of s) -> (private -> s_msg s' <> s_msg s) ->
  phase m0 s private m' t.
Proof.
  intros PH (C & M & W) SH PR.
  assert (HC' : forall l, (forall a, In a l -> cells m a = Hs m0 a) -> forall a, In a l -> cells m' a = Hs m0 a).
  { intros l H a Ha. destruct (C a) as [-> | ->]; auto. }
  assert (SAME : same_hdr (msgs m' (s_msg s)) (msgs m (s_msg s))).
  { destruct (Nat.eq_dec (s_msg s) (s_msg s')) as [E|N]; [|rewrite (M _ N); reflexivity].
    destruct (SH (eq_sym E)) as (N1 & N2 & EP). rewrite E. apply W. exact N2. }
  destruct PH as [done rest HN HP HT HE HM HC | HT HE HM HC | HT HE HM HC HB | done rest HP HT HE HM HC HB HO HL HX | pl HT HE HL HX].
  - apply (P0 _ _ _ _ _ done rest); auto; [|exact (HC' _ HC)].
    destruct (Nat.eq_dec (s_msg s) (s_msg s')) as [E|N]; [|rewrite (M _ N); exact HM].
    destruct (SH (eq_sym E)) as (N1 & _). congruence.
  - apply P1; auto. { unfold same_hdr in *. congruence. } exact (HC' _ HC).
  - apply P2; auto. { unfold same_hdr in *. congruence. } exact (HC' _ HC).
  - apply (P3 _ _ _ _ _ done rest); auto.
    + unfold same_hdr in *. congruence.
    + exact (HC' _ HC).
    + destruct (Nat.eq_dec (s_msg s) (s_msg s')) as [E|N]; [|unfold payload_at; rewrite (M _ N); exact HL].
      destruct (SH (eq_sym E)) as (N1 & N2 & EP). destruct (W N2) as (_ & W2). unfold payload_at in *. rewrite E. rewrite E in HL. rewrite <- EP in *. auto.
    + intros Hp. unfold payload_at. rewrite M by (intros E; apply (PR Hp); auto). auto.
  - apply (P4 _ _ _ _ _ pl); auto.
Qed.

(** ** All goroutines *)
Definition All (m0 : mem) (ss : list send) (y : sys) : Prop :=
  cells_ok m0 (fst y) /\ length (snd y) = length ss /\
  forall i s t, nth_error ss i = Some s -> nth_error (snd y) i = Some t -> phase m0 s (own_message ss i) (fst y) t.

Lemma refs_over_ext r r' l : (forall f, r f = r' f) -> refs_over r l = refs_over r' l.
Proof. intros H. unfold refs_over. induction l as [|f l IH]; [reflexivity|]. cbn [flat_map]. now rewrite H, IH. Qed.

Lemma right_Hs m0 a : right_length (cells m0 a) -> cells m0 a = Hs m0 a.
Proof. unfold right_length, Hs, SetLength, u16. destruct (cells m0 a); cbn. congruence. Qed.

Lemma all_init m ss : fits_memory m ss -> All m ss (sys0 m ss).
Proof.
  intros F. split; [intros a; now left|]. split; [cbn; apply map_length|]. intros i s t Hs_ Ht. cbn [sys0 fst snd] in *.
  rewrite nth_error_map, Hs_ in Ht. cbn in Ht. injection Ht as <-.
  destruct (F s (nth_error_In _ _ Hs_)) as (F1 & F2).
  unfold thr0, new_ops. destruct (s_new s) eqn:EN.
  - apply (P0 _ _ _ _ _ [] (params_of s)); cbn [t_ops t_end]; auto.
    + rewrite setlen_is_order. rewrite <- app_assoc. reflexivity.
    + intros a [].
  - apply P1; cbn [t_ops t_end]; auto.
    + unfold hdr1. rewrite EN. reflexivity.
    + intros a Ha. apply right_Hs. auto.
Qed.

Lemma all_step m0 ss y i y' : fits_memory m0 ss -> consistent ss -> All m0 ss y -> sys_step ss y i = Some y' -> All m0 ss y'.
Proof.
  intros F CO (OK & LN & PH) E. unfold sys_step in E.
  destruct (nth_error ss i) as [s|] eqn:Es; [|discriminate]. destruct (nth_error (snd y) i) as [t|] eqn:Et; [|discriminate].
  destruct (t_ops t) as [|o k] eqn:Eo; [discriminate|]. destruct (op_step s o k (fst y) t) as [m' t'] eqn:EP. injection E as <-.
  destruct (own_step m0 s _ _ _ _ _ _ _ OK (proj1 (F s (nth_error_In _ _ Es))) (PH i s t Es Et) Eo EP) as (P & MI).
  split; [cbn [fst]; now apply (cells_ok_mild _ _ _ _ OK MI)|]. split; [cbn [snd]; now rewrite upd_len|].
  intros j s2 t2 Hj Ht2. cbn [fst snd] in *. destruct (Nat.eq_dec i j) as [->|N].
  - rewrite (upd_nth_same _ _ _ _ Et) in Ht2. injection Ht2 as <-. rewrite Es in Hj. injection Hj as <-. exact P.
  - rewrite upd_nth_other in Ht2 by exact N. apply (other_step m0 s2 _ s (fst y)); auto.
    + intros EM. destruct (CO i j s s2 Es Hj N EM) as (C1 & C2 & C3 & C4). repeat split; auto.
      unfold params_of. rewrite C3. now apply refs_over_ext.
    + intros OW EM. apply N. apply (OW i s2 s Hj Es). auto.
Qed.

Lemma all_run m0 ss is_ : forall y y', fits_memory m0 ss -> consistent ss -> All m0 ss y -> sys_run ss y is_ = Some y' -> All m0 ss y'.
Proof.
  induction is_ as [|i r IH]; intros y y' F CO A E; cbn [sys_run] in E.
  - injection E as <-. exact A.
  - destruct (sys_step ss y i) as [y1|] eqn:E1; [|discriminate]. apply (IH y1); auto. now apply (all_step _ _ _ _ _ F CO A E1).
Qed.

(** ** The meant packet *)
Lemma setlen_deref k h r :
  slots_of (mkMsg k (mkHeader x01 x00 x00 x00 0 []) (setlen_fs k (deref h r))) =
  map (fun f => option_map (fun a => SetLength (h a)) (r f)) (marshal_order k).
Proof.
  unfold slots_of. cbn [m_f m_kind]. apply map_ext_in. intros f Hf. unfold setlen_fs. rewrite setlen_get, setlen_is_order.
  destruct (in_dec field_eq_dec f (marshal_order k)) as [_|n]; [|contradiction]. rewrite fget_deref. now destruct (r f).
Qed.

Lemma meant_bytes m0 s :
  (s_new s = true -> msgs m0 (s_msg s) = mkHeader x01 x00 (kind_class (s_kind s)) (kind_type (s_kind s)) 0 []) ->
  (s_new s = false -> forall a, In a (params_of s) -> right_length (cells m0 a)) ->
  exists m', m3_MarshalBinary (meant m0 s) = Ok (m', hdr_bytes (set_payload (hdr1 m0 s) (wires m0 (params_of s)))).
Proof.
  intros F1 F2. unfold meant, hdr1. destruct (s_new s) eqn:EN.
  - assert (B : m_body (new_msg (s_kind s) (deref (cells m0) (s_refs s))) = wires m0 (params_of s)).
    { unfold m_body, new_msg, msg_SetLength. cbn [m_kind m_f]. fold (setlen_fs (s_kind s) (deref (cells m0) (s_refs s))).
      unfold slots_of. cbn [m_kind m_f]. pose proof (setlen_deref (s_kind s) (cells m0) (s_refs s)) as E.
      unfold slots_of in E. cbn [m_kind m_f] in E. rewrite E. unfold wires, params_of, refs_over. clear E F2.
      generalize (marshal_order (s_kind s)) as l. induction l as [|f l IH]; [reflexivity|].
      cbn [map present flat_map]. destruct (s_refs s f); cbn [option_map app map concat]; [f_equal|]; exact IH. }
    eexists. rewrite msg_MarshalBinary_ok. rewrite B. do 3 f_equal. rewrite F1 by reflexivity.
    unfold new_msg, msg_SetLength, set_payload, set_hlen. cbn [m_hdr h_version h_reserved h_class h_type h_length].
    do 3 f_equal. rewrite msg_MarshalLen_sum, sum_len_length, <- B. reflexivity.
  - eexists. rewrite msg_MarshalBinary_ok. cbn [m_hdr m_kind m_f]. do 4 f_equal.
    unfold m_body. rewrite slots_refs, map_map. unfold wires, params_of. f_equal. apply map_ext_in. intros a Ha.
    f_equal. apply right_Hs. apply F2; auto.
Qed.

(** ** The results *)
Lemma share_end m ss y i s t : fits_memory m ss -> consistent ss -> can_reach m ss y ->
  nth_error ss i = Some s -> nth_error (snd y) i = Some t ->
  (t_end t = None /\ t_ops t <> []) \/
  (exists pl, t_ops t = [] /\ t_end t = Some (Ok (hdr_bytes (set_payload (hdr1 m s) pl))) /\ partial m (params_of s) pl /\
     (own_message ss i -> pl = wires m (params_of s))).
Proof.
  intros F CO (is_ & R) Hs_ Ht. destruct (all_run _ _ _ _ _ F CO (all_init _ _ F) R) as (_ & _ & PH).
  specialize (PH i s t Hs_ Ht).
  destruct PH as [done rest HN HP HT HE HM HC | HT HE HM HC | HT HE HM HC HB | done rest HP HT HE HM HC HB HO HL HX | pl HT HE HL HX].
  - left. rewrite HE, HT. split; [reflexivity|]. destruct rest; discriminate.
  - left. rewrite HE, HT. split; [reflexivity|]. discriminate.
  - left. rewrite HE, HT. split; [reflexivity|]. discriminate.
  - left. rewrite HE, HT. split; [reflexivity|]. destruct rest; discriminate.
  - right. exists pl. auto.
Qed.

Lemma share_packet m ss y i s t r : fits_memory m ss -> consistent ss -> own_message ss i -> can_reach m ss y ->
  nth_error ss i = Some s -> nth_error (snd y) i = Some t -> t_end t = Some r ->
  exists m' b, m3_MarshalBinary (meant m s) = Ok (m', b) /\ r = Ok b.
Proof.
  intros F CO OW R Hs_ Ht E. destruct (share_end m ss y i s t F CO R Hs_ Ht) as [(N & _)|(pl & _ & E2 & _ & X)]; [congruence|].
  destruct (F s (nth_error_In _ _ Hs_)) as (F1 & F2). destruct (meant_bytes m s F1 F2) as (m' & EM). exists m'. eexists. split; [exact EM|].
  rewrite (X OW) in E2. congruence.
Qed.

Lemma share_gapped m ss y i s t r : fits_memory m ss -> consistent ss -> can_reach m ss y ->
  nth_error ss i = Some s -> nth_error (snd y) i = Some t -> t_end t = Some r -> exists b, r = Ok b /\ gapped m s b.
Proof.
  intros F CO R Hs_ Ht E. destruct (share_end m ss y i s t F CO R Hs_ Ht) as [(N & _)|(pl & _ & E2 & (vs & G & EP) & X)]; [congruence|].
  destruct (F s (nth_error_In _ _ Hs_)) as (F1 & F2). destruct (meant_bytes m s F1 F2) as (m' & EM).
  eexists. split; [rewrite E2 in E; injection E as <-; reflexivity|].
  exists m', (hdr_bytes (set_payload (hdr1 m s) [])), (map (fun a => pwire (Hs m a)) (params_of s)), vs. split; [|split; [|split; [|split]]].
  - rewrite EM. unfold hdr_bytes, set_payload, packet, wires. cbn [h_version h_reserved h_class h_type h_length h_payload].
    rewrite app_nil_r, <- app_assoc. reflexivity.
  - unfold hdr_bytes. rewrite packet_length. reflexivity.
  - generalize (params_of s) as l. induction l as [|a l IH]; constructor; [|exact IH].
    rewrite MarshalBinary_ok. reflexivity.
  - exact G.
  - rewrite EP. unfold hdr_bytes, set_payload, packet. cbn [h_version h_reserved h_class h_type h_length h_payload].
    rewrite app_nil_r, <- app_assoc. reflexivity.
Qed.

(** ** Races *)
Definition prog (s : send) : list op := new_ops s ++ marshal_ops s.
Lemma prog_set s a : In (OSet a) (prog s) <-> s_new s = true /\ In a (params_of s).
Proof.
  unfold prog, new_ops, marshal_ops. rewrite setlen_is_order. fold (params_of s). split.
  - intros H. apply in_app_or in H. destruct H as [H|H].
    + destruct (s_new s); [|destruct H]. apply in_app_or in H. destruct H as [H|[H|[]]]; [|discriminate H].
      apply in_map_iff in H. destruct H as (b & E & Hb). injection E as <-. auto.
    + destruct H as [H|[H|H]]; try discriminate H. apply in_app_or in H. destruct H as [H|[H|[]]]; [|discriminate H].
      apply in_map_iff in H. destruct H as (b & E & Hb). discriminate E.
  - intros (-> & H). apply in_or_app. left. apply in_or_app. left. now apply in_map.
Qed.
Lemma prog_put s a : In (OPut a) (prog s) -> In a (params_of s).
Proof.
  unfold prog, new_ops, marshal_ops. rewrite setlen_is_order. fold (params_of s). intros H. apply in_app_or in H. destruct H as [H|H].
  - destruct (s_new s); [|destruct H]. apply in_app_or in H. destruct H as [H|[H|[]]]; [|discriminate H].
    apply in_map_iff in H. destruct H as (b & E & Hb). discriminate E.
  - destruct H as [H|[H|H]]; try discriminate H. apply in_app_or in H. destruct H as [H|[H|[]]]; [|discriminate H].
    apply in_map_iff in H. destruct H as (b & E & Hb). injection E as <-. auto.
Qed.

Lemma op_step_ops s o k m t : forall m' t', op_step s o k m t = (m', t') -> t_ops t' = k \/ t_ops t' = [].
Proof.
  intros m' t' E. destruct o; cbn [op_step] in E.
  - injection E as <- <-. now left.
  - injection E as <- <-. now left.
  - injection E as <- <-. now left.
  - destruct (length (t_buf t) <? _); injection E as <- <-; [now right|now left].
  - destruct (bind _ _); injection E as <- <-; [now left|now right|now right].
  - destruct (Header_MarshalTo _ _); injection E as <- <-; [now left|now right|now right].
Qed.

Definition within (ss : list send) (y : sys) : Prop :=
  forall i s t, nth_error ss i = Some s -> nth_error (snd y) i = Some t -> incl (t_ops t) (prog s).
Lemma within_step ss y i y' : within ss y -> sys_step ss y i = Some y' -> within ss y'.
Proof.
  intros W E. unfold sys_step in E. destruct (nth_error ss i) as [s|] eqn:Es; [|discriminate].
  destruct (nth_error (snd y) i) as [t|] eqn:Et; [|discriminate]. destruct (t_ops t) as [|o k] eqn:Eo; [discriminate|].
  destruct (op_step s o k (fst y) t) as [m' t'] eqn:EP. injection E as <-. intros j s2 t2 Hj Ht2. cbn [snd] in Ht2.
  destruct (Nat.eq_dec i j) as [->|N].
  - rewrite (upd_nth_same _ _ _ _ Et) in Ht2. injection Ht2 as <-. rewrite Es in Hj. injection Hj as <-.
    destruct (op_step_ops _ _ _ _ _ _ _ EP) as [-> | ->]; [|intros x []]. intros x Hx. apply (W j s t Es Et). rewrite Eo. now right.
  - rewrite upd_nth_other in Ht2 by exact N. exact (W j s2 t2 Hj Ht2).
Qed.
Lemma within_run ss is_ : forall y y', within ss y -> sys_run ss y is_ = Some y' -> within ss y'.
Proof.
  induction is_ as [|i r IH]; intros y y' W E; cbn [sys_run] in E; [injection E as <-; exact W|].
  destruct (sys_step ss y i) as [y1|] eqn:E1; [|discriminate]. apply (IH y1); auto. now apply (within_step _ _ _ _ W E1).
Qed.
Lemma within_init m ss : within ss (sys0 m ss).
Proof.
  intros i s t Hs_ Ht. cbn [sys0 snd] in Ht. rewrite nth_error_map, Hs_ in Ht. injection Ht as <-. apply incl_refl.
Qed.

Lemma sys_run_app ss l l' : forall y, sys_run ss y (l ++ l') = match sys_run ss y l with Some y => sys_run ss y l' | None => None end.
Proof. induction l as [|i l IH]; intros y; [reflexivity|]. cbn [app sys_run]. destruct (sys_step ss y i); auto. Qed.

Lemma sets_run ss i s : nth_error ss i = Some s -> forall l y t k, nth_error (snd y) i = Some t -> t_ops t = map OSet l ++ k ->
  exists y' t', sys_run ss y (repeat i (length l)) = Some y' /\ nth_error (snd y') i = Some t' /\ t_ops t' = k /\
    (forall j, j <> i -> nth_error (snd y') j = nth_error (snd y) j).
Proof.
  intros Hs_. induction l as [|a l IH]; intros y t k Ht Eo; cbn [length repeat].
  - exists y, t. cbn. auto.
  - cbn [sys_run]. unfold sys_step at 1. rewrite Hs_, Ht, Eo. cbn [map app op_step].
    set (y1 := (mkMem _ _, upd (snd y) i _)).
    destruct (IH y1 (mkThr (map OSet l ++ k) (t_buf t) (t_off t) None) k) as (y' & t' & R & N & O & X).
    + unfold y1. cbn [snd]. now apply (upd_nth_same _ _ _ _ Ht).
    + reflexivity.
    + exists y', t'. repeat split; auto. intros j Hj. rewrite X by exact Hj. unfold y1. cbn [snd]. apply upd_nth_other. auto.
Qed.

Lemma race_iff m ss : (forall s, In s ss -> s_new s = true) ->
  ((exists y, can_reach m ss y /\ length_race y) <-> sharing ss).
Proof.
  intros NW. split.
  - intros (y & (is_ & R) & i & j & a & N & (ti & ki & Ti & Oi) & Hj).
    pose proof (within_run _ _ _ _ (within_init m ss) R) as W.
    assert (LEN : length (snd y) = length ss).
    { clear - R. assert (G : forall l y0, sys_run ss y0 l = Some y -> length (snd y) = length (snd y0)).
      { induction l as [|i r IH]; intros y0 E; cbn [sys_run] in E; [injection E as <-; reflexivity|].
        destruct (sys_step ss y0 i) as [y1|] eqn:E1; [|discriminate]. rewrite (IH _ E). unfold sys_step in E1.
        destruct (nth_error ss i) as [s|]; [|discriminate]. destruct (nth_error (snd y0) i) as [t|]; [|discriminate].
        destruct (t_ops t) as [|o k]; [discriminate|]. destruct (op_step s o k (fst y0) t) as [m' t']. injection E1 as <-.
        cbn [snd]. apply upd_len. }
      rewrite (G _ _ R). cbn. apply map_length. }
    assert (AT : forall n t, nth_error (snd y) n = Some t -> exists s, nth_error ss n = Some s).
    { intros n t H. destruct (nth_error ss n) eqn:E; [eauto|].
      apply nth_error_None in E. assert (n < length (snd y)) by (apply nth_error_Some; congruence). lia. }
    assert (Hj' : exists o tj kj, nth_error (snd y) j = Some tj /\ t_ops tj = o :: kj /\ (o = OSet a \/ o = OPut a)).
    { destruct Hj as [(tj & kj & T & O)|(tj & kj & T & O)]; do 3 eexists; eauto. }
    destruct Hj' as (o & tj & kj & Tj & Oj & Eo). destruct (AT _ _ Ti) as (si & Si). destruct (AT _ _ Tj) as (sj & Sj).
    exists i, j, si, sj, a. repeat split; auto.
    + apply (prog_set si a). apply (W i si ti Si Ti). rewrite Oi. now left.
    + assert (IN : In o (prog sj)) by (apply (W j sj tj Sj Tj); rewrite Oj; now left).
      destruct Eo as [-> | ->]; [now apply prog_set in IN|now apply prog_put in IN].
  - intros (i & j & s & s' & a & N & Hi & Hj & Ai & Aj).
    assert (SP : forall n s0, nth_error ss n = Some s0 -> In a (params_of s0) -> exists l1 l2, t_ops (thr0 s0) = map OSet l1 ++ OSet a :: l2).
    { intros n s0 H IN. apply in_split in IN. destruct IN as (l1 & l2 & E).
      unfold thr0, new_ops. cbn [t_ops]. rewrite (NW s0 (nth_error_In _ _ H)), setlen_is_order. fold (params_of s0). rewrite E, map_app.
      cbn [map]. exists l1. eexists. rewrite <- !app_assoc. cbn [app]. reflexivity. }
    destruct (SP i s Hi Ai) as (l1 & k1 & E1). destruct (SP j s' Hj Aj) as (l2 & k2 & E2).
    assert (T1 : nth_error (snd (sys0 m ss)) i = Some (thr0 s)) by (cbn [sys0 snd]; rewrite nth_error_map, Hi; reflexivity).
    assert (T2 : nth_error (snd (sys0 m ss)) j = Some (thr0 s')) by (cbn [sys0 snd]; rewrite nth_error_map, Hj; reflexivity).
    destruct (sets_run ss i s Hi l1 _ _ _ T1 E1) as (y1 & t1 & R1 & N1 & O1 & X1).
    rewrite <- X1 in T2 by auto.
    destruct (sets_run ss j s' Hj l2 _ _ _ T2 E2) as (y2 & t2 & R2 & N2 & O2 & X2).
    exists y2. split.
    + exists (repeat i (length l1) ++ repeat j (length l2)). rewrite sys_run_app, R1. exact R2.
    + exists i, j, a. split; [exact N|]. split.
      * exists t1, k1. rewrite X2 by auto. auto.
      * left. exists t2, k2. auto.
Qed.

(** ** The library's messages *)
Lemma call_meant m g a x k : config_at m g a -> meant m (call_send a x k) = call_msg m g k.
Proof.
  intros (E1 & E2 & E3 & E4 & E5). unfold meant, call_send. cbn [s_new s_kind s_refs].
  destruct k; unfold call_msg, asp_up, asp_active, pd_msg, NewAspUp, NewAspUpAck, NewAspActive, NewAspActiveAck, NewAspInactiveAck, NewError, NewData;
    rewrite ?E1, ?E2, ?E3, ?E4, ?E5; reflexivity.
Qed.

Lemma share_goes_on m ss y i s t : fits_memory m ss -> consistent ss -> can_reach m ss y ->
  nth_error ss i = Some s -> nth_error (snd y) i = Some t -> t_end t = None -> exists y', sys_step ss y i = Some y'.
Proof.
  intros F CO R Hs_ Ht E. destruct (share_end m ss y i s t F CO R Hs_ Ht) as [(_ & N)|(pl & _ & E2 & _)]; [|congruence].
  unfold sys_step. rewrite Hs_, Ht. destruct (t_ops t) as [|o k]; [contradiction|]. destruct (op_step s o k (fst y) t). eauto.
Qed.

Lemma nth_calls a l i s : nth_error (calls a l) i = Some s -> exists x k, nth_error l i = Some (x, k) /\ s = call_send a x k.
Proof.
  unfold calls. rewrite nth_error_map. destruct (nth_error l i) as [(x, k)|]; [|discriminate]. cbn. intros [= <-]. eauto.
Qed.
Lemma calls_consistent a l : NoDup (map fst l) -> consistent (calls a l) /\ forall i, own_message (calls a l) i.
Proof.
  intros ND. assert (K : forall i j s s', nth_error (calls a l) i = Some s -> nth_error (calls a l) j = Some s' -> s_msg s = s_msg s' -> i = j).
  { intros i j s s' Hi Hj E. destruct (nth_calls _ _ _ _ Hi) as (x & k & X & ->). destruct (nth_calls _ _ _ _ Hj) as (x' & k' & X' & ->).
    cbn [call_send s_msg] in E. subst x'. apply (proj1 (NoDup_nth_error (map fst l)) ND).
    - rewrite map_length. apply nth_error_Some. congruence.
    - rewrite !nth_error_map, X, X'. reflexivity. }
  split.
  - intros i j s s' Hi Hj N E. exfalso. apply N. eauto.
  - intros i j s s' Hi Hj E. symmetry. eauto.
Qed.
Lemma library_packets m g a l y i x k t r :
  config_at m g a -> NoDup (map fst l) -> fresh_messages m l -> can_reach m (calls a l) y -> nth_error l i = Some (x, k) ->
  nth_error (snd y) i = Some t -> t_end t = Some r -> exists m' b, m3_MarshalBinary (call_msg m g k) = Ok (m', b) /\ r = Ok b.
Proof.
  intros CF ND FR R Hk Ht E. destruct (calls_consistent a l ND) as (CO & OW).
  assert (Hs_ : nth_error (calls a l) i = Some (call_send a x k)) by (unfold calls; rewrite nth_error_map, Hk; reflexivity).
  rewrite <- (call_meant m g a x k CF). apply (share_packet m _ y i _ t r) in Hs_; auto.
  intros s Hs0. apply In_nth_error in Hs0. destruct Hs0 as (n & Hn). destruct (nth_calls _ _ _ _ Hn) as (x1 & k1 & X1 & ->).
  cbn [call_send s_new s_msg s_kind]. split; [intros _; apply (FR x1 k1); now apply nth_error_In in X1|discriminate].
Qed.

Lemma writes_race m a x x' p p' :
  p <> p' ->
  ((exists y, can_reach m (calls a [(x, KWrite (Some p)); (x', KWrite (Some p'))]) y /\ length_race y) <->
   ~ (ca_na a = None /\ ca_rc a = None /\ ca_corr a = None)).
Proof.
  intros NP. rewrite race_iff by (intros s [<-|[<-|[]]]; reflexivity).
  set (ss := calls a _).
  assert (PO : forall x p, params_of (call_send a x (KWrite (Some p))) =
    match ca_na a with Some q => [q] | None => [] end ++ match ca_rc a with Some q => [q] | None => [] end ++
    [p] ++ match ca_corr a with Some q => [q] | None => [] end).
  { intros. unfold params_of, refs_over. cbn [call_send s_kind s_refs call_kind marshal_order flat_map call_refs]. now rewrite app_nil_r. }
  split.
  - intros (i & j & s & s' & b & N & Hi & Hj & Bi & Bj) (E1 & E2 & E3).
    assert (D : forall n s, nth_error ss n = Some s -> (n = 0 /\ s = call_send a x (KWrite (Some p))) \/ (n = 1 /\ s = call_send a x' (KWrite (Some p')))).
    { intros [|[|n]] s0 H; cbn in H; [injection H as <-; auto|injection H as <-; auto|destruct n; discriminate]. }
    destruct (D _ _ Hi) as [(-> & ->)|(-> & ->)], (D _ _ Hj) as [(-> & ->)|(-> & ->)]; try (now contradiction N);
      rewrite PO, E1, E2, E3 in Bi, Bj; cbn in Bi, Bj; intuition congruence.
  - intros H. assert (Q : exists q, In q (match ca_na a with Some q => [q] | None => [] end ++ match ca_rc a with Some q => [q] | None => [] end ++ match ca_corr a with Some q => [q] | None => [] end)).
    { destruct (ca_na a) as [q|]; [exists q; now left|]. destruct (ca_rc a) as [q|]; [exists q; now left|].
      destruct (ca_corr a) as [q|]; [exists q; now left|]. exfalso. auto. }
    destruct Q as (q & Q). exists 0, 1, (call_send a x (KWrite (Some p))), (call_send a x' (KWrite (Some p'))), q.
    split; [discriminate|]. split; [reflexivity|]. split; [reflexivity|]. rewrite !PO.
    split; apply in_app_or in Q; destruct Q as [Q|Q]; apply in_or_app; auto; right; apply in_app_or in Q; destruct Q as [Q|Q];
      apply in_or_app; auto; right; right; exact Q.
Qed.
