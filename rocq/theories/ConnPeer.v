(** An endpoint refines the machine of PeerSpec; a client and a gateway. *)
From Verif Require Import GoBase BaseProofs ParamsModel MessagesModel WireSpec ParamsSpec MsgSpec ConfigModel
  ConnModel CfgSpec ConnSpec ConnBase ConnInv ConnUser ConnCodec ConnPair ConnPieces ConnE2E DialogSpec ConnDialog ConnDuo PeerSpec.
From Coq Require Import Arith Lia.
Open Scope nat_scope.
Opaque max_value_len.

Lemma denotes_fun raw x y : denotes raw x -> denotes raw y -> x = y.
Proof. intros (m & [P _] & S & _) (m' & [P' _] & S' & _). congruence. Qed.
Lemma calm_sound mo g c : calm mo g c -> sound c.
Proof. intros []. repeat split; assumption. Qed.

(** ** One endpoint *)
Lemma utter_app mo xs : forall a ys, utter mo a (xs ++ ys) = (fst (utter mo a xs) ++ fst (utter mo (snd (utter mo a xs)) ys), snd (utter mo (snd (utter mo a xs)) ys)).
Proof.
  induction xs as [|x xs IH]; intros a ys.
  - destruct a as [s t|]; cbn [utter fst snd app]; [now destruct (utter mo (Rest s t) ys)|]. destruct ys; reflexivity.
  - destruct a as [s t|]; cbn [utter app].
    + destruct (hears mo s t x) as [o a']. rewrite IH. destruct (utter mo a' xs) as [o1 a1]. cbn [fst snd]. destruct (utter mo a1 ys). cbn [fst snd]. now rewrite app_assoc.
    + destruct ys; reflexivity.
Qed.
Definition outside (l : label) : Prop := benign l \/ exists raw, l = LArrive raw.
Record machine (mo : cmode) (g : config) (xs : list sig) (n : nat) (c : conn) : Prop := {
  mc_calm : calm mo g c;
  mc_rest : exists o a w ys xs1 xs2, at_phase mo g c o a w /\ Forall2 denotes (packets (log c)) ys /\ xs = xs1 ++ xs2 /\ Forall2 denotes (inq c) xs2 /\
    a = snd (utter mo (Rest Down false) xs1) /\ hello mo Down ++ fst (utter mo (Rest Down false) xs1) = ys ++ o /\
    n + w + hw (hb c) + 13 * length xs2 <= 8 + 14 * length xs }.
Lemma outside_arrivals l : benign l -> arrivals [l] = [].
Proof. destruct l; cbn; auto; contradiction. Qed.
Lemma machine_step mo g xs n c l c' : speaks g -> hb_on g = false -> machine mo g xs n c -> benign l -> step c l = Some c' -> machine mo g xs (S n) c'.
Proof.
  intros Sp Ho [C (o & a & w & ys & xs1 & xs2 & Ph & Py & -> & Pq & Ea & Es & L)] B S.
  destruct (calm_step _ _ _ _ _ _ _ _ Sp Ho C Ph B S) as [C' [(Q & P & w' & Ph' & Lw)|[(Q & b & x & o' & w' & -> & P & De & Ph' & Lw)|(raw & q & s & t & Q & -> & -> & P & Hh & Hx)]]]; split; try exact C'.
  - exists o, a, w', ys, xs1, xs2. rewrite P, Q. do 6 (split; [assumption || reflexivity|]). lia.
  - exists o', a, w', (ys ++ [x]), xs1, xs2. rewrite P, Q. split; [exact Ph'|]. split; [apply Forall2_app; auto|]. split; [reflexivity|]. split; [exact Pq|]. split; [exact Ea|].
    split; [now rewrite <- app_assoc|]. lia.
  - rewrite Q in Pq. inversion Pq as [|? x ? xs3 De Pq']; subst. destruct (Hx x De) as [Q' Ph'].
    exists (fst (hears mo s t x)), (snd (hears mo s t x)), 12, ys, (xs1 ++ [x]), xs3. rewrite P, Q', Hh, utter_app, <- Ea. cbn [utter].
    destruct (hears mo s t x) as [o1 a1]. destruct a1; cbn [fst snd]; rewrite app_nil_r.
    all: split; [exact Ph'|]; split; [exact Py|]; split; [now rewrite <- app_assoc|]; split; [exact Pq'|]; split; [reflexivity|].
    all: split; [rewrite app_assoc, Es, app_nil_r; reflexivity|]; cbn [length] in L; lia.
Qed.
Lemma machine_arrive mo g xs n c raw x c' : machine mo g xs n c -> denotes raw x -> step c (LArrive raw) = Some c' -> machine mo g (xs ++ [x]) (S n) c'.
Proof.
  intros [C (o & a & w & ys & xs1 & xs2 & Ph & Py & -> & Pq & Ea & Es & L)] De S.
  destruct (calm_arrive _ _ _ _ _ _ raw C Ph) as (St & C' & Ph'). rewrite S in St. apply some_inj in St. subst c'. split; [exact C'|].
  exists o, a, w, ys, xs1, (xs2 ++ [x]). cb. split; [exact Ph'|]. split; [exact Py|]. split; [now rewrite app_assoc|]. split; [apply Forall2_app; auto|]. split; [exact Ea|]. split; [exact Es|].
  rewrite !app_length. rewrite app_length in L. cbn [length]. lia.
Qed.
Lemma machine_run mo g o ls : forall xs c, speaks g -> hb_on g = false -> run (start mo g o) ls = Some c -> Forall outside ls -> Forall2 denotes (arrivals ls) xs ->
  machine mo g xs (length ls) c.
Proof.
  induction ls as [|l ls IH] using rev_ind; intros xs c Sp Ho R F D.
  - cbn in R. apply some_inj in R. subst c. inversion D; subst. destruct (calm_start mo g o Ho) as [C Ph]. split; [exact C|].
    exists (hello mo Down), (Rest Down false), 5, [], [], []. cbn. rewrite app_nil_r. do 6 (split; [auto|]). lia.
  - apply Forall_app in F as [F Fl]. inversion Fl as [|? ? Ol _]; subst. rewrite run_app in R. destruct (run (start mo g o) ls) as [c1|] eqn:R1; [|discriminate].
    cbn [run] in R. destruct (step c1 l) as [c2|] eqn:S; [|discriminate]. apply some_inj in R. subst c2. rewrite app_length, Nat.add_1_r.
    unfold arrivals in D. rewrite flat_map_app in D. fold (arrivals ls) in D. fold (arrivals [l]) in D. destruct Ol as [B|[raw ->]].
    + rewrite (outside_arrivals l B), app_nil_r in D. eapply machine_step; eauto.
    + apply Forall2_app_inv_l in D as (x1 & x2 & D1 & D2 & ->). cbn in D2. inversion D2 as [|? x ? ? Dx D3]; subst. inversion D3; subst. eapply machine_arrive; eauto.
Qed.
Theorem endpoint_machine mo g o ls xs c : cfg_ok g -> signals_fit g -> hb_on g = false ->
  run (start mo g o) ls = Some c -> Forall outside ls -> Forall2 denotes (arrivals ls) xs ->
  sound c /\ length ls <= 8 + 14 * length xs /\ (exists ys zs, Forall2 denotes (packets (log c)) ys /\ speech mo xs = ys ++ zs) /\
  ((exists l c', benign l /\ step c l = Some c') \/ (resting c (outcome mo xs) /\ Forall2 denotes (packets (log c)) (speech mo xs))).
Proof.
  intros Ok Fi Ho R F D. pose proof (cfg_speaks g Ok Fi) as Sp. destruct (machine_run _ _ _ _ _ _ Sp Ho R F D) as [C (oo & a & w & ys & xs1 & xs2 & Ph & Py & -> & Pq & Ea & Es & L)].
  assert (Sh : speech mo (xs1 ++ xs2) = ys ++ (oo ++ fst (utter mo a xs2))).
  { unfold speech. rewrite utter_app, <- Ea. cbn [fst]. now rewrite app_assoc, Es, app_assoc. }
  split; [eapply calm_sound; eauto|]. split; [lia|]. split; [eauto|].
  destruct (calm_dec _ _ _ C Ho) as [E|N]; [now left|]. right.
  destruct (calm_stuck _ _ _ _ _ _ Sp C Ph N) as [-> H]. unfold outcome. rewrite Sh, utter_app, <- Ea. cbn [snd app].
  destruct H as [(M & Q & t & Ea' & Di)|(M & Di & Stt & Ea')].
  - rewrite Q in Pq. inversion Pq; subst xs2. rewrite Ea'. cbn. rewrite app_nil_r. auto.
  - rewrite Ea'. destruct xs2; cbn; rewrite app_nil_r; auto.
Qed.

(** ** A client and a gateway *)
Definition only (P : sig -> Prop) (l : list sig) : Prop := Forall P l.
Definition indb (x : sig) : bool := match x with SNtfy | SErr | SOther => true | _ => false end.
Inductive stage : abs -> st -> list sig -> list sig -> Prop :=
| Sg_down s qc qs : s = Down \/ s = Inactive -> Forall (fun x => indb x = true \/ x = SUpAck) qc -> Forall (fun x => x = SErr \/ x = SUp) qs ->
    (s = Down -> ~ In SUpAck qc) -> In SUp qs \/ In SUpAck qc -> stage (Rest Down false) s qc qs
| Sg_mid qc q1 q2 : Forall (fun x => indb x = true \/ x = SUpAck) qc -> Forall (fun x => x = SErr \/ x = SUp) q1 -> Forall (fun x => x = SErr \/ x = SActive) q2 ->
    In SActive q2 -> stage (Rest Inactive false) Inactive qc (q1 ++ q2)
| Sg_late c1 c2 qs : Forall (fun x => indb x = true \/ x = SUpAck) c1 -> Forall (fun x => indb x = true \/ x = SActiveAck) c2 -> Forall (fun x => x = SErr \/ x = SActive) qs ->
    In SActiveAck c2 -> stage (Rest Inactive false) Active (c1 ++ c2) qs
| Sg_up qc qs : Forall (fun x => indb x = true \/ x = SActiveAck) qc -> Forall (fun x => x = SErr \/ x = SActive) qs -> stage (Rest Active true) Active qc qs.

Definition vc (x : sig) : nat := match x with SNtfy | SErr | SOther => 8 | SUpAck => 5 | SActiveAck => 2 | _ => 0 end.
Definition vs (x : sig) : nat := match x with SErr => 1 | SActive => 3 | SUp => 6 | _ => 0 end.
Definition value (f : sig -> nat) (l : list sig) : nat := list_sum (map f l).
Lemma value_app f l l' : value f (l ++ l') = value f l + value f l'.
Proof. unfold value. now rewrite map_app, list_sum_app. Qed.
Lemma value_cons f x l : value f (x :: l) = f x + value f l.
Proof. reflexivity. Qed.

Ltac fsplit := repeat first [apply Forall_nil|apply Forall_cons; [cbn; tauto|]|apply Forall_app; split; [assumption|]]; try assumption.
Lemma stage_hears s t sg x qc qs : stage (Rest s t) sg (x :: qc) qs ->
  stage (snd (hears Client s t x)) sg qc (qs ++ fst (hears Client s t x)) /\ 1 + value vs (fst (hears Client s t x)) <= vc x.
Proof.
  intros G. inversion G as [sg' qc' qs' Hs Fc Fs Nd Ex|qc' q1 q2 Fc F1 F2 Ex|c1 c2 qs' F1 F2 Fs Ex|qc' qs' Fc Fs]; subst.
  - inversion Fc as [|? ? Hx Fc']; subst. destruct Hx as [Hx| ->].
    + destruct x; try discriminate; cbn; rewrite <- ?app_assoc; (split; [|lia]); constructor; auto; fsplit; try (intros E I; apply (Nd E); now right); left; apply in_or_app; right; cbn; tauto.
    + destruct Hs as [->| ->]; [destruct (Nd eq_refl); now left|]. cbn. split; [|lia]. apply Sg_mid; auto; fsplit. cbn. tauto.
  - inversion Fc as [|? ? Hx Fc']; subst. rewrite <- app_assoc. destruct Hx as [Hx| ->].
    + destruct x; try discriminate; cbn; (split; [|lia]); apply Sg_mid; auto; fsplit; apply in_or_app; now left.
    + cbn. split; [|lia]. apply Sg_mid; auto; fsplit. apply in_or_app. now left.
  - match goal with E : c1 ++ c2 = x :: qc |- _ => rename E into E1 end. destruct c1 as [|y c1]; cbn [app] in E1.
    + destruct c2 as [|y c2]; [contradiction|]. injection E1 as -> ->. inversion F2 as [|? ? Hx Fc']; subst. destruct Hx as [Hx| ->].
      * destruct Ex as [->|Ex]; [discriminate|]. destruct x; try discriminate; cbn; (split; [|lia]); apply (Sg_late [] qc); auto; fsplit.
      * cbn. rewrite app_nil_r. split; [|lia]. now apply Sg_up.
    + injection E1 as -> <-. inversion F1 as [|? ? Hx Fc']; subst. destruct Hx as [Hx| ->].
      * destruct x; try discriminate; cbn; (split; [|lia]); apply Sg_late; auto; fsplit.
      * cbn. split; [|lia]. apply Sg_late; auto; fsplit.
  - inversion Fc as [|? ? Hx Fc']; subst. destruct Hx as [Hx| ->].
    + destruct x; try discriminate; cbn; rewrite ?app_nil_r; (split; [|lia]); apply Sg_up; auto; fsplit.
    + cbn. split; [|lia]. apply Sg_up; auto; fsplit.
Qed.
Lemma ind_indb i : Forall indication i -> forall P : sig -> Prop, (forall x, indb x = true -> P x) -> Forall P i.
Proof. intros F P H. eapply Forall_impl; [|exact F]. intros x I. apply H. now destruct x. Qed.
Lemma ind_count i : Forall indication i -> indications i = length i /\ value vc i = 8 * length i.
Proof.
  induction 1 as [|x i Hx F [IH1 IH2]]; [split; reflexivity|]. unfold indications in *. rewrite value_cons. cbn [filter length].
  destruct x; try contradiction; cbn [length vc]; lia.
Qed.
Lemma indications_app l l' : indications (l ++ l') = indications l + indications l'.
Proof. unfold indications. now rewrite filter_app, app_length. Qed.
Lemma ind_noack i : Forall indication i -> ~ In SUpAck i.
Proof. intros F I. rewrite Forall_forall in F. apply (F _ I). Qed.
Ltac ifsplit := repeat first [apply Forall_nil|apply Forall_cons; [cbn; tauto|]|apply Forall_app; split|assumption|(eapply ind_indb; [eassumption|intros; cbn; tauto])].
Lemma stage_gateway a s x qc qs ys s' : stage a s qc (x :: qs) -> sgp s x ys s' ->
  stage a s' (qc ++ ys) qs /\ 1 + value vc ys <= vs x + 8 * indications ys /\ length ys <= 1 + indications ys.
Proof.
  intros G Sg. split.
  - inversion G as [sg' qc' qs' Hs Fc Fs Nd Ex|qc' q1 q2 Fc F1 F2 Ex|c1 c2 qs' F1 F2 Fs Ex|qc' qs' Fc Fs]; subst.
    + inversion Fs as [|? ? Hx Fs']; subst. inversion Sg as [? i j Hs' Fi Fj|i j Fi Fj|? i j Hs' Fi Fj| |? i Fi]; subst; try (destruct Hx; discriminate); try (destruct Hs; discriminate).
      * apply Sg_down; auto; ifsplit; [discriminate|]. right. apply in_or_app. right. apply in_or_app. right. now left.
      * apply Sg_down; auto; ifsplit.
        -- intros E I. apply in_app_or in I as [I|I]; [now apply (Nd E)|]. eapply ind_noack; eauto.
        -- destruct Ex as [[E|Ex]|Ex]; [discriminate|auto|]. right. apply in_or_app. now left.
    + match goal with E : q1 ++ q2 = x :: qs |- _ => rename E into E4 end. destruct q1 as [|y q1]; cbn [app] in E4.
      * destruct q2 as [|y q2]; [contradiction|]. injection E4 as -> ->. inversion F2 as [|? ? Hx F2']; subst.
        inversion Sg as [? i j Hs' Fi Fj|i j Fi Fj|? i j Hs' Fi Fj| |? i Fi]; subst; try (destruct Hx; discriminate).
        -- apply Sg_late; auto; ifsplit. apply in_or_app. right. now left.
        -- destruct Ex as [E|Ex]; [discriminate|]. apply (Sg_mid _ [] qs); auto; ifsplit.
      * injection E4 as -> <-. inversion F1 as [|? ? Hx F1']; subst.
        inversion Sg as [? i j Hs' Fi Fj|i j Fi Fj|? i j Hs' Fi Fj| |? i Fi]; subst; try (destruct Hx; discriminate).
        -- apply Sg_mid; auto; ifsplit.
        -- apply Sg_mid; auto; ifsplit.
    + inversion Fs as [|? ? Hx Fs']; subst. rewrite <- app_assoc. inversion Sg as [? i j Hs' Fi Fj|i j Fi Fj|? i j Hs' Fi Fj| |? i Fi]; subst; try (destruct Hx; discriminate).
      * apply Sg_late; auto; ifsplit. apply in_or_app. now left.
      * apply Sg_late; auto; ifsplit. apply in_or_app. now left.
    + inversion Fs as [|? ? Hx Fs']; subst. inversion Sg as [? i j Hs' Fi Fj|i j Fi Fj|? i j Hs' Fi Fj| |? i Fi]; subst; try (destruct Hx; discriminate); apply Sg_up; auto; ifsplit.
  - assert (Ns : s = Active -> x <> SUp).
    { intros -> ->. inversion G as [sg' qc' qs' Hs Fc Fs Nd Ex|qc' q1 q2 Fc F1 F2 Ex|c1 c2 qs' F1 F2 Fs Ex|qc' qs' Fc Fs]; subst;
        [destruct Hs; discriminate| |]; inversion Fs as [|? ? [E|E] ?]; discriminate. }
    assert (Nd : s = Down -> x <> SActive).
    { intros -> ->. inversion G as [sg' qc' qs' Hs Fc Fs Nd Ex| | |]; subst; inversion Fs as [|? ? [E|E] ?]; discriminate. }
    inversion Sg as [? i j Hs' Fi Fj|i j Fi Fj|? i j Hs' Fi Fj| |? i Fi]; subst; try (destruct (Ns eq_refl eq_refl)); try (destruct (Nd eq_refl eq_refl)).
    all: match goal with Fi : Forall indication ?i |- context [?i] => destruct (ind_count i Fi) as [I1 I2] end; try destruct (ind_count j Fj) as [J1 J2].
    all: rewrite ?indications_app, ?value_app, ?app_length, ?value_cons; unfold indications in *; cbn [filter length vc vs]; rewrite ?value_cons, ?I1, ?I2, ?J1, ?J2; cbn [vc length]; lia.
Qed.
Lemma stage_indication a s qc qs x : stage a s qc qs -> indication x -> stage a s (qc ++ [x]) qs.
Proof.
  intros G I. assert (B : indb x = true) by now destruct x.
  destruct G as [s qc qs Hs Fc Fs Nd Ex|qc q1 q2 Fc F1 F2 Ex|c1 c2 qs F1 F2 Fs Ex|qc qs Fc Fs].
  - apply Sg_down; auto.
    + apply Forall_app; auto.
    + intros E J. apply in_app_or in J as [J|[->|[]]]; [now apply Nd|discriminate].
    + destruct Ex; [auto|]. right. apply in_or_app. auto.
  - apply Sg_mid; auto. apply Forall_app; auto.
  - rewrite <- app_assoc. apply Sg_late; auto; [apply Forall_app; auto|]. apply in_or_app. auto.
  - apply Sg_up; auto. apply Forall_app; auto.
Qed.
(** at the end *)
Lemma stage_end a s : stage a s [] [] -> a = Rest Active true /\ s = Active.
Proof.
  intros G. inversion G as [sg' qc' qs' Hs Fc Fs Nd Ex|qc' q1 q2 Fc F1 F2 Ex|c1 c2 qs' F1 F2 Fs Ex|qc' qs' Fc Fs]; subst; auto.
  - destruct Ex as [[]|[]].
  - match goal with E : q1 ++ q2 = [] |- _ => apply app_eq_nil in E as [_ ->] end. contradiction.
  - match goal with E : c1 ++ c2 = [] |- _ => apply app_eq_nil in E as [_ ->] end. contradiction.
Qed.

Record minv (g : config) (m : meet) (v : nat) : Prop := {
  mi_calm : calm Client g (m_cl m);
  mi_got : m_got m <= length (packets (log (m_cl m)));
  mi_rest : exists o a w qc qs, at_phase Client g (m_cl m) o a w /\ Forall2 denotes (inq (m_cl m) ++ m_dn m) qc /\ Forall2 denotes (skipn (m_got m) (packets (log (m_cl m)))) qs /\
    stage a (m_sg m) qc (qs ++ o) /\ v = w + hw (hb (m_cl m)) + length (m_dn m) + 20 * (value vc qc + value vs (qs ++ o)) }.
Lemma skipn_nth {A} (l : list A) n x : nth_error l n = Some x -> skipn n l = x :: skipn (S n) l.
Proof. revert n. induction l as [|y l IH]; intros [|n] N; cbn in *; try discriminate; [now injection N as ->|]. now apply IH. Qed.
Lemma minv_step g k m m' v : speaks g -> hb_on g = false -> minv g m v -> mstep k m m' -> exists v', v' + 1 <= v + 161 * k /\ minv g m' v'.
Proof.
  intros Sp Ho [C Lg (o & a & w & qc & qs & Ph & Pc & Ps & G & Ev)] S. destruct S as [c s n d l c' B S|c s n d raw x ys s' bs N De Sg Db|c s n raw d c' S]; cbn [m_cl m_sg m_got m_dn] in *.
  - destruct (calm_step _ _ _ _ _ _ _ _ Sp Ho C Ph B S) as [C' [(Q & P & w' & Ph' & Lw)|[(Q & b & x & o' & w' & -> & P & De & Ph' & Lw)|(raw & q & s0 & t & Q & -> & -> & P & Hh & Hx)]]].
    + eexists. split; [|split; cbn [m_cl m_sg m_got m_dn]; [exact C'|now rewrite P|]].
      2:{ exists o, a, w', qc, qs. rewrite P, Q. do 4 (split; [assumption|]). reflexivity. }
      lia.
    + eexists. split; [|split; cbn [m_cl m_sg m_got m_dn]; [exact C'|rewrite P, app_length; lia|]].
      2:{ exists o', a, w', qc, (qs ++ [x]). rewrite P, Q. split; [exact Ph'|]. split; [exact Pc|]. split.
          - rewrite skipn_app. apply Forall2_app; [exact Ps|]. replace (n - length (packets (log c))) with 0 by lia. cbn [skipn]. auto.
          - rewrite <- app_assoc. split; [exact G|reflexivity]. }
      cbn [app]. lia.
    + rewrite Q in Pc. cbn [app] in Pc. inversion Pc as [|? x ? qc' De Pc']; subst qc. destruct (Hx x De) as [Q' Ph']. rewrite app_nil_r in G.
      destruct (stage_hears _ _ _ _ _ _ G) as [G' Lv]. eexists. split; [|split; cbn [m_cl m_sg m_got m_dn]; [exact C'|now rewrite P|]].
      2:{ exists (fst (hears Client s0 t x)), (snd (hears Client s0 t x)), 12, qc', qs. rewrite P, Q'. do 4 (split; [assumption|]). reflexivity. }
      rewrite Ev, Hh, app_nil_r, value_app, value_cons. lia.
  - rewrite (skipn_nth _ _ _ N) in Ps. inversion Ps as [|? x' ? qs' De' Ps']; subst qs. rewrite <- (denotes_fun _ _ _ De De') in *. cbn [app] in G, Ev.
    destruct (stage_gateway _ _ _ _ _ _ _ G Sg) as (G' & Lv & Ll). assert (Ln : n < length (packets (log c))) by (apply nth_error_Some; congruence).
    eexists. split; [|split; cbn [m_cl m_sg m_got m_dn]; [exact C|lia|]].
    2:{ exists o, a, w, (qc ++ ys), qs'. split; [exact Ph|]. split; [rewrite app_assoc; now apply Forall2_app|]. split; [exact Ps'|]. split; [exact G'|reflexivity]. }
    rewrite Ev, app_length, value_cons, value_app. assert (length bs = length ys) by (clear - Db; induction Db; cbn; congruence). lia.
  - destruct (calm_arrive _ _ _ _ _ _ raw C Ph) as (St & C' & Ph'). rewrite S in St. apply some_inj in St. subst c'.
    eexists. split; [|split; cbn [m_cl m_sg m_got m_dn]; cb; [exact C'|exact Lg|]].
    2:{ exists o, a, w, qc, qs. split; [exact Ph'|]. cb. rewrite <- app_assoc. cbn [app]. do 3 (split; [assumption|]). reflexivity. }
    cbn [length] in Ev. lia.
Qed.
Lemma minv_start g o : hb_on g = false -> minv g (mstart g o) 128.
Proof.
  intros Ho. destruct (calm_start Client g o Ho) as [C Ph]. split; cbn; [exact C|lia|]. exists [SUp], (Rest Down false), 5, [], []. split; [exact Ph|]. cbn.
  do 2 (split; [constructor|]). split; [|reflexivity]. apply Sg_down; auto; repeat constructor; auto.
Qed.
Lemma minv_steps g o n k m : speaks g -> hb_on g = false -> msteps n k (mstart g o) m -> exists v, n + v <= 128 + 161 * k /\ minv g m v.
Proof.
  intros Sp Ho R. remember (mstart g o) as m0 eqn:E0. induction R as [m|n k j m1 m2 m3 R IH S|n k m c s r d raw x R IH I D]; subst.
  - exists 128. split; [lia|now apply minv_start].
  - destruct (IH eq_refl) as (v & L & Iv). destruct (minv_step _ _ _ _ _ Sp Ho Iv S) as (v' & L' & Iv'). exists v'. split; [lia|exact Iv'].
  - destruct (IH eq_refl) as (v & L & [C Lg (oo & a & w & qc & qs & Ph & Pc & Ps & G & Ev)]). cbn [m_cl m_sg m_got m_dn] in *.
    eexists. split; [|split; cbn [m_cl m_sg m_got m_dn]; [exact C|exact Lg|]].
    2:{ exists oo, a, w, (qc ++ [x]), qs. split; [exact Ph|]. split; [rewrite app_assoc; apply Forall2_app; auto|]. split; [exact Ps|]. split; [now apply stage_indication|reflexivity]. }
    rewrite app_length, value_app. assert (value vc [x] = 8) by (destruct x; try contradiction; reflexivity). cbn [length]. lia.
Qed.
Lemma sgp_total g s x : speaks g -> live s -> x = SErr \/ x = SUp \/ x = SActive -> exists ys s' bs, sgp s x ys s' /\ Forall2 denotes bs ys.
Proof.
  intros Sp Lv Hx. destruct (sp_upk _ Sp) as (b1 & _ & D1). destruct (sp_ack _ Sp) as (b2 & _ & D2).
  destruct (sp_unexp _ Sp (asp_up g)) as (r & _ & (b3 & _ & D3)). destruct Hx as [->|[->| ->]].
  - exists [], s, []. split; [apply G_err|]; constructor.
  - destruct s; try contradiction.
    + exists ([] ++ SUpAck :: []), Inactive, [b1]. split; [apply G_up; auto; constructor|repeat constructor; assumption].
    + exists ([] ++ SUpAck :: []), Inactive, [b1]. split; [apply G_up; auto; constructor|repeat constructor; assumption].
    + exists ([] ++ SUpAck :: SErr :: []), Inactive, [b1; b3]. split; [apply G_up_again; auto; constructor|repeat constructor; assumption].
  - destruct s; try contradiction.
    + exists [SErr], Down, [b3]. split; [apply G_active_early|repeat constructor; assumption].
    + exists ([] ++ SActiveAck :: []), Active, [b2]. split; [apply G_active; auto; constructor|repeat constructor; assumption].
    + exists ([] ++ SActiveAck :: []), Active, [b2]. split; [apply G_active; auto; constructor|repeat constructor; assumption].
Qed.
Lemma stage_heads a s qc x qs : stage a s qc (x :: qs) -> live s /\ (x = SErr \/ x = SUp \/ x = SActive).
Proof.
  intros G. inversion G as [sg' qc' qs' Hs Fc Fs Nd Ex|qc' q1 q2 Fc F1 F2 Ex|c1 c2 qs' F1 F2 Fs Ex|qc' qs' Fc Fs]; subst.
  - inversion Fs; subst. split; [destruct Hs; subst; exact Logic.I|tauto].
  - split; [exact Logic.I|]. match goal with E : q1 ++ q2 = x :: qs |- _ => rename E into E4 end. destruct q1 as [|y q1]; cbn [app] in E4.
    + subst q2. inversion F2; tauto.
    + injection E4 as -> _. inversion F1; tauto.
  - split; [exact Logic.I|]. inversion Fs; tauto.
  - split; [exact Logic.I|]. inversion Fs; tauto.
Qed.
Theorem gateway_meets g o n k m : cfg_ok g -> signals_fit g -> hb_on g = false -> msteps n k (mstart g o) m ->
  n <= 128 + 161 * k /\ sound (m_cl m) /\ (dial (m_cl m) = DWait \/ dial (m_cl m) = DOk) /\
  ((exists j m', mstep j m m') \/
   (mon (m_cl m) = MRead /\ state (m_cl m) = Active /\ dial (m_cl m) = DOk /\ m_sg m = Active /\ m_dn m = [] /\ m_got m = length (packets (log (m_cl m))))).
Proof.
  intros Ok Fi Ho R. pose proof (cfg_speaks g Ok Fi) as Sp. destruct (minv_steps _ _ _ _ _ Sp Ho R) as (v & L & [C Lg (oo & a & w & qc & qs & Ph & Pc & Ps & G & Ev)]).
  split; [lia|]. split; [eapply calm_sound; eauto|]. split.
  { destruct Ph as [_ Ph]. clear - Ph. remember (dial (m_cl m)) as d. destruct Ph; auto; destruct t; auto. }
  destruct m as [c s got d]. cbn [m_cl m_sg m_got m_dn] in *.
  destruct d as [|raw d].
  2:{ left. destruct (calm_arrive _ _ _ _ _ _ raw C Ph) as (S & _). do 2 eexists. eapply M_arrive; eauto. }
  destruct (calm_dec _ _ _ C Ho) as [(l & c' & B & S)|N]; [left; do 2 eexists; eapply M_client; eauto|].
  destruct (nth_error (packets (log c)) got) as [raw|] eqn:Ng.
  { left. rewrite (skipn_nth _ _ _ Ng) in Ps. inversion Ps as [|? x ? qs' De Ps']; subst qs. cbn [app] in G. destruct (stage_heads _ _ _ _ _ G) as [Lv Hx].
    destruct (sgp_total g s x Sp Lv Hx) as (ys & s' & bs & Sg & Db). do 2 eexists. eapply M_gateway; eauto. }
  right. apply nth_error_None in Ng. assert (Eg : got = length (packets (log c))) by lia. rewrite Eg, skipn_all in Ps. inversion Ps; subst qs. cbn [app] in G.
  destruct (calm_stuck _ _ _ _ _ _ Sp C Ph N) as [-> H]. rewrite app_nil_r in Pc.
  destruct H as [(M & Q & t & Ea & Di)|(M & Di & Stt & Ea)].
  - rewrite Q in Pc. inversion Pc; subst qc. destruct (stage_end _ _ G) as [Ea' ->]. rewrite Ea in Ea'. injection Ea' as Es ->. auto 7.
  - subst a. inversion G.
Qed.
