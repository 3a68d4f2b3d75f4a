(** Two endpoints with a clock: no timer of theirs gives up. *)
From Verif Require Import GoBase BaseProofs ParamsModel MessagesModel ConfigModel ConnModel CfgSpec ConfigWire ConnSpec ConnBase ConnInv ConnTrace ConnUser ConnStable ConnData ConnPair
  DialogSpec ConnDialog ConnDuo TalkSpec ConnTalk ConnLife ConnLife2 LifeSpec ConnLife3 DemoProofs TimeModel TimelySpec.
From Coq Require Import ZArith Lia List.
Open Scope Z_scope.

Lemma tstep_inv x t l x' : TimeModel.tstep x t l = Some x' ->
  step (tc x) l = Some (tc x') /\ now x <= t /\ due x l t = true /\ born x' = born x /\ since x' = if enters (hb (tc x)) (hb (tc x')) then t else since x.
Proof.
  unfold TimeModel.tstep. destruct (now x <=? t) eqn:N; [|discriminate]. destruct (due x l t) eqn:D; [|discriminate]. cbn [andb].
  destruct (step (tc x) l) as [c|] eqn:S; [|discriminate]. intros E. apply some_inj in E. subst x'. cbn [tc born since]. apply Z.leb_le in N. auto.
Qed.
Lemma linv_lstep A B ka kb t t' w : suits A B -> suits B A -> roomy B A -> linv A B ka kb (t_cl t) (t_sv t) (t_up t) (t_dn t) w -> lstep t t' ->
  exists w', (w' < w)%nat /\ linv A B ka kb (t_cl t') (t_sv t') (t_up t') (t_dn t') w'.
Proof.
  intros SA SB Ro I S. destruct S as [a b u d l a' new F Nt St Pk|a b u d l b' new F Nt St Pk|a b u1 raw u2 d b' St|a b u d1 raw d2 a' Or St]; cbn [t_cl t_sv t_up t_dn] in *.
  - exact (linv_go _ _ _ _ _ _ _ _ _ _ _ _ SA SB I F Nt St Pk).
  - destruct (linv_go _ _ _ _ _ _ _ _ _ _ _ _ SB SA (linv_sym _ _ _ _ _ _ _ _ _ I) F Nt St Pk) as (w' & Hw & I'). exists w'. split; [exact Hw|apply linv_sym; exact I'].
  - destruct (linv_arr _ _ _ _ _ _ _ _ _ _ _ _ SB SA (linv_sym _ _ _ _ _ _ _ _ _ I) (or_intror (or_intror Ro)) St) as (w' & Hw & I'). exists w'. split; [exact Hw|apply linv_sym; exact I'].
  - exact (linv_arr _ _ _ _ _ _ _ _ _ _ _ _ SA SB I ltac:(destruct Or; auto) St).
Qed.
Lemma linv_ls A B ka kb a b u v a' b' u' v' w : suits A B -> suits B A -> roomy B A -> linv A B ka kb a b u v w -> lstep (mkTalk a b u v) (mkTalk a' b' u' v') ->
  exists w', (w' < w)%nat /\ linv A B ka kb a' b' u' v' w'.
Proof. intros SA SB Ro I S. exact (linv_lstep A B ka kb (mkTalk a b u v) (mkTalk a' b' u' v') w SA SB Ro I S). Qed.
Lemma go_moves a b u d : can_go a \/ can_go b -> can_move (mkTalk a b u d).
Proof.
  intros [(l & a' & F & Nt & St)|(l & b' & F & Nt & St)]; destruct (log_grows _ _ _ St) as [es El].
  - eexists. apply (L_client a b u d l a' (packets es) F Nt St). now rewrite El, packets_app.
  - eexists. apply (L_server a b u d l b' (packets es) F Nt St). now rewrite El, packets_app.
Qed.
Lemma wd_open l : (total wd l <= 13 * length (filter (fun d => match d with DDone => false | _ => true end) l))%nat.
Proof. induction l as [|x l IH]; [cbn; lia|]. cbn [total filter]. destruct x; cbn [wd length]; lia. Qed.
Lemma wu_open l : (total wu l <= 13 * length (filter (fun u => match u with UDone _ => false | _ => true end) l))%nat.
Proof. induction l as [|x l IH]; [cbn; lia|]. cbn [total filter]. destruct x as [op| | |]; cbn [wu length]; try destruct op; lia. Qed.
Lemma still_open g g' ops c w : grown g g' ops c w -> still ops c -> unworried c -> (w <= 13 * open_calls c)%nat.
Proof.
  intros Gr [Mo Q U D] Un. destruct (gw_work _ _ _ _ _ Gr) as (x & W & Ew). rewrite Mo in W. inversion W; subst x. rewrite Q in Ew. cbn [total] in Ew.
  assert (Hb : bw (hb c) = 0%nat) by (destruct Un as [-> |[-> | ->]]; reflexivity). rewrite Hb in Ew. unfold open_calls. pose proof (wd_open (ds c)). pose proof (wu_open (us c)). lia.
Qed.
(** at rest *)
Record resting (A B : side) (ka kb : list uop) (a b : conn) (w : nat) : Prop := {
  rg_dial : dial a = DOk /\ dial b = DOk; rg_hb : unworried a /\ unworried b; rg_w : (w <= 13 * (open_calls a + open_calls b))%nat }.
Lemma linv_rest A B ka kb a b u d w : suits A B -> suits B A -> free A B -> linv A B ka kb a b u d w -> ~ can_move (mkTalk a b u d) -> resting A B ka kb a b w.
Proof.
  intros SA SB Fr I N. pose proof I as [(k & j & wa & wb & La & Lb & Ew & R1 & R2 & C1 & C2) T1 T2 _ _ _ _ _ _].
  destruct u as [|raw u].
  2:{ exfalso. apply N. destruct (life_can_arrive _ _ _ _ _ _ _ _ _ _ _ _ _ _ raw (su_sc _ _ SB) Lb) as [b' St]. eexists. apply (L_to_server a b [] raw u d b' St). }
  destruct d as [|raw d].
  2:{ exfalso. apply N. destruct (life_can_arrive _ _ _ _ _ _ _ _ _ _ _ _ _ _ raw (su_sc _ _ SA) La) as [a' St]. eexists. apply (L_to_client a b [] [] raw d a' (or_introl eq_refl) St). }
  assert (Na : ~ can_go a) by (intros G; apply N, go_moves; auto). assert (Nb : ~ can_go b) by (intros G; apply N, go_moves; auto).
  destruct (linv_end _ _ _ _ _ _ _ SA SB Fr I) as [G|[G|(E1 & E2 & _)]]; [contradiction|contradiction|].
  destruct (life_up _ _ _ _ _ _ _ _ _ _ _ _ _ _ (su_sc _ _ SA) La (ce_dial _ _ E1)) as [_ Ga]. destruct (life_up _ _ _ _ _ _ _ _ _ _ _ _ _ _ (su_sc _ _ SB) Lb (ce_dial _ _ E2)) as [_ Gb].
  destruct (grown_dec _ _ _ _ _ (su_ok _ _ SA) (su_ok _ _ SB) (su_sp _ _ SA) Ga) as [G|(St1 & _ & _)]; [contradiction|].
  destruct (grown_dec _ _ _ _ _ (su_ok _ _ SB) (su_ok _ _ SA) (su_sp _ _ SB) Gb) as [G|(St2 & _ & _)]; [contradiction|].
  split.
  - split; [apply E1|apply E2].
  - split; [apply E1|apply E2].
  - pose proof (still_open _ _ _ _ _ Ga St1 (ce_hb _ _ E1)). pose proof (still_open _ _ _ _ _ Gb St2 (ce_hb _ _ E2)). unfold cost in Ew. cbn [total] in Ew. lia.
Qed.

(** ** One endpoint: [r] is when the current time of work began, [n] says whether its Interval has elapsed since *)
Record kept (r : Z) (init : bool) (n : nat) (x : tconn) : Prop := {
  kp_n : (n <= 1)%nat; kp_ack : hb (tc x) = BAck -> r <= since x; kp_sleep : n = 1%nat -> hb (tc x) = BSleep -> r <= since x; kp_init : init = true -> r <= since x }.
Lemma since_at h x t l x' r : h = BAck \/ h = BSleep -> TimeModel.tstep x t l = Some x' -> r <= t -> (hb (tc x) = h -> r <= since x) -> hb (tc x') = h -> r <= since x'.
Proof.
  intros Hh S Lt P E. destruct (tstep_inv _ _ _ _ S) as (_ & _ & _ & _ & ->). rewrite E. destruct (enters (hb (tc x)) h) eqn:En; [exact Lt|]. apply P.
  destruct Hh as [-> | ->]; destruct (hb (tc x)); cbn [enters] in En; congruence.
Qed.
Lemma kept_step r init n x t l x' : kept r init n x -> TimeModel.tstep x t l = Some x' -> r <= t -> kept r init n x'.
Proof.
  intros [N A Sl In] S Lt. split; [exact N| | |].
  - eapply since_at; eauto.
  - intros E. eapply since_at; eauto.
  - intros E. destruct (tstep_inv _ _ _ _ S) as (_ & _ & _ & _ & ->). destruct (enters _ _); auto.
Qed.
Lemma kept_anew t x : hb (tc x) <> BAck -> kept t false 0 x.
Proof. intros H. split; [lia|congruence|discriminate|discriminate]. Qed.
Lemma enabled_awake A B ka kb a b u d w : suits A B -> linv A B ka kb a b u d w -> hb a = BAck \/ hb a = BSleep ->
  exists h, cf_hb (sd_g A) = Some h /\ hb_enabled h = true /\ cfg a = sd_g A.
Proof.
  intros SA [(k & j & wa & wb & La & _) _ _ _ _ _ _ _ _] Hb.
  assert (Gr : grown (sd_g A) (sd_g B) ka a wa).
  { destruct La as [(L & _ & h & Fh & Ec & _)|(_ & Gr)]; [|exact Gr]. exfalso. rewrite Ec, (sc_hb _ _ _ _ _ _ _ _ _ _ (su_sc _ _ SA)) in Hb by lia. destruct Fh, Hb; congruence. }
  pose proof (gw_off _ _ _ _ _ Gr) as Off. unfold hb_on in Off. destruct (cf_hb (sd_g A)) as [h|].
  - destruct (hb_enabled h) eqn:E; [exists h; repeat split; auto; apply Gr|]. destruct (Off eq_refl) as [H _]. destruct Hb as [Hb|Hb]; rewrite Hb in H; contradiction.
  - destruct (Off eq_refl) as [H _]. destruct Hb as [Hb|Hb]; rewrite Hb in H; contradiction.
Qed.

(** ** Both *)
Definition base (init : bool) : Z := if init then 136 else 0.
Record tinv (A B : side) (b0 d : Z) (c : nat) (ka kb : list uop) (x y : tconn) (u v : list (list byte)) (n s : Z) (k : nat) (r : Z) (init : bool) (na nb w : nat) : Prop := {
  ti_inv : exists w0, (w0 <= w)%nat /\ linv A B ka kb (tc x) (tc y) u v w0;
  ti_time : r <= s <= n /\ n <= s + Z.of_nat w * d;
  ti_sum : s + Z.of_nat w * d <= r + (base init + 13 * Z.of_nat k + 31 * Z.of_nat (na + nb)) * d;
  ti_calls : (k <= c)%nat;
  ti_init : if init then na = 0%nat /\ nb = 0%nat /\ r = b0 else dial (tc x) = DOk /\ dial (tc y) = DOk;
  ti_kx : kept r init na x; ti_ky : kept r init nb y;
  ti_born : born x = b0 /\ born y = b0 }.
Lemma tinv_sym A B b0 d c ka kb x y u v n s k r init na nb w : tinv A B b0 d c ka kb x y u v n s k r init na nb w -> tinv B A b0 d c kb ka y x v u n s k r init nb na w.
Proof.
  intros [I T Su C In Kx Ky [B1 B2]]. split; auto.
  - destruct I as (w0 & L & I). exists w0. split; [exact L|apply linv_sym, I].
  - now rewrite Nat.add_comm.
  - destruct init; tauto.
Qed.
(** the end of the time of work *)
Lemma tinv_end A B b0 d c ka kb x y u v n s k r init na nb w : 0 <= d -> tinv A B b0 d c ka kb x y u v n s k r init na nb w -> s + Z.of_nat w * d <= r + span d c.
Proof.
  intros D [_ _ Su C In [Na _ _ _] [Nb _ _ _] _]. unfold span. etransitivity; [exact Su|]. apply Zplus_le_compat_l, Z.mul_le_mono_nonneg_r; [exact D|].
  unfold base. destruct init; [destruct In as (-> & -> & _)|]; lia.
Qed.
(** a step of x *)
Lemma tinv_go A B b0 d c ka kb x y u v n s k r init na nb w t l x' u' v' : 0 <= d -> tinv A B b0 d c ka kb x y u v n s k r init na nb w ->
  n <= t <= s + d -> TimeModel.tstep x t l = Some x' -> (forall w0, linv A B ka kb (tc x) (tc y) u v w0 -> exists w', (w' < w0)%nat /\ linv A B ka kb (tc x') (tc y) u' v' w') ->
  tinv A B b0 d c ka kb x' y u' v' t t k r init na nb (w - 1).
Proof.
  intros D [(w0 & Lw & I) [T1 T2] Su C In Kx Ky [B1 B2]] Lt S Hw. destruct (Hw w0 I) as (w' & Lw' & I'). destruct (tstep_inv _ _ _ _ S) as (St & _ & _ & Eb & _).
  assert (M : Z.of_nat (w - 1) * d + d <= Z.of_nat w * d) by nia. assert (P : 0 <= Z.of_nat (w - 1) * d) by nia.
  split; auto.
  - exists w'. split; [lia|exact I'].
  - split; lia.
  - lia.
  - destruct init; [exact In|]. destruct In as [D1 D2]. split; [eapply dial_lasts; eauto|exact D2].
  - eapply kept_step; eauto. lia.
  - split; congruence.
Qed.

(** ** What a timer of x may do: only the Interval elapses *)
Lemma busy_weight A B ka kb a b u v w : suits A B -> suits B A -> roomy B A -> linv A B ka kb a b u v w -> can_move (mkTalk a b u v) -> (1 <= w)%nat.
Proof. intros SA SB Ro I [t' S]. destruct (linv_lstep A B ka kb (mkTalk a b u v) t' w SA SB Ro I S) as (w' & L & _). lia. Qed.
Definition at_work (M : Prop) (d t s : Z) (w : nat) : Prop := (M /\ t <= s + d /\ (1 <= w)%nat) \/ ~ M.
Lemma only_interval A B b0 d c ka kb x y u v n s k r init na nb w t l x' (M : Prop) : 0 <= d -> suits A B -> patient (span d c) (sd_g A) -> span d c < dial_limit ->
  tinv A B b0 d c ka kb x y u v n s k r init na nb w -> at_work M d t s w -> (~ M -> forall w0, linv A B ka kb (tc x) (tc y) u v w0 -> resting A B ka kb (tc x) (tc y) w0) ->
  timer l -> TimeModel.tstep x t l = Some x' -> l = LHbTimer /\ hb (tc x) = BSleep /\ (M -> na = 0%nat /\ init = false).
Proof.
  intros D SA Pa Pd T W Rs Tl S. pose proof (tinv_end _ _ _ _ _ _ _ _ _ _ _ _ _ _ _ _ _ _ _ D T) as En.
  assert (Wk : M -> t <= r + span d c).
  { intros HM. destruct W as [(_ & L & Lw)|N]; [|contradiction]. assert (d <= Z.of_nat w * d) by nia. lia. }
  pose proof T as [(w0 & Lw0 & I) [T1 T2] Su C In [Kn Ka Ks Ki] Ky [B1 B2]]. destruct (tstep_inv _ _ _ _ S) as (St & _ & Du & _ & _).
  destruct Tl as [-> | ->].
  - assert (Hb : hb (tc x) = BAck \/ hb (tc x) = BSleep).
    { unfold step in St. destruct (crash (tc x)); [discriminate|]. destruct (hb (tc x)); try discriminate; auto. }
    destruct (enabled_awake _ _ _ _ _ _ _ _ _ SA I Hb) as (h & Eh & En1 & Ec). destruct (Pa h Eh En1) as [P1 P2]. cbn [due] in Du. apply Z.leb_le in Du.
    unfold wait_of in Du. rewrite Ec, Eh in Du. destruct Hb as [Hb|Hb]; rewrite Hb in Du.
    + exfalso. specialize (Ka Hb). destruct W as [(HM & _)|N]; [specialize (Wk HM); lia|]. destruct (Rs N w0 I) as [_ [Un _] _]. destruct Un as [U|[U|U]]; congruence.
    + split; [reflexivity|]. split; [exact Hb|]. intros HM. specialize (Wk HM). split.
      * destruct na as [|[|na]]; [reflexivity| |lia]. specialize (Ks eq_refl Hb). lia.
      * destruct init; [|reflexivity]. specialize (Ki eq_refl). lia.
  - exfalso. assert (Dw : dial (tc x) = DWait) by (unfold step in St; destruct (crash (tc x)); [discriminate|]; destruct (dial (tc x)); try discriminate; reflexivity).
    cbn [due] in Du. apply Z.leb_le in Du. destruct W as [(HM & _)|N]; [|destruct (Rs N w0 I) as [[D1 _] _ _]; congruence]. specialize (Wk HM).
    destruct init; [destruct In as (_ & _ & ->); lia|destruct In; congruence].
Qed.

(** the new times after a call or a timer *)
Definition taken_up (M : Prop) (t s : Z) (k : nat) (a b : conn) (s' : Z) (k' : nat) : Prop :=
  (M /\ s' = s /\ k' = k) \/ (~ M /\ s' = t /\ k' = (open_calls a + open_calls b)%nat).
Lemma tinv_tick A B b0 d c ka kb x y u v n s k r init na nb w t l x' (M : Prop) s' k' : 0 <= d -> suits A B -> patient (span d c) (sd_g A) -> span d c < dial_limit ->
  tinv A B b0 d c ka kb x y u v n s k r init na nb w -> at_work M d t s w -> (~ M -> forall w0, linv A B ka kb (tc x) (tc y) u v w0 -> resting A B ka kb (tc x) (tc y) w0) -> n <= t ->
  taken_up M t s k (tc x) (tc y) s' k' -> (k' <= c)%nat -> timer l -> TimeModel.tstep x t l = Some x' ->
  l = LHbTimer /\ hb (tc x) = BSleep /\ exists r' init' na' nb' w', tinv A B b0 d c ka kb x' y u v t s' k' r' init' na' nb' w'.
Proof.
  intros D SA Pa Pd T W Rs Nt Tk Lk Tl S. destruct (only_interval _ _ _ _ _ _ _ _ _ _ _ _ _ _ _ _ _ _ _ _ _ _ _ D SA Pa Pd T W Rs Tl S) as (-> & Hb & Bz).
  split; [reflexivity|]. split; [exact Hb|]. destruct (tstep_inv _ _ _ _ S) as (St & _ & _ & Eb & Es).
  pose proof T as [(w0 & Lw0 & I) [T1 T2] Su C In Kx Ky [B1 B2]]. pose proof (linv_tick _ _ _ _ _ _ _ _ _ _ SA I Hb St) as I'.
  assert (H' : hb (tc x') = BRand) by (unfold step in St; destruct (crash (tc x)); [discriminate|]; rewrite Hb in St; apply some_inj in St; rewrite <- St; reflexivity).
  destruct Tk as [(HM & -> & ->)|(N & -> & ->)].
  - destruct (Bz HM) as [-> ->]. exists r, false, 1%nat, nb, (31 + w)%nat. destruct In as [D1 D2]. split; auto.
    + exists (31 + w0)%nat. split; [lia|exact I'].
    + destruct W as [(_ & L & Lw)|X]; [|contradiction]. assert (d <= Z.of_nat w * d) by nia. split; [lia|]. rewrite Nat2Z.inj_add. nia.
    + rewrite !Nat2Z.inj_add in *. change (Z.of_nat 0) with 0 in Su. change (Z.of_nat 1) with 1. change (Z.of_nat 31) with 31. nia.
    + split; [eapply dial_lasts; eauto|exact D2].
    + split; try rewrite H'; try discriminate; lia.
    + split; congruence.
  - destruct (Rs N w0 I) as [[D1 D2] [Ux Uy] Lw]. exists t, false, 1%nat, 0%nat, (31 + w0)%nat. split; auto.
    + exists (31 + w0)%nat. split; [lia|exact I'].
    + split; [lia|]. nia.
    + unfold base. rewrite !Nat2Z.inj_add in *. change (Z.of_nat 0) with 0. change (Z.of_nat 1) with 1. change (Z.of_nat 31) with 31.
      apply Zplus_le_compat_l, Z.mul_le_mono_nonneg_r; [exact D|]. lia.
    + split; [eapply dial_lasts; eauto|exact D2].
    + split; try rewrite H'; try discriminate; lia.
    + apply kept_anew. destruct Uy as [U|[U|U]]; congruence.
    + split; congruence.
Qed.
Lemma tinv_call A B b0 d c ka kb x y u v n s k r init na nb w t op x' (M : Prop) s' k' : 0 <= d -> suits A B ->
  tinv A B b0 d c ka kb x y u v n s k r init na nb w -> at_work M d t s w -> (~ M -> forall w0, linv A B ka kb (tc x) (tc y) u v w0 -> resting A B ka kb (tc x) (tc y) w0) -> n <= t ->
  taken_up M t s k (tc x) (tc y) s' k' -> (S k' <= c)%nat -> sane (tc x) op -> TimeModel.tstep x t (LCall op) = Some x' ->
  exists r' init' na' nb' w', tinv A B b0 d c (ka ++ [op]) kb x' y u v t s' (S k') r' init' na' nb' w'.
Proof.
  intros D SA T W Rs Nt Tk Lk Sa S. destruct (tstep_inv _ _ _ _ S) as (St & _ & _ & Eb & Es).
  pose proof T as [(w0 & Lw0 & I) [T1 T2] Su C In Kx Ky [B1 B2]]. destruct (linv_call _ _ _ _ _ _ _ _ _ _ _ SA I Sa St) as (w1 & Lw1 & I1).
  assert (Dx : dial (tc x) = DOk) by (unfold step in St; destruct (crash (tc x)); [discriminate|]; destruct (dial (tc x)); congruence).
  assert (Dx' : dial (tc x') = DOk) by (eapply dial_lasts; eauto).
  assert (H' : hb (tc x') = hb (tc x)) by (unfold step in St; destruct (crash (tc x)); [discriminate|]; rewrite Dx in St; apply some_inj in St; rewrite <- St; reflexivity).
  destruct Tk as [(HM & -> & ->)|(N & -> & ->)].
  - exists r, init, na, nb, (13 + w)%nat. split; auto.
    + exists w1. split; [lia|exact I1].
    + destruct W as [(_ & L & Lw)|X]; [|contradiction]. assert (d <= Z.of_nat w * d) by nia. split; [lia|]. rewrite Nat2Z.inj_add. nia.
    + rewrite Nat2Z.inj_add, Nat2Z.inj_succ. change (Z.of_nat 13) with 13. nia.
    + destruct init; [exact In|]. destruct In as [D1 D2]. auto.
    + eapply kept_step; eauto. lia.
    + split; congruence.
  - destruct (Rs N w0 I) as [[D1 D2] [Ux Uy] Lw]. exists t, false, 0%nat, 0%nat, (13 + w0)%nat. split; auto.
    + exists w1. split; [lia|exact I1].
    + split; [lia|]. nia.
    + unfold base. rewrite Nat2Z.inj_add, Nat2Z.inj_succ. change (Z.of_nat 13) with 13. apply Zplus_le_compat_l, Z.mul_le_mono_nonneg_r; [exact D|]. lia.
    + apply kept_anew. rewrite H'. destruct Ux as [U|[U|U]]; congruence.
    + apply kept_anew. destruct Uy as [U|[U|U]]; congruence.
    + split; congruence.
Qed.

(** ** The whole history *)
Lemma goes_on_work A B ka kb x y u v n s k d t s' k' w w0 : suits A B -> suits B A -> roomy B A -> linv A B ka kb (tc x) (tc y) u v w0 -> (w0 <= w)%nat ->
  goes_on d (mkTimed x y u v n s k) t s' k' ->
  let M := can_move (mkTalk (tc x) (tc y) u v) in at_work M d t s w /\ taken_up M t s k (tc x) (tc y) s' k'.
Proof.
  intros SA SB Ro I Lw G M. destruct G as [C L|N]; cbn [untimed m_cl m_sv m_up m_dn m_last m_calls] in *.
  - split; left; [split; [exact C|split; [exact L|]]|auto]. pose proof (busy_weight _ _ _ _ _ _ _ _ _ SA SB Ro I C). lia.
  - split; right; auto.
Qed.
Definition endure (gc gs : config) (oc os : N) (d : Z) (c : nat) (b0 : Z) (A B : side) (s : timed) : Prop :=
  exists m i ka kb r init na nb w, lives m i ka kb (lstart gc gs oc os) (untimed s) /\
    tinv A B b0 d c ka kb (m_cl s) (m_sv s) (m_up s) (m_dn s) (m_now s) (m_last s) (m_calls s) r init na nb w.
Lemma endures gc gs oc os d c b0 A B s s' t : suits A B -> suits B A -> roomy B A -> free A B -> free B A -> sd_g A = gc -> sd_g B = gs -> 0 <= d ->
  patient (span d c) gc -> patient (span d c) gs -> span d c < dial_limit ->
  endure gc gs oc os d c b0 A B s -> occurs d c s t s' -> endure gc gs oc os d c b0 A B s'.
Proof.
  intros SA SB Ro Fa Fb Ea Eb D Pc Ps Pd (m & i & ka & kb & r & init & na & nb & w & L & T) O. unfold untimed in L.
  destruct O as [x y u v n s k t l x' new Lt F Nt S Pk|x y u v n s k t l y' new Lt F Nt S Pk|x y u1 raw u2 v n s k t y' Lt S|x y u v1 raw v2 n s k t x' Lt Or S
    |x y u v n s k t l x' s' k' Lt G Lk Tl S|x y u v n s k t l y' s' k' Lt G Lk Tl S|x y u v n s k t op x' s' k' Lt G Lk Sa S|x y u v n s k t op y' s' k' Lt G Lk Sa S];
    cbn [m_cl m_sv m_up m_dn m_now m_last m_calls] in *; destruct (tstep_inv _ _ _ _ S) as (St & _).
  - pose proof (L_client (tc x) (tc y) u v l (tc x') new F Nt St Pk) as Ls. exists (Datatypes.S m), i, ka, kb, r, init, na, nb, (w - 1)%nat. split; [eapply LV_S; eauto|].
    eapply tinv_go; eauto. intros w0 I. exact (linv_ls A B ka kb _ _ _ _ _ _ _ _ w0 SA SB Ro I Ls).
  - pose proof (L_server (tc x) (tc y) u v l (tc y') new F Nt St Pk) as Ls. exists (Datatypes.S m), i, ka, kb, r, init, na, nb, (w - 1)%nat. split; [eapply LV_S; eauto|].
    apply tinv_sym. eapply tinv_go; [exact D|apply tinv_sym; exact T|exact Lt|exact S|]. intros w0 I. apply linv_sym in I.
    destruct (linv_ls A B ka kb _ _ _ _ _ _ _ _ w0 SA SB Ro I Ls) as (w' & Hw & I'). exists w'. split; [exact Hw|apply linv_sym, I'].
  - pose proof (L_to_server (tc x) (tc y) u1 raw u2 v (tc y') St) as Ls. exists (Datatypes.S m), i, ka, kb, r, init, na, nb, (w - 1)%nat. split; [eapply LV_S; eauto|].
    apply tinv_sym. eapply tinv_go; [exact D|apply tinv_sym; exact T|exact Lt|exact S|]. intros w0 I. apply linv_sym in I.
    destruct (linv_ls A B ka kb _ _ _ _ _ _ _ _ w0 SA SB Ro I Ls) as (w' & Hw & I'). exists w'. split; [exact Hw|apply linv_sym, I'].
  - pose proof (L_to_client (tc x) (tc y) u v1 raw v2 (tc x') Or St) as Ls. exists (Datatypes.S m), i, ka, kb, r, init, na, nb, (w - 1)%nat. split; [eapply LV_S; eauto|].
    eapply tinv_go; eauto. intros w0 I. exact (linv_ls A B ka kb _ _ _ _ _ _ _ _ w0 SA SB Ro I Ls).
  - destruct (ti_inv _ _ _ _ _ _ _ _ _ _ _ _ _ _ _ _ _ _ _ T) as (w0 & Lw & I). destruct (goes_on_work A B ka kb _ _ _ _ _ _ _ _ _ _ _ w w0 SA SB Ro I Lw G) as [W Tk].
    destruct (tinv_tick _ _ _ _ _ _ _ _ _ _ _ _ _ _ _ _ _ _ _ _ _ _ _ _ _ D SA ltac:(rewrite Ea; exact Pc) Pd T W (fun N w1 I1 => linv_rest _ _ _ _ _ _ _ _ _ SA SB Fa I1 N) Lt Tk Lk Tl S)
      as (-> & Hb & r' & init' & na' & nb' & w' & T').
    exists m, (Datatypes.S i), ka, kb, r', init', na', nb', w'. split; [|exact T']. eapply LV_tick; [exact L|]. constructor; assumption.
  - destruct (ti_inv _ _ _ _ _ _ _ _ _ _ _ _ _ _ _ _ _ _ _ T) as (w0 & Lw & I). destruct (goes_on_work A B ka kb _ _ _ _ _ _ _ _ _ _ _ w w0 SA SB Ro I Lw G) as [W Tk].
    assert (Tk' : taken_up (can_move (mkTalk (tc x) (tc y) u v)) t s k (tc y) (tc x) s' k') by (unfold taken_up in *; rewrite (Nat.add_comm (open_calls (tc y))); exact Tk).
    assert (Rs : ~ can_move (mkTalk (tc x) (tc y) u v) -> forall w1, linv B A kb ka (tc y) (tc x) v u w1 -> resting B A kb ka (tc y) (tc x) w1).
    { intros N w1 I1. apply linv_sym in I1. destruct (linv_rest _ _ _ _ _ _ _ _ _ SA SB Fa I1 N) as [[R1 R2] [R3 R4] R5]. split; auto. lia. }
    destruct (tinv_tick _ _ _ _ _ _ _ _ _ _ _ _ _ _ _ _ _ _ _ _ _ _ _ _ _ D SB ltac:(rewrite Eb; exact Ps) Pd (tinv_sym _ _ _ _ _ _ _ _ _ _ _ _ _ _ _ _ _ _ _ T) W Rs Lt Tk' Lk Tl S)
      as (-> & Hb & r' & init' & na' & nb' & w' & T').
    exists m, (Datatypes.S i), ka, kb, r', init', nb', na', w'. split; [|apply tinv_sym; exact T']. eapply LV_tick; [exact L|]. constructor; assumption.
  - destruct (ti_inv _ _ _ _ _ _ _ _ _ _ _ _ _ _ _ _ _ _ _ T) as (w0 & Lw & I). destruct (goes_on_work A B ka kb _ _ _ _ _ _ _ _ _ _ _ w w0 SA SB Ro I Lw G) as [W Tk].
    destruct (tinv_call _ _ _ _ _ _ _ _ _ _ _ _ _ _ _ _ _ _ _ _ _ _ _ _ _ D SA T W (fun N w1 I1 => linv_rest _ _ _ _ _ _ _ _ _ SA SB Fa I1 N) Lt Tk Lk Sa S)
      as (r' & init' & na' & nb' & w' & T').
    exists m, i, (ka ++ [op]), kb, r', init', na', nb', w'. split; [|exact T']. eapply LV_client; eauto.
  - destruct (ti_inv _ _ _ _ _ _ _ _ _ _ _ _ _ _ _ _ _ _ _ T) as (w0 & Lw & I). destruct (goes_on_work A B ka kb _ _ _ _ _ _ _ _ _ _ _ w w0 SA SB Ro I Lw G) as [W Tk].
    assert (Tk' : taken_up (can_move (mkTalk (tc x) (tc y) u v)) t s k (tc y) (tc x) s' k') by (unfold taken_up in *; rewrite (Nat.add_comm (open_calls (tc y))); exact Tk).
    assert (Rs : ~ can_move (mkTalk (tc x) (tc y) u v) -> forall w1, linv B A kb ka (tc y) (tc x) v u w1 -> resting B A kb ka (tc y) (tc x) w1).
    { intros N w1 I1. apply linv_sym in I1. destruct (linv_rest _ _ _ _ _ _ _ _ _ SA SB Fa I1 N) as [[R1 R2] [R3 R4] R5]. split; auto. lia. }
    destruct (tinv_call _ _ _ _ _ _ _ _ _ _ _ _ _ _ _ _ _ _ _ _ _ _ _ _ _ D SB (tinv_sym _ _ _ _ _ _ _ _ _ _ _ _ _ _ _ _ _ _ _ T) W Rs Lt Tk' Lk Sa S)
      as (r' & init' & na' & nb' & w' & T').
    exists m, i, ka, (kb ++ [op]), r', init', nb', na', w'. split; [|apply tinv_sym; exact T']. eapply LV_server; eauto.
Qed.
Theorem timely gc gs oc os d c b0 s : cfg_ok gc -> cfg_ok gs -> signals_fit gc -> signals_fit gs -> 0 <= d ->
  patient (span d c) gc -> patient (span d c) gs -> span d c < dial_limit -> history d c (timed_start gc gs oc os b0) s ->
  (exists m i ka kb, lives m i ka kb (lstart gc gs oc os) (untimed s)) /\
  (dial (tc (m_cl s)) <> DOk \/ dial (tc (m_sv s)) <> DOk -> m_now s <= b0 + span d c) /\
  (hb (tc (m_cl s)) = BAck -> m_now s <= since (m_cl s) + span d c) /\ (hb (tc (m_sv s)) = BAck -> m_now s <= since (m_sv s) + span d c).
Proof.
  intros O1 O2 F1 F2 D Pc Ps Pd H. pose proof (cfg_speaks _ O1 F1) as Sp1. pose proof (cfg_speaks _ O2 F2) as Sp2.
  destruct (cfg_plays2 gc gs Sp1 Sp2) as (up & act & upk & ack & mu & ma & mk & mc & Pl).
  pose proof (suits_cl gc gs oc os _ _ _ _ _ _ _ _ O1 Sp1 Pl) as SA. pose proof (suits_sv gc gs oc os _ _ _ _ _ _ _ _ O2 Sp2 Pl) as SB.
  pose proof (roomy_sv gc gs oc os up act upk ack mu ma mk mc) as Ro. pose proof (free_cs gc gs oc os up act upk ack mu ma mk mc) as Fr.
  assert (Fr' : free (side_sv gs os up act upk ack mu ma) (side_cl gc oc up act upk ack mk mc)) by (intros k j K1 K2; destruct (Fr j k K2 K1); auto).
  assert (E : endure gc gs oc os d c b0 (side_cl gc oc up act upk ack mk mc) (side_sv gs os up act upk ack mu ma) s).
  { remember (timed_start gc gs oc os b0) as s0 eqn:E0. induction H as [s|s s1 t s2 H IH O].
    - subst s. exists 0%nat, 0%nat, [], [], b0, true, 0%nat, 0%nat, 136%nat. split; [apply LV_0|]. cbn [timed_start m_cl m_sv m_up m_dn m_now m_last m_calls]. split.
      + exists 136%nat. split; [lia|]. exact (linv_start _ _ SA SB).
      + split; lia.
      + cbn [base]. lia.
      + lia.
      + auto.
      + split; cbn [tstart since tc]; auto; intros; lia.
      + split; cbn [tstart since tc]; auto; intros; lia.
      + auto.
    - exact (endures gc gs oc os d c b0 _ _ s1 s2 t SA SB Ro Fr Fr' eq_refl eq_refl D Pc Ps Pd (IH E0) O). }
  destruct E as (m & i & ka & kb & r & init & na & nb & w & L & T). pose proof (tinv_end _ _ _ _ _ _ _ _ _ _ _ _ _ _ _ _ _ _ _ D T) as En.
  destruct T as [I [T1 T2] Su C In [Kn Ka Ks Ki] [Ln La Lsl Li] [B1 B2]].
  split; [exists m, i, ka, kb; exact L|]. split; [|split].
  - intros N. destruct init; [destruct In as (_ & _ & ->); lia|]. exfalso. destruct In, N; contradiction.
  - intros Hb. specialize (Ka Hb). lia.
  - intros Hb. specialize (La Hb). lia.
Qed.
