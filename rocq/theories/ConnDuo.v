(** A client and a server connected to each other follow DialogSpec, and what becomes of them after one more signal. *)
From Verif Require Import GoBase BaseProofs ParamsModel MessagesModel WireSpec ParamsSpec MsgSpec ConfigModel
  ConnModel CfgSpec ConnSpec ConnBase ConnInv ConnCodec ConnPair DialogSpec ConnDialog.
From Coq Require Import Arith Lia.
Open Scope nat_scope.
Opaque max_value_len.

(** ** Refinement *)
Definition flight (sent : list (list byte)) (n : nat) (q : list (list byte)) : list (list byte) := q ++ skipn n sent.
Inductive follows (ma mb : cmode) (gc gs : config) : pair -> duo -> list sig -> list sig -> nat -> Prop :=
| Fo a b x y oc ac wc os as_ ws qc qs ua ub :
    calm ma gc a -> at_phase ma gc a oc ac wc -> calm mb gs b -> at_phase mb gs b os as_ ws ->
    x <= length (packets (log a)) -> y <= length (packets (log b)) ->
    Forall2 denotes (flight (packets (log b)) y (inq a)) qc -> Forall2 denotes (flight (packets (log a)) x (inq b)) qs ->
    Forall2 denotes (packets (log a)) ua -> Forall2 denotes (packets (log b)) ub ->
    follows ma mb gc gs (mkPair a b x y) (mkDuo ac as_ (qc ++ os) (qs ++ oc)) (ua ++ oc) (ub ++ os)
      (wc + hw (hb a) + (ws + hw (hb b)) + (length (packets (log a)) - x) + (length (packets (log b)) - y)).

Lemma flight_send l n q b : n <= length l -> flight (l ++ [b]) n q = flight l n q ++ [b].
Proof. intros L. unfold flight. rewrite skipn_app, <- app_assoc. replace (n - length l) with 0 by lia. reflexivity. Qed.
Lemma flight_move l n q raw : nth_error l n = Some raw -> flight l (S n) (q ++ [raw]) = flight l n q.
Proof.
  intros N. unfold flight. rewrite <- app_assoc. f_equal. cbn [app]. revert n N. induction l as [|z l IH]; intros [|n] N; cbn in *; try discriminate.
  - now injection N as ->.
  - now apply IH.
Qed.
(** packets that an endpoint has taken from the association *)
Definition taken (p : pair) : nat := p_ab p - length (inq (p_sv p)) + (p_ba p - length (inq (p_cl p))).
Lemma follows_step ma mb gc gs p d ha hb w p' : speaks gc -> speaks gs -> hb_on gc = false -> hb_on gs = false -> follows ma mb gc gs p d ha hb w -> pstep p p' ->
  (exists w', w' < w /\ follows ma mb gc gs p' d ha hb w' /\ p_ab p + p_ba p + (length (inq (p_sv p')) + length (inq (p_cl p'))) <= p_ab p' + p_ba p' + (length (inq (p_sv p)) + length (inq (p_cl p)))) \/
  (exists d' ha' hb' w', tstep ma mb d ha hb d' ha' hb' /\ w' <= w + 12 /\ follows ma mb gc gs p' d' ha' hb' w' /\ p_ab p' + p_ba p' = p_ab p + p_ba p /\
     1 + length (inq (p_sv p')) + length (inq (p_cl p')) = length (inq (p_sv p)) + length (inq (p_cl p))).
Proof.
  intros Sc Ss Hc Hs F S. destruct F as [a b x y oc ac wc os as_ ws qc qs ua ub Ca Pa Cb Pb Lx Ly Fc Fs Ga Gb].
  inversion S as [? ? ? ? l a' B St|? ? ? ? l b' B St|? ? ? ? raw b' N St|? ? ? ? raw a' N St]; subst; clear S; cbn [p_ab p_ba p_sv p_cl].
  - destruct (calm_step _ _ _ _ _ _ _ _ Sc Hc Ca Pa B St) as [Ca' [(Q & P & w' & Ph & Lw)|[(Q & bb & z & o' & w' & -> & P & De & Ph & Lw)|(raw & q & s & t & Q & -> & -> & P & Hh & Hx)]]].
    + left. rewrite Q. eexists. split; [|split; [eapply (Fo ma mb gc gs a' b x y oc ac w'); eauto; rewrite ?P, ?Q; auto|lia]]. rewrite P. lia.
    + left. rewrite Q. eexists. split; [|split; [|apply Nat.le_refl]].
      2:{ replace (qs ++ z :: o') with ((qs ++ [z]) ++ o') by (rewrite <- app_assoc; reflexivity).
          replace (ua ++ z :: o') with ((ua ++ [z]) ++ o') by (rewrite <- app_assoc; reflexivity).
          eapply (Fo ma mb gc gs a' b x y o' ac w'); eauto; rewrite ?P, ?Q; auto; [rewrite app_length; lia| |apply Forall2_app; auto]. rewrite flight_send by exact Lx. apply Forall2_app; auto. }
      rewrite P, app_length. cbn [length]. lia.
    + right. unfold flight in Fc. rewrite Q in Fc. cbn [app] in Fc. inversion Fc as [|? z ? qc' De Fc']; subst. destruct (Hx z De) as [Q' Ph].
      eexists. eexists. eexists. eexists. split; [cbn [app]; apply T_1|]. rewrite !app_nil_r. split; [|split; [eapply (Fo ma mb gc gs a' b x y _ _ 12); eauto; rewrite ?P; auto|]].
      * rewrite P, Hh. lia.
      * unfold flight. rewrite Q'. exact Fc'.
      * rewrite Q, Q'. cbn [length]. lia.
  - destruct (calm_step _ _ _ _ _ _ _ _ Ss Hs Cb Pb B St) as [Cb' [(Q & P & w' & Ph & Lw)|[(Q & bb & z & o' & w' & -> & P & De & Ph & Lw)|(raw & q & s & t & Q & -> & -> & P & Hh & Hx)]]].
    + left. rewrite Q. eexists. split; [|split; [eapply (Fo ma mb gc gs a b' x y oc ac wc os as_ w'); eauto; rewrite ?P, ?Q; auto|lia]]. rewrite P. lia.
    + left. rewrite Q. eexists. split; [|split; [|apply Nat.le_refl]].
      2:{ replace (qc ++ z :: o') with ((qc ++ [z]) ++ o') by (rewrite <- app_assoc; reflexivity).
          replace (ub ++ z :: o') with ((ub ++ [z]) ++ o') by (rewrite <- app_assoc; reflexivity).
          eapply (Fo ma mb gc gs a b' x y oc ac wc o' as_ w'); eauto; rewrite ?P, ?Q; auto; [rewrite app_length; lia| |apply Forall2_app; auto]. rewrite flight_send by exact Ly. apply Forall2_app; auto. }
      rewrite P, app_length. cbn [length]. lia.
    + right. unfold flight in Fs. rewrite Q in Fs. cbn [app] in Fs. inversion Fs as [|? z ? qs' De Fs']; subst. destruct (Hx z De) as [Q' Ph].
      eexists. eexists. eexists. eexists. split; [cbn [app]; apply T_2|]. rewrite !app_nil_r. split; [|split; [eapply (Fo ma mb gc gs a b' x y oc ac wc _ _ 12); eauto; rewrite ?P; auto|]].
      * rewrite P, Hh. lia.
      * unfold flight. rewrite Q'. exact Fs'.
      * rewrite Q, Q'. cbn [length]. lia.
  - destruct (calm_arrive _ _ _ _ _ _ raw Cb Pb) as (St' & Cb' & Pb'). rewrite St in St'. injection St' as ->.
    assert (Lx' : x < length (packets (log a))) by (apply nth_error_Some; congruence).
    left. cb. eexists. split; [|split; [eapply (Fo ma mb gc gs a _ (S x) y oc ac wc os as_ ws qc qs); cb; eauto; now rewrite (flight_move _ _ _ _ N)|]].
    + cb. lia.
    + rewrite app_length. cbn [length]. lia.
  - destruct (calm_arrive _ _ _ _ _ _ raw Ca Pa) as (St' & Ca' & Pa'). rewrite St in St'. injection St' as ->.
    assert (Ly' : y < length (packets (log b))) by (apply nth_error_Some; congruence).
    left. cb. eexists. split; [|split; [eapply (Fo ma mb gc gs _ b x (S y) oc ac wc os as_ ws qc qs); cb; eauto; now rewrite (flight_move _ _ _ _ N)|]].
    + cb. lia.
    + rewrite app_length. cbn [length]. lia.
Qed.
Definition waiting (p : pair) : nat := length (inq (p_sv p)) + length (inq (p_cl p)).
(** n steps of the pair are at most k steps of the dialogue and a bounded number of others *)
Lemma follows_steps ma mb gc gs n p p' d ha hb w : speaks gc -> speaks gs -> hb_on gc = false -> hb_on gs = false -> follows ma mb gc gs p d ha hb w -> psteps n p p' ->
  exists k d' ha' hb' w', tsteps ma mb k d ha hb d' ha' hb' /\ follows ma mb gc gs p' d' ha' hb' w' /\ n + w' <= w + 13 * k /\ k + (p_ab p + p_ba p) + waiting p' <= p_ab p' + p_ba p' + waiting p.
Proof.
  intros Sc Ss Hc Hs F R. induction R as [p|n p q r R IH S].
  - exists 0, d, ha, hb, w. split; [constructor|]. split; [exact F|]. lia.
  - destruct (IH F) as (k & d1 & ha1 & hb1 & w1 & D & F1 & L & Lk).
    destruct (follows_step _ _ _ _ _ _ _ _ _ _ Sc Ss Hc Hs F1 S) as [(w2 & Lw & F2 & E)|(d2 & ha2 & hb2 & w2 & Ds & Lw & F2 & E1 & E2)].
    + exists k, d1, ha1, hb1, w2. split; [exact D|]. split; [exact F2|]. unfold waiting in *. lia.
    + exists (Datatypes.S k), d2, ha2, hb2, w2. split; [eapply TS_S; eauto|]. split; [exact F2|]. unfold waiting in *. lia.
Qed.
Lemma tstep_dstep ma mb d ha hb d' ha' hb' : tstep ma mb d ha hb d' ha' hb' -> dstep ma mb d d'.
Proof. intros []; constructor. Qed.
Lemma tsteps_dsteps ma mb k d ha hb d' ha' hb' : tsteps ma mb k d ha hb d' ha' hb' -> dsteps ma mb k d d'.
Proof. intros R. induction R; [constructor|]. econstructor; [eassumption|]. eapply tstep_dstep; eauto. Qed.
(** at rest *)
Definition resting (c : conn) (a : abs) : Prop :=
  match a with
  | Rest s t => mon c = MRead /\ state c = s /\ dial c = dd t
  | Hung => mon c = MEst /\ state c = Active /\ dial c = DOk
  end.
Lemma follows_stuck ma mb gc gs p d ha hb w : speaks gc -> speaks gs -> follows ma mb gc gs p d ha hb w -> (forall p', ~ pstep p p') ->
  (forall d', ~ dstep ma mb d d') /\ resting (p_cl p) (d_cl d) /\ resting (p_sv p) (d_sv d) /\
  Forall2 denotes (packets (log (p_cl p))) ha /\ Forall2 denotes (packets (log (p_sv p))) hb.
Proof.
  intros Sc Ss F St. destruct F as [a b x y oc ac wc os as_ ws qc qs ua ub Ca Pa Cb Pb Lx Ly Fc Fs Ga Gb].
  assert (Ex : x = length (packets (log a))).
  { destruct (nth_error (packets (log a)) x) as [raw|] eqn:N; [|apply nth_error_None in N; lia]. exfalso.
    destruct (calm_arrive _ _ _ _ _ _ raw Cb Pb) as (S & _). eapply St. eapply P_to_server; eauto. }
  assert (Ey : y = length (packets (log b))).
  { destruct (nth_error (packets (log b)) y) as [raw|] eqn:N; [|apply nth_error_None in N; lia]. exfalso.
    destruct (calm_arrive _ _ _ _ _ _ raw Ca Pa) as (S & _). eapply St. eapply P_to_client; eauto. }
  destruct (calm_stuck _ _ _ _ _ _ Sc Ca Pa) as [-> Ha]. { intros l c' B S. eapply St. eapply P_client; eauto. }
  destruct (calm_stuck _ _ _ _ _ _ Ss Cb Pb) as [-> Hb]. { intros l c' B S. eapply St. eapply P_server; eauto. }
  rewrite !app_nil_r. subst x y. unfold flight in Fc, Fs. rewrite skipn_all, app_nil_r in Fc, Fs. cbn [p_cl p_sv d_cl d_sv].
  assert (Na : forall s t, ac = Rest s t -> qc = []).
  { intros s t ->. destruct Ha as [(_ & Q & _)|(_ & _ & _ & Q)]; [|discriminate]. rewrite Q in Fc. now inversion Fc. }
  assert (Nb : forall s t, as_ = Rest s t -> qs = []).
  { intros s t ->. destruct Hb as [(_ & Q & _)|(_ & _ & _ & Q)]; [|discriminate]. rewrite Q in Fs. now inversion Fs. }
  split; [|split; [|split; [|auto]]].
  - intros d' S. inversion S; subst; [discriminate (Na _ _ eq_refl)|discriminate (Nb _ _ eq_refl)].
  - destruct Ha as [(M & _ & t & -> & D)|(M & D & S & ->)]; cbn; auto.
  - destruct Hb as [(M & _ & t & -> & D)|(M & D & S & ->)]; cbn; auto.
Qed.
Definition pstart2 (ma mb : cmode) (ga gb : config) (oa ob : N) : pair := mkPair (start ma ga oa) (start mb gb ob) 0 0.
Lemma follows_start ma mb ga gb oa ob : hb_on ga = false -> hb_on gb = false -> follows ma mb ga gb (pstart2 ma mb ga gb oa ob) (dstart ma mb) (hello ma Down) (hello mb Down) 16.
Proof.
  intros Hc Hs. destruct (calm_start ma ga oa Hc) as [C1 P1]. destruct (calm_start mb gb ob Hs) as [C2 P2].
  exact (Fo ma mb ga gb (start ma ga oa) (start mb gb ob) 0 0 (hello ma Down) (Rest Down false) 5 (hello mb Down) (Rest Down false) 5 [] [] [] [] C1 P1 C2 P2 (le_n 0) (le_n 0)
    (Forall2_nil _) (Forall2_nil _) (Forall2_nil _) (Forall2_nil _)).
Qed.

(** ** Exploring dialogues *)
Definition sig_eq_dec (x y : sig) : {x = y} + {x <> y}.
Proof. decide equality. Defined.
Definition st_eq_dec (x y : st) : {x = y} + {x <> y}.
Proof. decide equality. Defined.
Definition abs_eq_dec (x y : abs) : {x = y} + {x <> y}.
Proof. decide equality; [apply Bool.bool_dec|apply st_eq_dec]. Defined.
Definition duo_eq_dec (x y : duo) : {x = y} + {x <> y}.
Proof. decide equality; try apply (list_eq_dec sig_eq_dec); apply abs_eq_dec. Defined.
Definition succs (ma mb : cmode) (d : duo) : list duo :=
  (match d_cl d, to_cl d with
   | Rest s t, x :: q => [mkDuo (snd (hears ma s t x)) (d_sv d) q (to_sv d ++ fst (hears ma s t x))]
   | _, _ => []
   end) ++
  (match d_sv d, to_sv d with
   | Rest s t, x :: q => [mkDuo (d_cl d) (snd (hears mb s t x)) (to_cl d ++ fst (hears mb s t x)) q]
   | _, _ => []
   end).
Lemma succs_spec ma mb d d' : dstep ma mb d d' <-> In d' (succs ma mb d).
Proof.
  split.
  - intros S. destruct S; unfold succs; cbn [d_cl d_sv to_cl to_sv].
    + now left.
    + apply in_or_app. right. now left.
  - destruct d as [a b qc qs]. unfold succs. cbn [d_cl d_sv to_cl to_sv]. intros I. apply in_app_or in I as [I|I].
    + destruct a as [s t|]; [|contradiction]. destruct qc as [|x qc]; [contradiction|]. destruct I as [<-|[]]. apply D_1.
    + destruct b as [s t|]; [|contradiction]. destruct qs as [|x qs]; [contradiction|]. destruct I as [<-|[]]. apply D_2.
Qed.
Lemma succs_nil ma mb d : succs ma mb d = [] <-> forall d', ~ dstep ma mb d d'.
Proof.
  split.
  - intros E d' S. apply succs_spec in S. rewrite E in S. contradiction.
  - intros H. destruct (succs ma mb d) as [|e l] eqn:E; [reflexivity|]. exfalso. apply (H e). apply succs_spec. rewrite E. now left.
Qed.
(** all dialogues from d end within f steps, in P *)
Fixpoint ends (ma mb : cmode) (P : duo -> bool) (f : nat) (d : duo) : bool :=
  match f with
  | 0 => false
  | S f => match succs ma mb d with [] => P d | l => forallb (ends ma mb P f) l end
  end.
Lemma ends_sound ma mb P k : forall f d d', ends ma mb P f d = true -> dsteps ma mb k d d' -> k < f /\ ends ma mb P (f - k) d' = true.
Proof.
  intros f d d' E R. revert E. induction R as [d|k d e g R IH S]; intros E.
  - destruct f; [discriminate|]. split; [lia|]. rewrite Nat.sub_0_r. exact E.
  - destruct (IH E) as [L E']. destruct (f - k) as [|f'] eqn:F; [lia|]. cbn [ends] in E'. apply succs_spec in S.
    destruct (succs ma mb e) as [|u l] eqn:Su; [contradiction|]. rewrite forallb_forall in E'. specialize (E' g S).
    destruct f' as [|f'']; [discriminate|]. split; [lia|]. replace (f - Datatypes.S k) with (Datatypes.S f'') by lia. exact E'.
Qed.
Lemma ends_last ma mb P f d : ends ma mb P f d = true -> (forall d', ~ dstep ma mb d d') -> P d = true.
Proof. intros E H. destruct f; [discriminate|]. cbn [ends] in E. apply succs_nil in H. now rewrite H in E. Qed.
Definition mem (d : duo) (l : list duo) : bool := if in_dec duo_eq_dec d l then true else false.
Lemma mem_In d l : mem d l = true -> In d l.
Proof. unfold mem. destruct (in_dec duo_eq_dec d l); [auto|discriminate]. Qed.
Fixpoint closure (ma mb : cmode) (n : nat) (l : list duo) : list duo :=
  match n with 0 => l | S n => closure ma mb n (nodup duo_eq_dec (l ++ flat_map (succs ma mb) l)) end.
(** the set l is closed under steps *)
Definition shut (ma mb : cmode) (l : list duo) : bool := forallb (fun d => forallb (fun e => mem e l) (succs ma mb d)) l.
Lemma shut_sound ma mb l d d' k : shut ma mb l = true -> In d l -> dsteps ma mb k d d' -> In d' l.
Proof.
  intros C I R. revert I. induction R as [d|k d e f R IH S]; intros I; [exact I|].
  specialize (IH I). unfold shut in C. rewrite forallb_forall in C. specialize (C e IH). rewrite forallb_forall in C.
  apply mem_In, C. now apply succs_spec.
Qed.
(** no dialogue from d ever ends *)
Definition endless (ma mb : cmode) (n : nat) (d : duo) : bool :=
  let l := closure ma mb n [d] in mem d l && shut ma mb l && forallb (fun d => match succs ma mb d with [] => false | _ => true end) l.
Lemma endless_sound ma mb n d d' k : endless ma mb n d = true -> dsteps ma mb k d d' -> exists e, dstep ma mb d' e.
Proof.
  unfold endless. intros E R. apply andb_true_iff in E as [E E3]. apply andb_true_iff in E as [E1 E2].
  pose proof (shut_sound _ _ _ _ _ _ E2 (mem_In _ _ E1) R) as I. rewrite forallb_forall in E3. specialize (E3 d' I).
  destruct (succs ma mb d') as [|e l] eqn:S; [discriminate|]. exists e. apply succs_spec. rewrite S. now left.
Qed.

(** ** Before the call *)
Definition before : list duo := Eval vm_compute in closure Client Server 8 [dstart Client Server].
Lemma before_shut : shut Client Server before = true /\ In (dstart Client Server) before.
Proof. split; [vm_compute; reflexivity|]. now left. Qed.
Definition told (a : abs) : bool := match a with Rest _ t => t | Hung => true end.
Lemma before_told : forall d, In d before -> (told (d_cl d) = true -> to_cl d = []) /\ (told (d_sv d) = true -> to_sv d = []).
Proof.
  intros d I. unfold before in I. cbn [In] in I. repeat (destruct I as [<-|I]; [split; cbn; auto; discriminate|]). contradiction.
Qed.
Lemma before_ends : ends Client Server (fun _ => true) 5 (dstart Client Server) = true.
Proof. vm_compute. reflexivity. Qed.
Lemma read_stays mo g c l c' o a w : hb_on g = false -> calm mo g c -> at_phase mo g c o a w -> mon c = MRead -> inq c = [] -> benign l -> step c l = Some c' -> mon c' = MRead.
Proof.
  intros Ho C [_ Ph] M Q B S. destruct (calm_labels _ _ _ _ _ C Ho B S) as [(h & -> & _)|Lb]; [exact M|].
  unfold step in S. rewrite (ca_crash _ _ _ C) in S. rewrite M in Ph. inversion Ph as [| | | | |t l0 I E1 E2 E3 E4 E5 E6 E7| |]; subst.
  destruct Lb as [->|[->|[i ->]]].
  - rewrite <- E1 in S. discriminate.
  - unfold step_mon in S. rewrite M, Q, (ca_open _ _ _ C) in S. discriminate.
  - unfold step_hand in S. destruct (nth_error (hs c) i) as [z|] eqn:N; [|discriminate]. rewrite (idle_nth _ _ _ I N) in S. discriminate.
Qed.
Lemma just_told c l c' : benign l -> step c l = Some c' -> dial c <> DOk -> dial c' = DOk -> mon c' = MRead.
Proof.
  intros B S N D. apply step_stepR in S as [_ S]. destruct S; try contradiction; try reflexivity; exfalso; apply N; rewrite ?broadcast_eq in D;
    unfold closing, state_update, hgo, dgo, ugo in D; revert D; repeat match goal with |- context [match ?x with _ => _ end] => destruct x end; cb; auto; try discriminate.
Qed.
Definition told_rests (p : pair) : Prop := (dial (p_cl p) = DOk -> mon (p_cl p) = MRead) /\ (dial (p_sv p) = DOk -> mon (p_sv p) = MRead).

Lemma told_step gc gs p d ha hb w p' : speaks gc -> speaks gs -> hb_on gc = false -> hb_on gs = false -> follows Client Server gc gs p d ha hb w -> In d before -> told_rests p -> pstep p p' -> told_rests p'.
Proof.
  intros Sc Ss Hc Hs F I [Tc Ts] S. destruct F as [a b x y oc ac wc os as_ ws qc qs ua ub Ca Pa Cb Pb Lx Ly Fc Fs Ga Gb]. destruct (before_told _ I) as [B1 B2].
  cbn [p_cl p_sv d_cl d_sv to_cl to_sv] in *.
  assert (Pc : dial a = DOk -> mon a = MRead /\ inq a = []).
  { intros D. specialize (Tc D). split; [exact Tc|]. destruct Pa as [_ Pa]. rewrite Tc, D in Pa. inversion Pa as [| | | | |t l0 E E1 E2 E3 E4 E5 E6 E7| |]; subst.
    assert (Q : qc ++ os = []) by (apply B1; destruct t; [reflexivity|discriminate]). apply app_eq_nil in Q as [-> _]. inversion Fc as [Q|]. unfold flight in Q.
    symmetry in Q. now apply app_eq_nil in Q as [-> _]. }
  assert (Ps : dial b = DOk -> mon b = MRead /\ inq b = []).
  { intros D. specialize (Ts D). split; [exact Ts|]. destruct Pb as [_ Pb]. rewrite Ts, D in Pb. inversion Pb as [| | | | |t l0 E E1 E2 E3 E4 E5 E6 E7| |]; subst.
    assert (Q : qs ++ oc = []) by (apply B2; destruct t; [reflexivity|discriminate]). apply app_eq_nil in Q as [-> _]. inversion Fs as [Q|]. unfold flight in Q.
    symmetry in Q. now apply app_eq_nil in Q as [-> _]. }
  inversion S as [? ? ? ? l a' B St|? ? ? ? l b' B St|? ? ? ? raw b' N St|? ? ? ? raw a' N St]; subst; clear S; split; cbn [p_cl p_sv]; auto.
  - intros D. destruct (dial a) eqn:Da.
    2:{ destruct (Pc eq_refl) as [M Q]. exact (read_stays _ _ _ _ _ _ _ _ Hc Ca Pa M Q B St). }
    all: eapply just_told; eauto; congruence.
  - intros D. destruct (dial b) eqn:Db.
    2:{ destruct (Ps eq_refl) as [M Q]. exact (read_stays _ _ _ _ _ _ _ _ Hs Cb Pb M Q B St). }
    all: eapply just_told; eauto; congruence.
  - destruct (calm_arrive _ _ _ _ _ _ raw Cb Pb) as (St' & _). rewrite St in St'. injection St' as ->. exact Ts.
  - destruct (calm_arrive _ _ _ _ _ _ raw Ca Pa) as (St' & _). rewrite St in St'. injection St' as ->. exact Tc.
Qed.
Lemma before_call gc gs oc os n p : speaks gc -> speaks gs -> hb_on gc = false -> hb_on gs = false -> psteps n (pstart gc gs oc os) p ->
  exists d ha hb w, follows Client Server gc gs p d ha hb w /\ In d before /\ told_rests p /\ w <= 68 /\ waiting p <= p_ab p + p_ba p.
Proof.
  intros Sc Ss Hc Hs R. pose proof (follows_start Client Server gc gs oc os Hc Hs : follows Client Server gc gs (pstart gc gs oc os) (dstart Client Server) [SUp] [] 16) as F0. pose proof before_shut as [B1 B2].
  destruct (follows_steps _ _ _ _ _ _ _ _ _ _ _ Sc Ss Hc Hs F0 R) as (k & d & ha & hb & w & D & F & L1 & L2). apply tsteps_dsteps in D.
  exists d, ha, hb, w. split; [exact F|]. split; [eapply shut_sound; eauto|]. split; [|split].
  - clear k d ha hb w D F L1 L2. remember (pstart gc gs oc os) as p0 eqn:E0. induction R as [p|n p q r R IH S]; subst; [split; discriminate|].
    destruct (follows_steps _ _ _ _ _ _ _ _ _ _ _ Sc Ss Hc Hs F0 R) as (k & d & ha & hb & w & D & F & _). apply tsteps_dsteps in D.
    eapply told_step; [exact Sc|exact Ss|exact Hc|exact Hs|exact F|eapply shut_sound; eauto|auto|exact S].
  - destruct (ends_sound _ _ _ _ _ _ _ before_ends D) as [Lk _]. lia.
  - cbn in L2. lia.
Qed.

(** ** The call *)
Inductive signal_by (m : m3ua) : bool -> pair -> pair -> Prop :=
| SB_client a b x y a' : signalled a a' m -> signal_by m true (mkPair a b x y) (mkPair a' b x y)
| SB_server a b x y b' : signalled b b' m -> signal_by m false (mkPair a b x y) (mkPair a b' x y).
Definition heard (by_cl : bool) (x : sig) (d : duo) : duo :=
  if by_cl then mkDuo (d_cl d) (d_sv d) (to_cl d) (to_sv d ++ [x]) else mkDuo (d_cl d) (d_sv d) (to_cl d ++ [x]) (to_sv d).
Lemma call_follows ma mb gc gs m x by_cl p p1 d ha hb w : follows ma mb gc gs p d ha hb w -> told_rests p -> says m x -> signal_by m by_cl p p1 ->
  follows ma mb gc gs p1 (heard by_cl x d) (if by_cl then ha ++ [x] else ha) (if by_cl then hb else hb ++ [x]) (S w) /\ (if by_cl then told (d_cl d) = true else told (d_sv d) = true) /\
  waiting p1 = waiting p /\ p_ab p1 = p_ab p /\ p_ba p1 = p_ba p.
Proof.
  intros F [Tc Ts] (bb & W & De) S. destruct F as [a b x0 y oc ac wc os as_ ws qc qs ua ub Ca Pa Cb Pb Lx Ly Fc Fs Ga Gb].
  inversion S as [? ? ? ? a' Sg|? ? ? ? b' Sg]; subst; clear S; cbn [p_cl p_sv d_cl d_sv heard to_cl to_sv] in *.
  - destruct (calm_call _ _ _ _ _ _ _ _ _ _ Ca Pa W De Sg) as (Ca' & Pa' & Q & P & Hh & D). specialize (Tc D).
    assert (oc = [] /\ told ac = true) as [-> To].
    { destruct Pa as [_ Pa]. rewrite Tc, D in Pa. inversion Pa as [| | | | |t l0 E E1 E2 E3 E4 E5 E6 E7| |]; subst. split; [reflexivity|]. destruct t; [reflexivity|discriminate]. }
    split; [|split; [exact To|split; [unfold waiting; cbn [p_cl p_sv]; now rewrite Q|split; reflexivity]]].
    rewrite !app_nil_r. rewrite <- (app_nil_r (qs ++ [x])), <- (app_nil_r (ua ++ [x])).
    replace (S (wc + hw (hb a) + (ws + hw (hb b)) + (length (packets (log a)) - x0) + (length (packets (log b)) - y)))
      with (wc + hw (hb a') + (ws + hw (hb b)) + (length (packets (log a')) - x0) + (length (packets (log b)) - y)) by (rewrite P, app_length, Hh; cbn [length]; lia).
    eapply (Fo ma mb gc gs a' b x0 y [] ac wc os as_ ws); eauto; rewrite ?P, ?Q; auto; [rewrite app_length; lia| |apply Forall2_app; auto]. rewrite flight_send by exact Lx. apply Forall2_app; auto.
  - destruct (calm_call _ _ _ _ _ _ _ _ _ _ Cb Pb W De Sg) as (Cb' & Pb' & Q & P & Hh & D). specialize (Ts D).
    assert (os = [] /\ told as_ = true) as [-> To].
    { destruct Pb as [_ Pb]. rewrite Ts, D in Pb. inversion Pb as [| | | | |t l0 E E1 E2 E3 E4 E5 E6 E7| |]; subst. split; [reflexivity|]. destruct t; [reflexivity|discriminate]. }
    split; [|split; [exact To|split; [unfold waiting; cbn [p_cl p_sv]; now rewrite Q|split; reflexivity]]].
    rewrite !app_nil_r. rewrite <- (app_nil_r (qc ++ [x])), <- (app_nil_r (ub ++ [x])).
    replace (S (wc + hw (hb a) + (ws + hw (hb b)) + (length (packets (log a)) - x0) + (length (packets (log b)) - y)))
      with (wc + hw (hb a) + (ws + hw (hb b')) + (length (packets (log a)) - x0) + (length (packets (log b')) - y)) by (rewrite P, app_length, Hh; cbn [length]; lia).
    eapply (Fo ma mb gc gs a b' x0 y oc ac wc [] as_ ws); eauto; rewrite ?P, ?Q; auto; [rewrite app_length; lia| |apply Forall2_app; auto]. rewrite flight_send by exact Ly. apply Forall2_app; auto.
Qed.

(** ** The table *)
Definition abs_eqb (a b : abs) : bool := if abs_eq_dec a b then true else false.
Definition verdict (f : fate) (d : duo) : bool :=
  match f with
  | Ends sc ss => ends Client Server (fun d => abs_eqb (d_cl d) (Rest sc true) && abs_eqb (d_sv d) (Rest ss true)) 12 d
  | BothHang => ends Client Server (fun d => abs_eqb (d_cl d) Hung && abs_eqb (d_sv d) Hung) 12 d
  | Endless => endless Client Server 14 d
  end.
Definition table_ok : bool :=
  forallb (fun x : sig => forallb (fun by_cl : bool => forallb (fun d : duo =>
    if told (if by_cl then d_cl d else d_sv d) then verdict (fate_of by_cl x) (heard by_cl x d) else true) before) [true; false])
    [SUp; SUpAck; SDown; SDownAck; SActive; SActiveAck; SInactive; SInactiveAck; SErr; SNtfy; SOther].
Lemma table : table_ok = true.
Proof. vm_compute. reflexivity. Qed.
Lemma fate_holds (by_cl : bool) x d : In d before -> (if by_cl then told (d_cl d) = true else told (d_sv d) = true) -> verdict (fate_of by_cl x) (heard by_cl x d) = true.
Proof.
  intros I T. pose proof table as H. unfold table_ok in H. rewrite forallb_forall in H. specialize (H x). rewrite forallb_forall in H.
  specialize (H ltac:(destruct x; cbn [In]; tauto) by_cl ltac:(destruct by_cl; cbn [In]; tauto)). rewrite forallb_forall in H. specialize (H d I). destruct by_cl; now rewrite T in H.
Qed.
Lemma abs_eqb_true a b : abs_eqb a b = true -> a = b.
Proof. unfold abs_eqb. destruct (abs_eq_dec a b); [auto|discriminate]. Qed.

(** ** Whether a step is possible can be decided *)
Lemma calm_four mo g c l c' : calm mo g c -> hb_on g = false -> benign l -> step c l = Some c' -> l = LHb true \/ l = LInit \/ l = LMon true \/ exists i, i < length (hs c) /\ l = LHand i true.
Proof.
  intros [Mo G X K So C D U H] Ho B S. rewrite <- G in Ho. unfold step in S. rewrite C in S.
  assert (Nn : forall A i, @nth_error A [] i = None) by (intros A [|]; reflexivity).
  destruct l; try contradiction; try rewrite D in S; try rewrite X in S; try rewrite K in S; auto.
  - destruct ok; [auto|contradiction].
  - destruct (mon c); discriminate.
  - destruct ok; [|contradiction]. do 3 right. exists i. split; [|reflexivity]. apply nth_error_Some. intros N. unfold step_hand in S. now rewrite N in S.
  - unfold step_data in S. rewrite D, Nn in S. discriminate.
  - rewrite Nn in S. discriminate.
  - destruct ok; [auto|contradiction].
  - destruct (hb c); cbn in H; try contradiction; discriminate.
  - destruct (hb c); cbn in H; try contradiction; discriminate.
  - destruct (hb c); cbn in H; try contradiction; discriminate.
  - destruct (dial c); discriminate.
  - unfold step_user in S. destruct (nth_error (us c) i) as [u|] eqn:N; [|discriminate].
    apply nth_error_In in N. rewrite Forall_forall in U. destruct (U _ N) as [r ->]. discriminate.
Qed.
Lemma calm_dec mo g c : calm mo g c -> hb_on g = false -> (exists l c', benign l /\ step c l = Some c') \/ (forall l c', benign l -> step c l <> Some c').
Proof.
  intros C Ho.
  destruct (step c (LHb true)) as [c1|] eqn:S1; [left; exists (LHb true), c1; split; [exact Logic.I|exact S1]|].
  destruct (step c LInit) as [c2|] eqn:S2; [left; exists LInit, c2; split; [exact Logic.I|exact S2]|].
  destruct (step c (LMon true)) as [c3|] eqn:S3; [left; exists (LMon true), c3; split; [exact Logic.I|exact S3]|].
  assert (H : forall n, (exists i c', step c (LHand i true) = Some c') \/ (forall i, i < n -> step c (LHand i true) = None)).
  { induction n as [|n IH]; [right; intros i L; lia|]. destruct IH as [E|N]; [auto|].
    destruct (step c (LHand n true)) as [c4|] eqn:S4; [left; eauto|]. right. intros i L. destruct (Nat.eq_dec i n) as [->|]; [exact S4|]. apply N. lia. }
  destruct (H (length (hs c))) as [(i & c4 & S4)|N]; [left; exists (LHand i true), c4; split; [exact Logic.I|exact S4]|].
  right. intros l c' B S. destruct (calm_four _ _ _ _ _ C Ho B S) as [->|[->|[->|(i & L & ->)]]]; try congruence. rewrite (N i L) in S. discriminate.
Qed.
Lemma follows_dec ma mb gc gs p d ha hb w : hb_on gc = false -> hb_on gs = false -> follows ma mb gc gs p d ha hb w -> (exists p', pstep p p') \/ forall p', ~ pstep p p'.
Proof.
  intros Hc Hs F. destruct F as [a b x y oc ac wc os as_ ws qc qs ua ub Ca Pa Cb Pb Lx Ly Fc Fs Ga Gb].
  destruct (calm_dec _ _ _ Ca Hc) as [(l & a' & B & S)|Na]; [left; eexists; eapply P_client; eauto|].
  destruct (calm_dec _ _ _ Cb Hs) as [(l & b' & B & S)|Nb]; [left; eexists; eapply P_server; eauto|].
  destruct (nth_error (packets (log a)) x) as [raw|] eqn:Nx; [left; destruct (calm_arrive _ _ _ _ _ _ raw Cb Pb) as (S & _); eexists; eapply P_to_server; eauto|].
  destruct (nth_error (packets (log b)) y) as [raw|] eqn:Ny; [left; destruct (calm_arrive _ _ _ _ _ _ raw Ca Pa) as (S & _); eexists; eapply P_to_client; eauto|].
  right. intros p' S. inversion S; subst; try congruence; [eapply Na; eauto|eapply Nb; eauto].
Qed.

(** ** What becomes of the pair *)
Definition at_rest (p : pair) : Prop := forall p', ~ pstep p p'.
(** no panic, no Close, the association is up *)
Definition sound (c : conn) : Prop := crash c = None /\ closed c = false /\ ctxd c = false /\ sopen c = true.
Lemma psteps_trans n p q : psteps n p q -> forall m r, psteps m q r -> psteps (n + m) p r.
Proof. intros R m r R2. induction R2 as [q|m q s r R2 IH S]; [now rewrite Nat.add_0_r|]. rewrite <- plus_n_Sm. econstructor; eauto. Qed.

Theorem signal_fate gc gs oc os m x by_cl n0 p p1 :
  cfg_ok gc -> cfg_ok gs -> signals_fit gc -> signals_fit gs -> hb_on gc = false -> hb_on gs = false -> says m x ->
  psteps n0 (pstart gc gs oc os) p -> signal_by m by_cl p p1 -> forall n p', psteps n p1 p' ->
  sound (p_cl p') /\ sound (p_sv p') /\ ((exists p'', pstep p' p'') \/ at_rest p') /\
  match fate_of by_cl x with
  | Ends sc ss => n <= 212 /\ (at_rest p' -> resting (p_cl p') (Rest sc true) /\ resting (p_sv p') (Rest ss true))
  | BothHang => n <= 212 /\ (at_rest p' -> resting (p_cl p') Hung /\ resting (p_sv p') Hung)
  | Endless => (exists p'', pstep p' p'') /\ n <= 69 + 13 * (p_ab p' + p_ba p')
  end.
Proof.
  intros Oc Os Fc Fs Hc Hs Sy R0 Sg. pose proof (cfg_speaks _ Oc Fc) as Sc. pose proof (cfg_speaks _ Os Fs) as Ss.
  destruct (before_call _ _ _ _ _ _ Sc Ss Hc Hs R0) as (d & ha & hb & w & F & I & T & Lw & Wt).
  destruct (call_follows _ _ _ _ _ _ _ _ _ _ _ _ _ F T Sy Sg) as (F1 & To & W1 & A1 & B1). pose proof (fate_holds by_cl x d I To) as V.
  intros n p' R. destruct (follows_steps _ _ _ _ _ _ _ _ _ _ _ Sc Ss Hc Hs F1 R) as (k & d' & ha' & hb' & w' & D & F' & L1 & L2). apply tsteps_dsteps in D.
  split; [destruct F' as [? ? ? ? ? ? ? ? ? ? ? ? ? ? []]; repeat split; assumption|].
  split; [destruct F' as [? ? ? ? ? ? ? ? ? ? ? ? ? ? _ _ []]; repeat split; assumption|].
  pose proof (follows_dec _ _ _ _ _ _ _ _ _ Hc Hs F') as Dc. split; [exact Dc|].
  destruct (fate_of by_cl x) as [sc ss| |].
  - destruct (ends_sound _ _ _ _ _ _ _ V D) as [Lk E]. split; [lia|]. intros At. destruct (follows_stuck _ _ _ _ _ _ _ _ _ Sc Ss F' At) as (N & Rc & Rs & _).
    apply ends_last in E; [|exact N]. apply andb_true_iff in E as [E1 E2]. apply abs_eqb_true in E1, E2. rewrite E1 in Rc. rewrite E2 in Rs. auto.
  - destruct (ends_sound _ _ _ _ _ _ _ V D) as [Lk E]. split; [lia|]. intros At. destruct (follows_stuck _ _ _ _ _ _ _ _ _ Sc Ss F' At) as (N & Rc & Rs & _).
    apply ends_last in E; [|exact N]. apply andb_true_iff in E as [E1 E2]. apply abs_eqb_true in E1, E2. rewrite E1 in Rc. rewrite E2 in Rs. auto.
  - split; [|lia]. destruct Dc as [Ex|At]; [exact Ex|]. destruct (follows_stuck _ _ _ _ _ _ _ _ _ Sc Ss F' At) as (N & _).
    destruct (endless_sound _ _ _ _ _ _ V D) as [e S]. destruct (N e S).
Qed.
(** whatever can end does end *)
Lemma runs_out b p : (forall n p', psteps n p p' -> n <= b) -> (forall n p', psteps n p p' -> (exists p'', pstep p' p'') \/ at_rest p') ->
  exists n p', psteps n p p' /\ at_rest p'.
Proof.
  intros L D. assert (H : forall k n q, psteps n p q -> k + n = S b -> exists n p', psteps n p p' /\ at_rest p').
  { induction k as [|k IH]; intros n q R E; [apply L in R; lia|]. destruct (D _ _ R) as [[r T]|A]; [|eauto]. apply (IH (S n) r); [econstructor; eauto|lia]. }
  apply (H (S b) 0 p); [constructor|lia].
Qed.
Lemma runs_on p : (forall n p', psteps n p p' -> exists p'', pstep p' p'') -> forall n, exists p', psteps n p p'.
Proof. intros H n. induction n as [|n [q R]]; [exists p; constructor|]. destruct (H _ _ R) as [r T]. exists r. econstructor; eauto. Qed.
