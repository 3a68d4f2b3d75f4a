(** Conservation of user data: every payload received in a DATA message is delivered once, or
    waits somewhere, or has been refused. *)
From Verif Require Import GoBase BaseProofs ParamsModel MessagesModel MessagesProofs MessagesProofs2 AccessorProofs ConfigModel
  ConnModel ConnSpec ConnBase ConnInv ConnTrace ConnUser ConnMacro ConnMore ConnStable.
From Coq Require Import Arith Lia Permutation.
Open Scope nat_scope.

(** ** Specification *)
(** the payload of a DATA message, if it has a decodable one *)
Definition msg_payload (t : msg) : list pdpayload :=
  match m_kind t, fget FProtocolData (m_f t) with
  | KData, Some q => match ProtocolData q with Ok pd => [pd] | _ => [] end
  | _, _ => []
  end.
Definition sig_payload (m : m3ua) : list pdpayload :=
  match m with Typed t => if (b2n (Version m) =? 1)%N then msg_payload t else [] | Gen _ => [] end.
(** ... of a received packet *)
Definition payload (raw : list byte) : list pdpayload :=
  match Parse raw with Ok m => sig_payload m | _ => [] end.
(** payloads whose DATA message was refused as unexpected *)
Definition refused_data (l : list event) : list pdpayload :=
  flat_map (fun e => match e with ERefused (OData _) (EUnexpected (Typed t)) => msg_payload t | _ => [] end) l.

(** ** Payloads on the way *)
Definition in_data (d : dpc) : list pdpayload :=
  match d with
  | DCheck t | DPd t | DErr (EUnexpected (Typed t)) => msg_payload t
  | DSend pd => [pd]
  | _ => []
  end.
Definition in_hand (l : list instr) : list pdpayload :=
  flat_map (fun x => match x with IParse raw => payload raw | ISig m => sig_payload m | _ => [] end) l.
Definition in_mon (m : mpc) : list pdpayload :=
  match m with MErr (OData _) (EUnexpected (Typed t)) => msg_payload t | _ => [] end.
Definition in_flight (c : conn) : list pdpayload :=
  in_mon (mon c) ++ flat_map in_hand (hs c) ++ flat_map in_data (ds c).

Definition pd_dec (a b : pdpayload) : {a = b} + {a <> b}.
Proof. decide equality; first [apply Byte.byte_eq_dec | apply N.eq_dec | apply (list_eq_dec Byte.byte_eq_dec)]. Defined.
Definition cnt (x : pdpayload) (l : list pdpayload) : nat := count_occ pd_dec l x.
Lemma cnt_app x a b : cnt x (a ++ b) = cnt x a + cnt x b.
Proof. apply count_occ_app. Qed.
Lemma cnt_upd {A} (f : A -> list pdpayload) l i y z x : nth_error l i = Some y ->
  cnt x (flat_map f (upd l i z)) + cnt x (f y) = cnt x (flat_map f l) + cnt x (f z).
Proof.
  intros H. destruct (upd_split l i y H) as (l1 & l2 & -> & _ & U). rewrite U, !flat_map_app. cbn [flat_map]. rewrite !cnt_app. lia.
Qed.

Definition total (c : conn) (x : pdpayload) : nat :=
  cnt x (delivered (log c)) + cnt x (refused_data (log c)) + cnt x (dq c) +
  cnt x (in_mon (mon c)) + cnt x (flat_map in_hand (hs c)) + cnt x (flat_map in_data (ds c)).
Definition source (c : conn) (x : pdpayload) : nat := cnt x (flat_map payload (reads (log c))).
Definition conserved (c : conn) : Prop :=
  forall x, total c x <= source c x /\ (ctxd c = false -> total c x = source c x).

Lemma delivered_app a b : delivered (a ++ b) = delivered a ++ delivered b.
Proof. apply flat_map_app. Qed.
Lemma refused_app a b : refused_data (a ++ b) = refused_data a ++ refused_data b.
Proof. apply flat_map_app. Qed.
Lemma reads_payload_app a b x : cnt x (flat_map payload (reads (a ++ b))) = cnt x (flat_map payload (reads a)) + cnt x (flat_map payload (reads b)).
Proof. now rewrite reads_app, flat_map_app, cnt_app. Qed.

(** steps that move nothing *)
Lemma conserved_ext c c' es : conserved c -> (ctxd c' = false -> ctxd c = false) -> log c' = log c ++ es ->
  delivered es = [] -> refused_data es = [] -> reads es = [] -> dq c' = dq c -> in_mon (mon c') = in_mon (mon c) ->
  flat_map in_hand (hs c') = flat_map in_hand (hs c) -> flat_map in_data (ds c') = flat_map in_data (ds c) -> conserved c'.
Proof.
  intros H E0 E1 E2 E3 E4 E5 E6 E7 E8 x. destruct (H x) as [A B]. unfold total, source in *.
  rewrite E1, delivered_app, refused_app, reads_app, E2, E3, E4, E5, E6, E7, E8, !app_nil_r. auto.
Qed.
Lemma conserved_move c c' : conserved c -> (ctxd c' = false -> ctxd c = false) ->
  (forall x, total c' x + source c x = total c x + source c' x) -> conserved c'.
Proof. intros H E D x. destruct (H x) as [A B]. specialize (D x). split; [lia|]. intros K. specialize (B (E K)). lia. Qed.
Lemma conserved_less c c' : conserved c -> ctxd c' = true ->
  (forall x, total c' x <= total c x /\ source c' x = source c x) -> conserved c'.
Proof. intros H E D x. destruct (H x) as [A _]. destruct (D x). split; [lia|congruence]. Qed.

(** an instruction of a packet goroutine that carries nothing *)
Lemma in_hand_upd c i x k l : nth_error (hs c) i = Some (x :: k) -> in_hand (x :: k) = in_hand l ->
  forall z, cnt z (flat_map in_hand (upd (hs c) i l)) = cnt z (flat_map in_hand (hs c)).
Proof. intros N E z. pose proof (cnt_upd in_hand (hs c) i (x :: k) l z N) as H. rewrite E in H. lia. Qed.
Lemma plan_in_hand m d l : plan m = (d, l) -> in_hand l = [].
Proof. intros E. shapes m; rewrite P in E; injection E as <- <-; reflexivity. Qed.
Lemma plan_no_data m l : plan m = (None, l) -> sig_payload m = [].
Proof.
  intros E. destruct m as [t|g]; [|reflexivity]. unfold sig_payload, msg_payload. unfold plan in E. destruct (b2n _ =? 1)%N; auto.
  destruct (m_kind t); auto. discriminate.
Qed.
Lemma plan_some_data m t l : plan m = (Some t, l) -> b2n (Version m) = 1%N -> sig_payload m = msg_payload t.
Proof.
  intros E V. apply plan_data in E as (_ & _ & -> & K). unfold sig_payload. rewrite V. reflexivity.
Qed.

Lemma conserved_step c l c' : reachable c -> conserved c -> crash c = None -> stepR c l c' -> crash c' = None -> conserved c'.
Proof.
  intros R H C S C'.
  assert (Tk : forall i x k, nth_error (hs c) i = Some (x :: k) -> match x with IParse _ | ISig _ => k = [] | _ => True end).
  { intros i x k N. destruct (Inv_reachable c R C) as (_ & _ & h & _ & _ & _ & _ & _ & T).
    destruct (token_hand _ _ _ _ _ T N) as (pre & raw & _ & _ & _ & _ & _ & _ & F). apply for_packet_inv in F. destruct x; auto; apply F. }
  assert (Hm : forall m, (forall o e, m <> MErr o e) -> in_mon m = []) by (intros [] E; auto; exfalso; eapply E; reflexivity).
  assert (Mv : forall c2, (ctxd c2 = false -> ctxd c = false) -> (forall x, total c2 x + source c x = total c x + source c2 x) -> conserved c2)
    by (intros; eapply conserved_move; eauto).
  assert (Iu : forall i x k l, nth_error (hs c) i = Some (x :: k) -> forall z,
    cnt z (flat_map in_hand (upd (hs c) i l)) + (cnt z (in_hand [x]) + cnt z (in_hand k)) = cnt z (flat_map in_hand (hs c)) + cnt z (in_hand l)).
  { intros i x k l0 N z. rewrite <- (cnt_upd in_hand (hs c) i (x :: k) l0 z N). rewrite <- cnt_app. f_equal. f_equal. unfold in_hand. cbn [flat_map]. now rewrite app_nil_r. }
  assert (Du : forall i d d', nth_error (ds c) i = Some d -> forall z,
    cnt z (flat_map in_data (upd (ds c) i d')) + cnt z (in_data d) = cnt z (flat_map in_data (ds c)) + cnt z (in_data d')) by (intros; now apply cnt_upd).
  assert (Cn : forall z, cnt z [] = 0) by reflexivity.
  assert (Ik : forall x k, in_hand (x :: k) = in_hand [x] ++ in_hand k) by (intros; unfold in_hand; cbn [flat_map]; now rewrite app_nil_r).
  Ltac mv c Iu Tk Ik Du Cn z :=
    unfold total, source; cb;
    try match goal with E : mon c = _ |- _ => rewrite E end;
    try (match goal with N : nth_error (hs c) ?i = Some (?x :: ?k) |- context [upd (hs c) ?i ?l] =>
       pose proof (Iu i x k l N z) as Up; pose proof (Tk i x k N) as Kn; cbn beta iota in Kn; rewrite ?(Ik _ k) in Up end);
    try (match goal with N : nth_error (ds c) ?i = Some ?d |- context [upd (ds c) ?i ?l] => pose proof (Du i d l N z) as Up end);
    rewrite ?delivered_app, ?refused_app, ?reads_payload_app, ?flat_map_app, ?cnt_app in *;
    cbn [delivered refused_data reads flat_map app in_mon in_hand in_data] in *; rewrite ?cnt_app, ?app_nil_r, ?Cn in *.
  destruct S; try solve [apply Mv; [cb; auto; congruence|intros z; mv c Iu Tk Ik Du Cn z; lia]].
  - (* S_upd *) rewrite state_update_eq. apply Mv; [cb; auto|intros z].
    assert (in_mon (upd_mon s c) = []) as E by (apply Hm; intros o e; unfold upd_mon; destruct s, (mode c), (st_eqb (state c) Active); discriminate).
    unfold total, source. cb. rewrite E, H0, delivered_app, refused_app, reads_payload_app, !cnt_app. cbn [delivered refused_data reads flat_map app in_mon]. rewrite !Cn. lia.
  - (* S_est *) bfields (set_dial DOk c). cb. apply Mv; [cb; congruence|intros z]. unfold total, source. cb. rewrite B20, B9, B13, B14, H0. cbn [in_mon]. lia.
  - (* S_mclose *) fields c. bfields (closing c). cb. apply Mv; [cb; congruence|intros z]. unfold total, source. cb.
    rewrite B20, B9, B13, B14, K20, K9, K13, K14, H0, delivered_app, refused_app, reads_payload_app, !cnt_app. cbn [delivered refused_data reads flat_map app in_mon]. rewrite !Cn. lia.
  - apply Mv; [cb; auto|intros z]. mv c Iu Tk Ik Du Cn z. subst k. cbn [flat_map] in Up. unfold payload in Up. rewrite H1, ?Cn in Up. lia.
  - apply Mv; [cb; auto|intros z]. mv c Iu Tk Ik Du Cn z. subst k. cbn [flat_map] in Up. unfold payload in Up. rewrite H1, ?Cn in Up. lia.
  - (* S_sig_ctx *) apply (conserved_less c); [exact H|exact H1|intros z]. split; [|reflexivity]. mv c Iu Tk Ik Du Cn z. lia.
  - apply Mv; [cb; auto|intros z]. mv c Iu Tk Ik Du Cn z. subst k. cbn [flat_map] in Up. apply N.eqb_neq in H2. unfold sig_payload in Up. rewrite H2 in Up.
    destruct m; rewrite ?Cn in Up; lia.
  - apply Mv; [cb; auto|intros z]. mv c Iu Tk Ik Du Cn z. subst k. change (flat_map _ l) with (in_hand l) in *. rewrite (plan_no_data _ _ H3), (plan_in_hand _ _ _ H3) in Up. cbn [flat_map] in Up. rewrite ?Cn in Up. lia.
  - apply Mv; [cb; auto|intros z]. mv c Iu Tk Ik Du Cn z. subst k. change (flat_map _ l) with (in_hand l) in *. rewrite (plan_some_data _ _ _ H3 H2), (plan_in_hand _ _ _ H3) in Up. cbn [flat_map] in Up. rewrite ?Cn in Up. lia.
  - apply Mv; [cb; auto|intros z]. mv c Iu Tk Ik Du Cn z. unfold msg_payload in Up.
    destruct (Inv_reachable c R C) as (D & _). specialize (D _ _ H0). cbn in D. rewrite D, H1, H2 in Up. lia.
  - apply Mv; [cb; auto|intros z]. mv c Iu Tk Ik Du Cn z. unfold msg_payload in Up.
    destruct (Inv_reachable c R C) as (D & _). specialize (D _ _ H0). cbn in D. rewrite D, H1, H2 in Up. rewrite ?Cn in Up. lia.
  - apply (conserved_less c); [exact H|exact H1|intros z]. split; [|reflexivity]. mv c Iu Tk Ik Du Cn z. lia.
  - destruct (hba c); apply Mv; cb; auto.
  - fields c. apply Mv; [cb; congruence|intros z]. unfold total, source. cb.
    rewrite K20, K9, K13, K14, K10, delivered_app, refused_app, reads_payload_app, !cnt_app. cbn [delivered refused_data reads flat_map app]. rewrite !Cn. lia.
  - apply Mv; [cb; auto|intros z]. mv c Iu Tk Ik Du Cn z. rewrite H1. change (pd :: r) with ([pd] ++ r). rewrite cnt_app. lia.
  - cbn in C'. discriminate.
Qed.

Lemma conserved_reachable c : reachable c -> crash c = None -> conserved c.
Proof.
  intros (m & g & o & ls & H). revert ls c H.
  refine (run_along (start m g o) (fun c => crash c = None -> conserved c) _ _).
  - intros _ x. split; [apply Nat.le_0_l|reflexivity].
  - intros ls c l c' R I S C'. destruct (step_stepR _ _ _ S) as [C S']. eapply conserved_step; eauto. exists m, g, o, ls. exact R.
Qed.

Lemma cnt_perm a b : (forall x, cnt x a = cnt x b) -> Permutation a b.
Proof. intros H. apply (Permutation_count_occ pd_dec). exact H. Qed.
Lemma cnt_sub a b : (forall x, cnt x a <= cnt x b) -> exists r, Permutation (a ++ r) b.
Proof.
  revert b. induction a as [|y a IH]; intros b H.
  - exists b. auto.
  - assert (In y b) as I.
    { apply (count_occ_In pd_dec). specialize (H y). unfold cnt in H. rewrite count_occ_cons_eq in H by reflexivity. lia. }
    apply in_split in I as (b1 & b2 & ->).
    destruct (IH (b1 ++ b2)) as [r P].
    + intros x. specialize (H x). unfold cnt in *. rewrite count_occ_app in *. cbn [count_occ] in H. destruct (pd_dec y x); lia.
    + exists r. cbn [app]. rewrite P. apply Permutation_middle.
Qed.
(** exact accounting while the context is not cancelled *)
Lemma accounting c : reachable c -> crash c = None -> ctxd c = false ->
  Permutation (delivered (log c) ++ refused_data (log c) ++ dq c ++ in_flight c) (flat_map payload (reads (log c))).
Proof.
  intros R C X. apply cnt_perm. intros x. destruct (conserved_reachable c R C x) as [_ E]. specialize (E X).
  unfold total, source, in_flight in *. rewrite !cnt_app. lia.
Qed.
Lemma step_delivered_crash c l c' : crash c = None -> stepR c l c' -> crash c' <> None -> delivered (log c') = delivered (log c) /\ reads (log c') = reads (log c).
Proof.
  intros C S C'. destruct S; cb; try congruence.
  - rewrite state_update_eq in C'. cb. congruence.
  - bfields (set_dial DOk c). cb. congruence.
  - fields c. bfields (closing c). cb. congruence.
  - destruct (hba c); cb; congruence.
  - fields c. cb. congruence.
  - rewrite delivered_app, reads_app. destruct H0 as [->|[->|(o & e & _ & ->)]]; cbn; rewrite !app_nil_r; auto.
Qed.
Lemma no_invention c : reachable c -> exists rest, Permutation (delivered (log c) ++ rest) (flat_map payload (reads (log c))).
Proof.
  intros (m & g & o & ls & H). revert ls c H.
  refine (run_along (start m g o) (fun c => exists rest, Permutation (delivered (log c) ++ rest) (flat_map payload (reads (log c)))) _ _).
  - exists []. constructor.
  - intros ls c l c' R I S. destruct (step_stepR _ _ _ S) as [C S'].
    destruct (crash c') eqn:C'.
    + destruct (step_delivered_crash _ _ _ C S') as [-> ->]; [congruence|exact I].
    + apply cnt_sub. intros x. assert (R' : reachable c') by (exists m, g, o, (ls ++ [l]); rewrite run_app, R; cbn [run]; now rewrite S).
      destruct (conserved_reachable c' R' C' x) as [E _]. unfold total, source in E. lia.
Qed.
(** nothing is lost: when no packet is being processed, every payload has been delivered, waits in the buffer, or was refused *)
Lemma nothing_lost c : reachable c -> crash c = None -> ctxd c = false -> mon c = MRead -> Forall (fun d => d = DDone) (ds c) ->
  Permutation (delivered (log c) ++ dq c ++ refused_data (log c)) (flat_map payload (reads (log c))).
Proof.
  intros R C X M D. rewrite <- (accounting c R C X).
  assert (in_flight c = []) as ->.
  { unfold in_flight. rewrite M. cbn [in_mon app].
    destruct (Inv_reachable c R C) as (_ & _ & h & _ & _ & _ & _ & _ & T).
    assert (dead (hs c)) as Dh.
    { destruct T as [? ? Id ?|? ? ? E ?|? ? ? ?|? ? ? ? ? ? ? Id ? ?|? ? Id]; try congruence; try (exfalso; unfold idle in Id; rewrite M in Id; exact Id). }
    assert (flat_map in_hand (hs c) = []) as -> by (induction Dh as [|x l -> _ IH]; auto).
    induction D as [|x l -> _ IH]; auto. }
  rewrite app_nil_r. apply Permutation_app_head. apply Permutation_app_comm.
Qed.
