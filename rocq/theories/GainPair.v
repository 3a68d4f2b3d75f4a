(** Two endpoints whose users read as often as the other writes. *)
From Verif Require Import GoBase BaseProofs ParamsModel MessagesModel WireSpec ParamsSpec MsgSpec ConfigModel
  ConnModel CfgSpec ConnSpec ConnBase ConnInv ConnTrace ConnUser ConnCodec ConnMore ConnStable ConnData ConnPair ConnPieces ConnE2E ConnDialog ConnDuo TalkSpec ConnTalk LifeSpec ConnLife ConnLife2 ConnLife3 DemoPair
  GainSpec GainProofs.
From Coq Require Import Arith Lia Permutation.
Open Scope nat_scope.
Opaque max_value_len.

Lemma conserved_sub c : reachable c -> crash c = None -> exists rest, Permutation ((delivered (log c) ++ dq c) ++ rest) (flat_map payload (reads (log c))).
Proof.
  intros R C. apply cnt_sub. intros x. destruct (conserved_reachable c R C x) as [E _]. unfold ConnData.total, ConnData.source in E. rewrite cnt_app. lia.
Qed.
Lemma at_most ma ga oa lsa a mb gb ob lsb b lost :
  run (start ma ga oa) lsa = Some a -> run (start mb gb ob) lsb = Some b -> cfg_ok ga -> Forall plain (calls lsa) ->
  Forall (fun p => length p <= 1500) (packets (log a)) -> Permutation (arrivals lsb ++ lost) (packets (log a)) -> crash b = None ->
  exists rest, Permutation ((delivered (log b) ++ dq b) ++ rest) (map (pd_of ga) (accepted (calls lsa) (us a))).
Proof.
  intros Ra Rb Ok Pl Sz Co C. destruct (read_arrived _ _ _ _ _ Rb (arrived_small _ _ _ Co Sz)) as (r & E & _).
  destruct (conserved_sub b) as [r1 P1]; [exists mb, gb, ob, lsb; exact Rb|exact C|].
  exists (r1 ++ flat_map payload (r ++ lost)). eapply Permutation_trans; [|apply (sent_payloads _ _ _ _ _ Ra Ok Pl Sz)].
  rewrite app_assoc, P1, <- flat_map_app, app_assoc, <- E. apply perm_flat_map. exact Co.
Qed.
Lemma life_runs2 gc gs oc os n i ka kb t : fit gc gs -> lives n i ka kb (lstart gc gs oc os) t ->
  exists lsa lsb, run (start Client gc oc) lsa = Some (t_cl t) /\ calls lsa = ka /\ run (start Server gs os) lsb = Some (t_sv t) /\ calls lsb = kb /\
    Permutation (arrivals lsb ++ t_up t) (packets (log (t_cl t))) /\ Forall (fun b => length b <= 1500) (packets (log (t_cl t))) /\
    Permutation (arrivals lsa ++ t_dn t) (packets (log (t_sv t))) /\ Forall (fun b => length b <= 1500) (packets (log (t_sv t))).
Proof.
  intros (O1 & O2 & F1 & F2) L. pose proof (cfg_speaks _ O1 F1) as Sp1. pose proof (cfg_speaks _ O2 F2) as Sp2.
  destruct (cfg_plays2 gc gs Sp1 Sp2) as (up & act & upk & ack & mu & ma & mk & mc & Pl).
  pose proof (suits_cl gc gs oc os _ _ _ _ _ _ _ _ O1 Sp1 Pl) as SA. pose proof (suits_sv gc gs oc os _ _ _ _ _ _ _ _ O2 Sp2 Pl) as SB.
  destruct (linv_lives _ _ n i ka kb t SA SB (roomy_sv _ _ _ _ _ _ _ _ _ _ _ _) L) as (w & Lw & I).
  destruct I as [_ _ _ (lsa & Ra & Ca & Pa) (lsb & Rb & Cb & Pb) S1 S2 _ _]. exists lsa, lsb. auto 10.
Qed.
Lemma sane_calls n i ka kb t0 t : lives n i ka kb t0 t -> Forall plain ka /\ Forall plain kb.
Proof.
  induction 1 as [t|n i p q t t1 t2 L IH S|n i p q t t1 t2 L IH S|n i p q t a b u d op a' L IH Sa S|n i p q t a b u d op b' L IH Sa S]; auto.
  - destruct IH. split; [|assumption]. apply Forall_app. split; [assumption|]. constructor; [|constructor]. destruct op; cbn in *; auto.
  - destruct IH. split; [assumption|]. apply Forall_app. split; [assumption|]. constructor; [|constructor]. destruct op; cbn in *; auto.
Qed.
(** a call at rest has returned, or is a Read that waits *)
Lemma tally c ops us pss : Forall2 (answered c) ops us -> gains ops us pss ->
  (Forall over_with us /\ length (concat pss) = n_reads ops) \/ (dq c = [] /\ length (concat pss) < n_reads ops).
Proof.
  intros F. revert pss. induction F as [|op u ops us A F IH]; intros pss G; inversion G as [|op0 u0 ps ops0 us0 pss0 G1 G2]; subst.
  - left. split; [constructor|reflexivity].
  - cbn [concat]. rewrite app_length. specialize (IH _ G2).
    assert (Hd : (over_with u /\ length ps = if a_read op then 1 else 0) \/ (dq c = [] /\ a_read op = true /\ length ps = 0)).
    { destruct op; cbn [answered a_read] in *; try contradiction.
      - destruct A as [[pd ->]|[-> D]].
        + left. split; [eexists; reflexivity|]. inversion G1 as [| |? ? N1 N2]; subst; [reflexivity|]. exfalso. eapply N1. reflexivity.
        + right. inversion G1; subst. auto.
      - destruct A as [[pd ->]|[-> D]].
        + left. split; [eexists; reflexivity|]. inversion G1 as [| |? ? N1 N2]; subst; [reflexivity|]. exfalso. eapply N2. reflexivity.
        + right. inversion G1; subst. auto.
      - destruct A as [k ->]. left. split; [eexists; reflexivity|]. now inversion G1; subst.
      - destruct A as [k ->]. left. split; [eexists; reflexivity|]. now inversion G1; subst.
      - subst u. left. split; [eexists; reflexivity|]. now inversion G1; subst. }
    unfold n_reads in *. cbn [filter]. destruct Hd as [[D L]|(D & E & L)].
    + destruct IH as [[I1 I2]|[I1 I2]].
      * left. split; [now constructor|]. rewrite I2, L. destruct (a_read op); reflexivity.
      * right. split; [exact I1|]. rewrite L. destruct (a_read op); cbn; lia.
    + right. split; [exact D|]. rewrite E, L. cbn. destruct IH as [[I1 I2]|[I1 I2]]; lia.
Qed.
Lemma one_way (c : conn) ops pss (W : list pdpayload) : Forall2 (answered c) ops (us c) -> gains ops (us c) pss -> Permutation (concat pss) (delivered (log c)) ->
  ((65535 <= N.of_nat (length (dq c)))%N \/ Permutation (delivered (log c) ++ dq c) W) ->
  (exists rest, Permutation ((delivered (log c) ++ dq c) ++ rest) W) ->
  (n_reads ops <= length W -> Forall over_with (us c)) /\ (length W <= n_reads ops -> Permutation (concat pss) W).
Proof.
  intros F G P A [rest B].
  assert (Z : dq c = [] -> Permutation (concat pss) W).
  { intros D. rewrite D, app_nil_r in A. destruct A as [A|A]; [cbn in A; lia|]. now rewrite P. }
  destruct (tally _ _ _ _ F G) as [[T1 T2]|[T1 T2]].
  - split; [auto|]. intros L. apply Z. apply Permutation_length in B. rewrite !app_length in B. apply Permutation_length in P. destruct (dq c); [reflexivity|cbn in B; lia].
  - specialize (Z T1). split; [|auto]. intros L. apply Permutation_length in Z. lia.
Qed.
Lemma exchange gc gs oc os n i ka kb t : cfg_ok gc -> cfg_ok gs -> signals_fit gc -> signals_fit gs -> lives n i ka kb (lstart gc gs oc os) t ->
  n <= 136 + 13 * (length ka + length kb) + 31 * i /\
  ((exists t', lstep t t') \/
   exists pa pb, gains ka (us (t_cl t)) pa /\ gains kb (us (t_sv t)) pb /\
    (n_reads ka <= length (written kb) -> Forall over_with (us (t_cl t))) /\ (length (written kb) <= n_reads ka -> Permutation (concat pa) (map (pd_of gs) (written kb))) /\
    (n_reads kb <= length (written ka) -> Forall over_with (us (t_sv t))) /\ (length (written ka) <= n_reads kb -> Permutation (concat pb) (map (pd_of gc) (written ka)))).
Proof.
  intros O1 O2 F1 F2 L. destruct (life_fine _ _ _ _ _ _ _ _ _ O1 O2 F1 F2 L) as (Bd & So1 & So2 & _ & _ & [S|(C1 & C2 & _ & _ & P2 & P1)]); (split; [exact Bd|]); [left; exact S|right].
  destruct (life_runs2 _ _ _ _ _ _ _ _ _ (conj O1 (conj O2 (conj F1 F2))) L) as (lsa & lsb & Ra & Ca & Rb & Cb & Pu & Su & Pd & Sd).
  destruct (gained _ _ _ _ _ Ra) as (pa & Ta & Ga). destruct (gained _ _ _ _ _ Rb) as (pb & Tb & Gb). rewrite Ca in Ta. rewrite Cb in Tb.
  apply tracks_gains in Ta. apply tracks_gains in Tb. destruct (sane_calls _ _ _ _ _ _ L) as [Pla Plb].
  destruct (one_way (t_sv t) kb pb (map (pd_of gc) (written ka)) (ce_us _ _ C2) Tb Gb P2) as [X1 X2].
  { destruct (at_most _ _ _ _ _ _ _ _ _ _ (t_up t) Ra Rb O1) as [rest X]; auto; [now rewrite Ca|apply So2|]. rewrite Ca, (answered_all _ _ _ (ce_us _ _ C1)) in X. eauto. }
  destruct (one_way (t_cl t) ka pa (map (pd_of gs) (written kb)) (ce_us _ _ C1) Ta Ga P1) as [Y1 Y2].
  { destruct (at_most _ _ _ _ _ _ _ _ _ _ (t_dn t) Rb Ra O2) as [rest X]; auto; [now rewrite Cb|apply So1|]. rewrite Cb, (answered_all _ _ _ (ce_us _ _ C2)) in X. eauto. }
  rewrite map_length in *. exists pa, pb. auto 10.
Qed.
