(** The order of user data between two endpoints. *)
From Verif Require Import GoBase BaseProofs ParamsModel MessagesModel WireSpec ParamsSpec MsgSpec ConfigModel
  ConnModel CfgSpec ConnSpec ConnBase ConnInv ConnTrace ConnUser ConnCodec ConnMore ConnStable ConnData ConnPair ConnPieces ConnE2E OrderSpec OrderProofs FlowSpec.
From Coq Require Import Arith Lia Permutation.
Open Scope nat_scope.

Lemma us_step c l c' : step c l = Some c' -> (forall op, l <> LCall op) ->
  us c' = us c \/ exists i u v, nth_error (us c) i = Some u /\ us c' = upd (us c) i v /\ forall r, u <> UDone r.
Proof.
  intros S Nl. destruct (step_stepR _ _ _ S) as [C S']. 
  destruct S'; try (left; reflexivity);
    try (right; eexists _, _, _; split; [eassumption|]; split; [cb; reflexivity|discriminate]; fail).
  - left. now rewrite state_update_eq.
  - left. bfields (set_dial DOk c). cb. congruence.
  - left. fields c. bfields (closing c). cb. congruence.
  - left. destruct (hba c); reflexivity.
  - exfalso. eapply Nl; reflexivity.
  - right. fields c. eexists _, _, _. split; [eassumption|]. split; [cb; rewrite K15; reflexivity|discriminate].
Qed.
Lemma no_write op u : a_write op = false -> accepted1 (op, u) = [].
Proof. destruct op; try discriminate; reflexivity. Qed.
Lemma under_way op u : (forall r, u <> UDone r) -> accepted1 (op, u) = [].
Proof. intros H. destruct op; try reflexivity; destruct u; try reflexivity; exfalso; eapply H; reflexivity. Qed.
Lemma no_writes ops : (forall op, In op ops -> a_write op = false) -> forall us, accepted ops us = [].
Proof.
  induction ops as [|o ops IH]; intros H us; [reflexivity|]. destruct us as [|u us]; [reflexivity|]. unfold accepted. cbn [List.combine flat_map].
  rewrite (no_write o u (H o (or_introl eq_refl))). apply IH. intros op I. apply H. now right.
Qed.
Lemma accepted_last ops : forall us i op u v, nth_error ops i = Some op -> nth_error us i = Some u -> (forall r, u <> UDone r) ->
  (a_write op = true -> forall j op', i < j -> nth_error ops j = Some op' -> a_write op' = false) ->
  accepted ops (upd us i v) = accepted ops us ++ accepted1 (op, v).
Proof.
  induction ops as [|o ops IH]; intros us i op u v No Nu D L; [destruct i; discriminate|].
  destruct us as [|w us]; [destruct i; discriminate|]. unfold accepted in *. destruct i as [|i]; cbn [nth_error upd List.combine flat_map] in *.
  - injection No as ->. injection Nu as ->. rewrite (under_way op u D). cbn [app]. destruct (a_write op) eqn:A.
    + pose proof (no_writes ops) as Z. unfold accepted in Z. rewrite Z; [now rewrite app_nil_r|].
      intros x I. apply In_nth_error in I as [j N]. apply (L eq_refl (S j) x); [lia|exact N].
    + rewrite (no_write op v A). now rewrite app_nil_r.
  - rewrite (IH us i op u v No Nu D); [now rewrite app_assoc|]. intros A j op' Lt N. apply (L A (S j) op'); [lia|exact N].
Qed.
(** a Write that is under way is the last one called *)
Definition one_writer (ops : list uop) (us : list upc) : Prop :=
  forall i j op u op', i < j -> nth_error ops i = Some op -> a_write op = true -> nth_error us i = Some u -> nth_error ops j = Some op' -> a_write op' = true ->
  exists r, u = UDone r.
Lemma perm_snoc {A} (a e z : list A) : length z <= 1 -> Permutation (a ++ e) (a ++ z) -> e = z.
Proof.
  intros L P. apply Permutation_app_inv_l in P. destruct z as [|x [|y z]]; [|now apply Permutation_length_1_inv, Permutation_sym|cbn in L; lia].
  now apply Permutation_nil, Permutation_sym.
Qed.
Lemma packets_app a b : packets (a ++ b) = packets a ++ packets b.
Proof. apply flat_map_app. Qed.
Lemma accepted1_one x : length (accepted1 x) <= 1.
Proof. destruct x as [op u]. unfold accepted1. destruct op; cbn; auto; destruct u as [| | |r]; cbn; auto; destruct r; cbn; auto. Qed.
Lemma in_turn_snoc c ls l : in_turn c (ls ++ [l]) -> in_turn c ls.
Proof. intros U pre op post a E. apply (U pre op (post ++ [l])). rewrite E, <- app_assoc. reflexivity. Qed.

(** what goes out is what the calls accepted, in the order of the calls *)
Lemma in_call_order m g o ls : forall c, run (start m g o) ls = Some c -> cfg_ok g -> Forall plain (calls ls) -> in_turn (start m g o) ls ->
  Forall (fun b => length b <= 1500) (packets (log c)) ->
  length (calls ls) = length (us c) /\ one_writer (calls ls) (us c) /\
  flat_map payload (packets (log c)) = map (pd_of g) (accepted (calls ls) (us c)).
Proof.
  induction ls as [|l ls IH] using rev_ind; intros c R Ok F U Sz.
  - injection R as <-. split; [reflexivity|]. split; [|reflexivity]. intros i j op u op' _ N. destruct i; discriminate.
  - pose proof (sent_payloads _ _ _ _ _ R Ok F Sz) as P. pose proof R as R0.
    apply run_snoc in R as (c1 & R1 & S). rewrite calls_app in *. apply Forall_app in F as [F1 F2].
    destruct (log_grows c1 l c S) as [es E].
    assert (Sz1 : Forall (fun b => length b <= 1500) (packets (log c1))) by (rewrite E, packets_app in Sz; apply Forall_app in Sz; apply Sz).
    destruct (IH c1 R1 Ok F1 (in_turn_snoc _ _ _ U) Sz1) as (Ln & W & Eq).
    assert (D : (exists op, l = LCall op) \/ (forall op, l <> LCall op)) by (destruct l; try (right; discriminate); left; eauto).
    destruct D as [(op & ->)|Nl].
    + cbn [calls flat_map app] in *. unfold step in S. destruct (crash c1); [discriminate|]. destruct (dial c1); try discriminate; injection S as <-; cb.
      split; [rewrite !app_length; cbn; lia|]. split.
      * intros i j x u y Lt Ni Wi Nu Nj Wj.
        assert (Li : i < length (calls ls)).
        { assert (j < length (calls ls ++ [op])) by (apply nth_error_Some; congruence). rewrite app_length in *. cbn in *. lia. }
        rewrite nth_error_app1 in Ni by exact Li. rewrite nth_error_app1 in Nu by lia.
        destruct (Nat.lt_ge_cases j (length (calls ls))) as [Lj|Lj].
        -- rewrite nth_error_app1 in Nj by exact Lj. exact (W i j x u y Lt Ni Wi Nu Nj Wj).
        -- rewrite nth_error_app2 in Nj by exact Lj. assert (op = y) as -> by (destruct (j - length (calls ls)) as [|k]; [now injection Nj|destruct k; discriminate]).
           exact (U ls y [] c1 eq_refl R1 Wj i x u Ni Wi Nu).
      * rewrite accepted_new by exact Ln. exact Eq.
    + replace (calls [l]) with (@nil uop) in * by (destruct l; try reflexivity; exfalso; eapply Nl; reflexivity). rewrite app_nil_r in *.
      destruct (us_step c1 l c S Nl) as [Us|(i & u & v & Nu & Us & D)].
      * rewrite Us in *. split; [exact Ln|]. split; [exact W|]. rewrite E, packets_app, flat_map_app in *. rewrite Eq in *.
        rewrite <- (app_nil_r (map _ _)) in P at 2. apply perm_snoc in P; [|cbn; lia]. rewrite P. apply app_nil_r.
      * assert (exists op, nth_error (calls ls) i = Some op) as [op No].
        { destruct (nth_error (calls ls) i) eqn:Z; [eauto|]. apply nth_error_None in Z. assert (i < length (us c1)) by (apply nth_error_Some; congruence). lia. }
        assert (Ac : accepted (calls ls) (us c) = accepted (calls ls) (us c1) ++ accepted1 (op, v)).
        { rewrite Us. eapply accepted_last; eauto. intros A j op' Lt Nj. destruct (a_write op') eqn:A'; [|reflexivity].
          destruct (W i j op u op' Lt No A Nu Nj A') as [r ->]. exfalso. eapply D; reflexivity. }
        split; [rewrite Us, upd_len; exact Ln|]. split.
        -- intros a b x w y Lt Na Wa Nw Nb Wb. rewrite Us in Nw. destruct (Nat.eq_dec i a) as [->|Ne].
           ++ exfalso. destruct (W a b x u y Lt Na Wa Nu Nb Wb) as [r ->]. eapply D; reflexivity.
           ++ rewrite upd_nth_other in Nw by exact Ne. exact (W a b x w y Lt Na Wa Nw Nb Wb).
        -- rewrite Ac in *. rewrite E, packets_app, flat_map_app, map_app in *. rewrite Eq in *. f_equal.
           apply perm_snoc in P; [exact P|]. rewrite map_length. apply accepted1_one.
Qed.

Lemma picked_flat_map {A B} (f : A -> list B) a b : picked a b -> picked (flat_map f a) (flat_map f b).
Proof.
  induction 1 as [|x a b H IH|x a b H IH]; [constructor| |]; cbn [flat_map].
  - apply picked_app; [apply picked_refl|exact IH].
  - change (flat_map f a) with ([] ++ flat_map f a). apply picked_app; [apply picked_nil|exact IH].
Qed.
Lemma picked_Forall {A} (P : A -> Prop) a b : picked a b -> Forall P b -> Forall P a.
Proof. induction 1; intros F; auto; inversion F; subst; auto. Qed.
Lemma picked_prefix {A} (a r : list A) : picked a (a ++ r).
Proof. rewrite <- (app_nil_r a) at 1. apply picked_app; [apply picked_refl|apply picked_nil]. Qed.

Lemma order_end_to_end ma ga oa lsa a mb gb ob lsb b :
  run (start ma ga oa) lsa = Some a -> run (start mb gb ob) lsb = Some b -> cfg_ok ga -> Forall plain (calls lsa) -> in_turn (start ma ga oa) lsa ->
  Forall (fun p => length p <= 1500) (packets (log a)) -> picked (arrivals lsb) (packets (log a)) -> unhurried (start mb gb ob) lsb ->
  picked (delivered (log b)) (map (pd_of ga) (accepted (calls lsa) (us a))).
Proof.
  intros Ra Rb Ok Pl It Sz Ar Un. destruct (in_call_order _ _ _ _ _ Ra Ok Pl It Sz) as (_ & _ & <-).
  eapply picked_trans; [exact (order_kept _ _ _ _ _ Rb Un)|]. apply picked_flat_map.
  destruct (read_arrived _ _ _ _ _ Rb (picked_Forall _ _ _ Ar Sz)) as (r & E & _).
  eapply picked_trans; [|exact Ar]. rewrite E. apply picked_prefix.
Qed.
Lemma order_end_to_end_all ma ga oa lsa a mb gb ob lsb b :
  run (start ma ga oa) lsa = Some a -> run (start mb gb ob) lsb = Some b -> cfg_ok ga -> Forall plain (calls lsa) -> in_turn (start ma ga oa) lsa ->
  Forall (fun p => length p <= 1500) (packets (log a)) -> arrivals lsb = packets (log a) -> unhurried (start mb gb ob) lsb ->
  crash b = None -> ctxd b = false -> mon b = MRead -> Forall (fun d => d = DDone) (ds b) -> inq b = [] -> refused_data (log b) = [] ->
  delivered (log b) ++ dq b = map (pd_of ga) (accepted (calls lsa) (us a)).
Proof.
  intros Ra Rb Ok Pl It Sz Ar Un C X M D Q Rf. destruct (in_call_order _ _ _ _ _ Ra Ok Pl It Sz) as (_ & _ & <-).
  rewrite (order_exact _ _ _ _ _ Rb Un C X M D Rf).
  destruct (read_arrived _ _ _ _ _ Rb) as (r & E & Er); [rewrite Ar; exact Sz|]. rewrite (Er Q), app_nil_r in E. congruence.
Qed.
