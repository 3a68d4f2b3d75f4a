(** What the calls of Read and ReadPD return is what the log says was delivered. *)
From Verif Require Import GoBase BaseProofs ParamsModel MessagesModel ConfigModel
  ConnModel ConnSpec ConnBase ConnInv ConnTrace ConnUser ConnStable ConnData ConnPair ConnE2E GainSpec.
From Coq Require Import Arith Lia Permutation.
Open Scope nat_scope.

Definition aside (v : upc) : Prop :=
  match v with UGo (OpRead _) | UGo OpReadPD | URecv _ | UDone (RRead _ _) | UDone (RPD _) => False | _ => True end.
Definition goes (u v : upc) (ps : list pdpayload) : Prop :=
  match u with
  | UGo (OpRead b) => (v = URecv (Some b) \/ v = UDone RNotEstablished) /\ ps = []
  | UGo OpReadPD => (v = URecv None \/ v = UDone RNotEstablished) /\ ps = []
  | URecv buf => (exists pd, v = UDone (read_result buf pd) /\ ps = [pd]) \/ (v = UDone RNotEstablished /\ ps = [])
  | UDone _ => False
  | _ => aside v /\ ps = []
  end.
Lemma gain_step c l c' : step c l = Some c' -> (forall op, l <> LCall op) ->
  (us c' = us c /\ delivered (log c') = delivered (log c)) \/
  (exists i u v ps, nth_error (us c) i = Some u /\ us c' = upd (us c) i v /\ goes u v ps /\ delivered (log c') = delivered (log c) ++ ps).
Proof.
  intros S Nc. apply step_stepR in S as [C S].
  destruct S; try (left; split; [reflexivity|]; cb; rewrite ?delivered_app; cbn [delivered flat_map]; rewrite ?app_nil_r; reflexivity);
    try (right; do 4 eexists; split; [eassumption|]; split; [cb; reflexivity|]; split; [cbn; eauto 8; fail|]; cb; rewrite ?delivered_app; cbn [delivered flat_map]; rewrite ?app_nil_r; reflexivity).
  - left. rewrite state_update_eq. cb. rewrite delivered_app. cbn [delivered flat_map]. now rewrite app_nil_r.
  - left. bfields (set_dial DOk c). cb. split; [exact B15|]. rewrite B20. reflexivity.
  - left. fields c. bfields (closing c). cb. split; [congruence|]. rewrite B20, K20, delivered_app. cbn. now rewrite app_nil_r.
  - left. destruct (hba c); auto.
  - exfalso. eapply Nc. reflexivity.
  - right. exists i, (UGo op), u, []. split; [assumption|]. split; [reflexivity|]. split; [|cb; now rewrite app_nil_r].
    destruct op; cbn in *; try discriminate; match goal with K : Some _ = Some _ |- _ => injection K as <- end; cbn; auto.
  - right. exists i, (UGo op), (UDone RNotEstablished), []. split; [assumption|]. split; [reflexivity|]. split; [|cb; now rewrite app_nil_r].
    destruct op; cbn in *; try discriminate; auto.
  - right. fields c.
    exists i, (UGo OpClose), (UDone (RClosed (sopen c))), []. split; [assumption|]. split; [cb; congruence|]. split; [cbn; auto|].
    cb. rewrite K20, delivered_app. reflexivity.
  - right. exists i, (URecv buf), (UDone RNotEstablished), []. split; [assumption|]. split; [reflexivity|]. split; [cbn; auto|]. cb. now rewrite app_nil_r.
  - left. cb. split; [reflexivity|]. rewrite delivered_app. destruct H0 as [->|[->|(o & e & _ & ->)]]; cbn; now rewrite app_nil_r.
Qed.

(** ** The calls and what they have given so far *)
Inductive track : uop -> upc -> list pdpayload -> Prop :=
| K_go b : track (OpRead b) (UGo (OpRead b)) []
| K_wait b : track (OpRead b) (URecv (Some b)) []
| K_got b pd : track (OpRead b) (UDone (read_result (Some b) pd)) [pd]
| K_go_pd : track OpReadPD (UGo OpReadPD) []
| K_wait_pd : track OpReadPD (URecv None) []
| K_got_pd pd : track OpReadPD (UDone (read_result None pd)) [pd]
| K_no op : track op (UDone RNotEstablished) []
| K_aside op u : a_read op = false -> aside u -> track op u [].
Inductive tracks : list uop -> list upc -> list (list pdpayload) -> Prop :=
| KS_nil : tracks [] [] []
| KS_cons op u ps ops us pss : track op u ps -> tracks ops us pss -> tracks (op :: ops) (u :: us) (ps :: pss).
Lemma track_gives op u ps : track op u ps -> gives op u ps.
Proof.
  destruct 1 as [b|b|b pd| | |pd|op|op u Hr Ha]; try (apply G_nothing; discriminate).
  - apply G_read, read_result_as.
  - apply G_read_pd.
  - apply G_nothing; intros; intros ->; exact Ha.
Qed.
Lemma tracks_gains ops us pss : tracks ops us pss -> gains ops us pss.
Proof. induction 1; constructor; auto. now apply track_gives. Qed.
Lemma tracks_len ops us pss : tracks ops us pss -> length ops = length us.
Proof. induction 1; cbn; congruence. Qed.
Lemma track_goes op u ps v qs : track op u ps -> goes u v qs -> ps = [] /\ track op v qs /\ (a_read op = false -> qs = []).
Proof.
  destruct 1 as [b|b|b pd| | |pd|op|op u Hr Ha]; cbn [goes]; try contradiction.
  - intros [[->| ->] ->]; repeat split; try constructor.
  - intros [(pd & -> & ->)|[-> ->]]; repeat split; try constructor; discriminate.
  - intros [[->| ->] ->]; repeat split; try constructor.
  - intros [(pd & -> & ->)|[-> ->]]; repeat split; try constructor; discriminate.
  - intros G. destruct u as [op'| |s m|r]; try contradiction.
    + destruct op'; cbn in Ha; try contradiction; destruct G as [Av ->]; repeat split; now apply K_aside.
    + destruct G as [Av ->]; repeat split; now apply K_aside.
Qed.
Lemma no_reads ops us pss : tracks ops us pss -> (forall j op, nth_error ops j = Some op -> a_read op = false) -> concat pss = [].
Proof.
  induction 1 as [|op u ps ops us pss T _ IH]; intros H; [reflexivity|]. cbn [concat].
  rewrite IH by (intros j o N; exact (H (S j) o N)). rewrite app_nil_r. specialize (H 0 op eq_refl).
  destruct T; try discriminate; reflexivity.
Qed.
Lemma tracks_upd ops us pss : tracks ops us pss -> forall i u v qs, nth_error us i = Some u -> goes u v qs ->
  exists op pss', nth_error ops i = Some op /\ tracks ops (upd us i v) pss' /\ Permutation (concat pss') (concat pss ++ qs) /\
    ((a_read op = true -> forall j op', i < j -> nth_error ops j = Some op' -> a_read op' = false) -> concat pss' = concat pss ++ qs).
Proof.
  induction 1 as [|op u0 ps ops us pss T Ts IH]; intros i u v qs N G; [destruct i; discriminate|].
  destruct i as [|i]; cbn [nth_error upd] in *.
  - injection N as ->. destruct (track_goes _ _ _ _ _ T G) as (-> & T' & Z). exists op, (qs :: pss).
    split; [reflexivity|]. split; [constructor; assumption|]. cbn [concat app]. split; [apply Permutation_app_comm|]. intros L.
    destruct (a_read op) eqn:A.
    + rewrite (no_reads _ _ _ Ts); [now rewrite app_nil_r|]. intros j o Nj. apply (L eq_refl (S j)); [lia|exact Nj].
    + rewrite (Z eq_refl). now rewrite app_nil_r.
  - destruct (IH i u v qs N G) as (o & pss' & No & T' & P & E). exists o, (ps :: pss'). split; [exact No|]. split; [constructor; assumption|].
    cbn [concat]. rewrite <- app_assoc. split; [now apply Permutation_app_head|]. intros L. f_equal. apply E. intros A j o' Lt Nj. apply (L A (S j)); [lia|exact Nj].
Qed.
Lemma tracks_call ops us pss op : tracks ops us pss -> exists pss', tracks (ops ++ [op]) (us ++ [UGo op]) pss' /\ concat pss' = concat pss.
Proof.
  induction 1 as [|o u ps ops us pss T Ts (pss' & T' & E)]; cbn [app].
  - exists [[]]. split; [|reflexivity]. constructor; [|constructor]. destruct op; try constructor; reflexivity.
  - exists (ps :: pss'). split; [now constructor|]. cbn. now rewrite E.
Qed.

Lemma calls_snoc ls l : calls (ls ++ [l]) = calls ls ++ match l with LCall op => [op] | _ => [] end.
Proof. unfold calls. rewrite flat_map_app. cbn. now rewrite app_nil_r. Qed.
Lemma call_or_not l : (exists op, l = LCall op) \/ (forall op, l <> LCall op).
Proof. destruct l; try (right; discriminate). left; eauto. Qed.
Lemma not_call l : (forall op, l <> LCall op) -> match l with LCall op => [op] | _ => [] end = [].
Proof. intros H. destruct l; try reflexivity. exfalso. eapply H; reflexivity. Qed.
Lemma called c op c' : step c (LCall op) = Some c' -> us c' = us c ++ [UGo op] /\ log c' = log c.
Proof. unfold step. destruct (crash c); [discriminate|]. destruct (dial c); try discriminate. intros [= <-]. auto. Qed.

Lemma gained m g o ls : forall c, run (start m g o) ls = Some c ->
  exists pss, tracks (calls ls) (us c) pss /\ Permutation (concat pss) (delivered (log c)).
Proof.
  induction ls as [|l ls IH] using rev_ind; intros c R.
  - injection R as <-. exists []. split; constructor.
  - apply run_snoc in R as (c1 & R1 & S). destruct (IH c1 R1) as (pss & T & P). rewrite calls_snoc. destruct (call_or_not l) as [(op & ->)|Nl].
    + destruct (called _ _ _ S) as [-> ->]. destruct (tracks_call _ _ _ op T) as (pss' & T' & E). exists pss'. now rewrite E.
    + rewrite (not_call l Nl), app_nil_r. destruct (gain_step _ _ _ S Nl) as [[-> ->]|(i & u & v & ps & N & -> & G & ->)]; [eauto|].
      destruct (tracks_upd _ _ _ T i u v ps N G) as (op & pss' & _ & T' & P' & _). exists pss'. split; [exact T'|]. rewrite P'. now apply Permutation_app_tail.
Qed.
(** a Read that is under way is the last one called *)
Definition one_reader (ops : list uop) (us : list upc) : Prop :=
  forall i j op u op', i < j -> nth_error ops i = Some op -> a_read op = true -> nth_error us i = Some u -> nth_error ops j = Some op' -> a_read op' = true ->
  exists r, u = UDone r.
Lemma reads_in_turn_snoc c ls l : reads_in_turn c (ls ++ [l]) -> reads_in_turn c ls.
Proof. intros U pre op post a E. apply (U pre op (post ++ [l])). rewrite E, <- app_assoc. reflexivity. Qed.
Lemma gained_in_turn m g o ls : forall c, run (start m g o) ls = Some c -> reads_in_turn (start m g o) ls ->
  exists pss, tracks (calls ls) (us c) pss /\ one_reader (calls ls) (us c) /\ concat pss = delivered (log c).
Proof.
  induction ls as [|l ls IH] using rev_ind; intros c R U.
  - injection R as <-. exists []. split; [constructor|]. split; [|reflexivity]. intros i j op u op' _ N. destruct i; discriminate.
  - apply run_snoc in R as (c1 & R1 & S). destruct (IH c1 R1 (reads_in_turn_snoc _ _ _ U)) as (pss & T & W & E). rewrite calls_snoc.
    pose proof (tracks_len _ _ _ T) as Ln. destruct (call_or_not l) as [(op & ->)|Nl].
    + destruct (called _ _ _ S) as [-> ->]. destruct (tracks_call _ _ _ op T) as (pss' & T' & E'). exists pss'. split; [exact T'|]. split; [|congruence].
      intros i j x u y Lt Ni Wi Nu Nj Wj.
      assert (Li : i < length (calls ls)).
      { assert (j < length (calls ls ++ [op])) by (apply nth_error_Some; congruence). rewrite app_length in *. cbn in *. lia. }
      rewrite nth_error_app1 in Ni by exact Li. rewrite nth_error_app1 in Nu by lia.
      destruct (Nat.lt_ge_cases j (length (calls ls))) as [Lj|Lj].
      * rewrite nth_error_app1 in Nj by exact Lj. exact (W i j x u y Lt Ni Wi Nu Nj Wj).
      * rewrite nth_error_app2 in Nj by exact Lj. assert (op = y) as -> by (destruct (j - length (calls ls)) as [|k]; [now injection Nj|destruct k; discriminate]).
        exact (U ls y [] c1 eq_refl R1 Wj i x u Ni Wi Nu).
    + rewrite (not_call l Nl), app_nil_r. destruct (gain_step _ _ _ S Nl) as [[-> ->]|(i & u & v & ps & N & -> & G & ->)]; [eauto|].
      destruct (tracks_upd _ _ _ T i u v ps N G) as (op & pss' & No & T' & _ & E').
      assert (D : forall r, u <> UDone r) by (intros r ->; exact G).
      exists pss'. split; [exact T'|]. split.
      * intros a b x w y Lt Na Wa Nw Nb Wb. destruct (Nat.eq_dec i a) as [->|Ne].
        -- exfalso. destruct (W a b x u y Lt Na Wa N Nb Wb) as [r ->]. eapply D; reflexivity.
        -- rewrite upd_nth_other in Nw by exact Ne. exact (W a b x w y Lt Na Wa Nw Nb Wb).
      * rewrite E' , E; [reflexivity|]. intros A j op' Lt Nj. destruct (a_read op') eqn:A'; [|reflexivity].
        destruct (W i j op u op' Lt No A N Nj A') as [r ->]. exfalso. eapply D; reflexivity.
Qed.
