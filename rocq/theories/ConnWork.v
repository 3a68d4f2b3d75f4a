(** The goroutines of a connection never spin, and answer each packet with at most two messages. *)
From Verif Require Import GoBase ParamsModel BaseProofs MessagesModel ConfigModel ConnModel ConnSpec ConnBase ConnInv ConnUser WorkSpec.
From Coq Require Import Arith Lia.
Open Scope nat_scope.

(** * Sums over the goroutines *)
Definition sum {A} (w : A -> nat) (l : list A) : nat := list_sum (map w l).
Lemma sum_app {A} (w : A -> nat) l r : sum w (l ++ r) = sum w l + sum w r.
Proof. unfold sum. now rewrite map_app, list_sum_app. Qed.
Lemma sum_nil {A} (w : A -> nat) : sum w [] = 0.
Proof. reflexivity. Qed.
Lemma sum_one {A} (w : A -> nat) x : sum w [x] = w x.
Proof. unfold sum. cbn. lia. Qed.
Lemma sum_cons {A} (w : A -> nat) x l : sum w (x :: l) = w x + sum w l.
Proof. reflexivity. Qed.
Lemma sum_upd {A} (w : A -> nat) l i x y : nth_error l i = Some x -> sum w (upd l i y) + w x = sum w l + w y.
Proof.
  revert i. induction l as [|z l IH]; intros [|i] H; try discriminate.
  - inversion H. cbn [upd]. rewrite !sum_cons. lia.
  - cbn [upd]. rewrite !sum_cons. specialize (IH i H). lia.
Qed.

(** * What is left to do *)
Definition w_mon (m : mpc) : nat :=
  match m with MExit => 0 | MClose => 1 | MSelect => 2 | MErr _ _ | MRead => 3 | MInit _ | MEst => 4 | MUpd _ => 5 end.
Definition w_ins (x : instr) : nat :=
  match x with
  | IParse _ => 12 | ISig _ => 11 | IHandle _ => 4 | IWrite _ => 3 | IErr _ => 2 | IBeatAck => 1 | ICur => 5 | ISt _ => 4
  end.
Definition w_data (d : dpc) : nat := match d with DCheck _ => 4 | DPd _ => 3 | DErr _ => 2 | DSend _ => 1 | DDone => 0 end.
Definition w_hb (b : bpc) : nat :=
  match b with BStart => 6 | BWait | BRun => 5 | BRand => 4 | BWrite _ => 3 | BStore _ | BErr _ => 2 | BAck | BSleep => 1 | BDone => 0 end.
Definition w_user (u : upc) : nat := match u with UGo (OpWrite _ _ | OpWritePD _ _) => 3 | UGo _ => 2 | URecv _ | USend _ _ => 1 | UDone _ => 0 end.
Definition w_dial (d : dialst) : nat := match d with DWait => 1 | _ => 0 end.
Definition work (c : conn) : nat :=
  w_mon (mon c) + sum (sum w_ins) (hs c) + sum w_data (ds c) + w_hb (hb c) + sum w_user (us c) + w_dial (dial c) +
  (if ini c then 4 else 0) + sum (fun p => 12 * pieces p) (inq c) + (match crash c with None => 1 | Some _ => 0 end).
Definition did (l : label) : nat := if inner l then 1 else 0.

Lemma pieces_rest p : skipn bufsize p <> [] -> pieces (skipn bufsize p) + 1 = pieces p.
Proof.
  intros H. assert (L : length p > 1500).
  { destruct (le_lt_dec (length p) 1500); [|assumption]. exfalso. apply H. apply skipn_all2. unfold bufsize. exact l. }
  unfold pieces. rewrite skipn_length. unfold bufsize. replace (length p - 1) with ((length p - 1500 - 1) + 1 * 1500) by lia.
  rewrite Nat.div_add by lia. lia.
Qed.
Lemma plan_work m d l : plan m = (d, l) -> sum w_ins l + (match d with Some _ => 4 | None => 0 end) <= 10.
Proof. intros P. shapes m; rewrite P0 in P || rewrite P1 in P || idtac; inversion P; subst; cbn; lia. Qed.
Lemma work_same c c' : mon c' = mon c -> hs c' = hs c -> ds c' = ds c -> hb c' = hb c -> us c' = us c -> dial c' = dial c -> ini c' = ini c ->
  inq c' = inq c -> crash c' = crash c -> work c' = work c.
Proof. unfold work. intros -> -> -> -> -> -> -> -> ->. reflexivity. Qed.
Lemma work_broadcast c : work (broadcast c) = work c.
Proof. unfold broadcast. destruct (hb c) eqn:E; try reflexivity. unfold work. cb. now rewrite E. Qed.
Lemma work_closing c : work (closing c) = work c.
Proof. destruct (closing_fields c) as (?&?&?&?&?&?&?&?&?&?&?&?&?&?&?&?&?&?&?&?). apply work_same; auto. Qed.
Lemma upd_mon_work s c : w_mon (upd_mon s c) <= 4.
Proof. unfold upd_mon. destruct s; cbn; try (destruct (mode c); cbn; lia); try lia. destruct (st_eqb _ _); cbn; lia. Qed.

Lemma work_step c l c' : step c l = Some c' -> work c' + did l <= work c + worth l.
Proof.
  intros S. apply step_stepR in S as [C S]. 
  assert (UH : forall i x k z, nth_error (hs c) i = Some (x :: k) -> sum (sum w_ins) (upd (hs c) i z) + w_ins x + sum w_ins k = sum (sum w_ins) (hs c) + sum w_ins z).
  { intros i x k z N. pose proof (sum_upd (sum w_ins) (hs c) i (x :: k) z N) as E. rewrite sum_cons in E. lia. }
  assert (UD : forall i x z, nth_error (ds c) i = Some x -> sum w_data (upd (ds c) i z) + w_data x = sum w_data (ds c) + w_data z) by (intros; now apply sum_upd).
  assert (UU : forall i x z, nth_error (us c) i = Some x -> sum w_user (upd (us c) i z) + w_user x = sum w_user (us c) + w_user z) by (intros; now apply sum_upd).
  destruct S; unfold did, worth; cbn [inner];
    try (match goal with H : nth_error (hs c) ?i = Some _ |- _ => pose proof (fun z => UH i _ _ z H) as U; clear UH UD UU end);
    try (match goal with H : nth_error (ds c) ?i = Some _ |- _ => pose proof (fun z => UD i _ z H) as U; clear UH UD UU end);
    try (match goal with H : nth_error (us c) ?i = Some _ |- _ => pose proof (fun z => UU i _ z H) as U; clear UH UD UU end);
    try (match goal with |- context [hgo ?i ?z _] => specialize (U z) end);
    try (match goal with |- context [dgo ?i ?z _] => specialize (U z) end);
    try (match goal with |- context [ugo ?i ?z _] => specialize (U z) end);
    try (unfold work, hgo, dgo, ugo; cb; rewrite ?sum_app, ?sum_one, ?sum_cons, ?sum_nil in *; cbn [w_mon w_ins w_data w_hb w_user w_dial] in *;
         repeat match goal with H : mon c = _ |- _ => rewrite H; clear H end; repeat match goal with H : hb c = _ |- _ => rewrite H; clear H end;
         repeat match goal with H : dial c = _ |- _ => rewrite H; clear H end; repeat match goal with H : ini c = _ |- _ => rewrite H; clear H end;
         cbn [w_mon w_ins w_data w_hb w_user w_dial] in *; lia).
  - rewrite state_update_eq. pose proof (upd_mon_work s c). unfold work. cb. rewrite H. cbn [w_mon]. lia.
  - replace (work (set_mon MRead (broadcast (set_dial DOk c)))) with (work (broadcast (set_mon MRead (set_dial DOk c))))
      by (unfold broadcast; cb; destruct (hb c); reflexivity).
    rewrite work_broadcast. unfold work. cb. rewrite H, H1. cbn [w_mon w_dial]. lia.
  - assert (Q : sum (fun p => 12 * pieces p) (match skipn bufsize p with [] => q | _ => skipn bufsize p :: q end) + 12 <= sum (fun p => 12 * pieces p) (inq c)).
    { rewrite H1, sum_cons. pose proof (pieces_rest p) as PR. destruct (skipn bufsize p) as [|x r]; [unfold pieces; lia|].
      rewrite sum_cons. rewrite <- PR by discriminate. lia. }
    unfold work. cb. rewrite sum_app, sum_one, sum_one. rewrite H. cbn [w_mon w_ins]. lia.
  - replace (work (set_mon MExit (broadcast (closing c)))) with (work (broadcast (set_mon MExit (closing c))))
      by (unfold broadcast; cb; destruct (hb (closing c)); reflexivity).
    rewrite work_broadcast. rewrite <- (work_closing c). destruct (closing_fields c) as (?&?&?&?&?&?&?&?&?&M&?&?&?&?&?&?&?&?&?&?).
    unfold work. cb. rewrite M, H. cbn [w_mon]. lia.
  - apply plan_work in H2. cbv beta iota in H2. unfold work, hgo. cb. cbn [w_ins] in U. lia.
  - apply plan_work in H2. cbv beta iota in H2. unfold work, hgo. cb. rewrite sum_app, sum_one. cbn [w_ins w_data] in *. lia.
  - unfold work. cb. rewrite H. destruct (hb_on (cfg c)); cbn [w_hb]; lia.
  - unfold work. cb. rewrite H. cbn [w_hb]. destruct (hba c); cb; lia.
  - unfold work. cb. destruct H as [-> | ->]; cbn [w_hb]; lia.
  - unfold work. cb. rewrite sum_app, sum_one. assert (w_user (UGo op) <= 3) by (destruct op; cbn; lia). lia.
  - unfold work, ugo. cb. assert (w_user u + 1 <= w_user (UGo op)) by (destruct op; inversion H0; cbn; lia). lia.
  - unfold work, ugo. cb. assert (2 <= w_user (UGo op)) by (destruct op; cbn; lia). change (w_user (UDone RNotEstablished)) with 0 in U. lia.
  - rewrite <- (work_closing c). destruct (closing_fields c) as (?&?&?&?&?&?&?&?&?&?&?&?&?&?&Us&?&?&?&?&?).
    unfold work, ugo. cb. rewrite Us. cbn [w_user] in U. lia.
  - unfold work. cb. rewrite C. destruct (inner l); lia.
Qed.
Lemma work_run c ls c' : run c ls = Some c' -> work c' + length (filter inner ls) <= work c + worths ls.
Proof.
  revert c. induction ls as [|l ls IH]; intros c R; cbn [run] in R; [inversion R; cbn; lia|].
  destruct (step c l) as [c1|] eqn:S; [|discriminate]. specialize (IH c1 R). apply work_step in S.
  unfold worths in *. cbn [map list_sum fold_right]. fold (list_sum (map worth ls)). cbn [filter]. unfold did in S. destruct (inner l); cbn [length]; lia.
Qed.
Lemma work_start m g o : work (start m g o) = 14.
Proof. reflexivity. Qed.
Lemma steps_bounded m g o ls c : run (start m g o) ls = Some c -> length (filter inner ls) <= 14 + worths ls.
Proof. intros R. apply work_run in R. rewrite work_start in R. lia. Qed.
(** in particular, left alone a connection comes to rest *)
Lemma alone_rests c : exists n, forall ls c', run c ls = Some c' -> forallb inner ls = true -> length ls <= n.
Proof.
  exists (work c). intros ls c' R F. apply work_run in R.
  assert (E : filter inner ls = ls /\ worths ls = 0).
  { clear R. induction ls as [|l ls IH]; [split; reflexivity|]. cbn [forallb] in F. apply andb_true_iff in F as [F1 F2]. destruct (IH F2) as [I1 I2].
    cbn [filter]. rewrite F1, I1. split; [reflexivity|]. unfold worths in *. cbn [map list_sum fold_right]. fold (list_sum (map worth ls)). rewrite I2.
    destruct l; cbn in *; try discriminate; reflexivity. }
  destruct E as [E1 E2]. rewrite E1, E2 in R. lia.
Qed.

(** * What may still be said *)
Definition q_err (e : cerr) : nat := match e with ERand | EFailedToWriteSignal | EHeartbeatExpired => 0 | _ => 1 end.
Definition q_cl (c : conn) : nat := match mode c with Client => 1 | Server => 0 end.
Definition q_mon (k : nat) (m : mpc) : nat := match m with MErr _ e => q_err e | MInit _ => 1 | MUpd _ => k | _ => 0 end.
Definition q_ins (k : nat) (x : instr) : nat :=
  match x with IParse _ | ISig _ => 1 + k | IHandle _ | IWrite _ => 1 | IErr e => q_err e | IBeatAck => 0 | ICur | ISt _ => k end.
Definition q_data (d : dpc) : nat := match d with DCheck _ | DPd _ => 1 | DErr e => q_err e | _ => 0 end.
Definition q_hb (b : bpc) : nat := match b with BErr e => q_err e | _ => 0 end.
Definition unsaid (c : conn) : nat :=
  q_mon (q_cl c) (mon c) + sum (sum (q_ins (q_cl c))) (hs c) + sum q_data (ds c) + q_hb (hb c) + (if ini c then q_cl c else 0).
Definition per (m : cmode) : nat := match m with Client => 2 | Server => 1 end.
Definition first (m : cmode) : nat := match m with Client => 1 | Server => 0 end.
Definition said (c : conn) : Prop := answers (log c) + unsaid c <= first (mode c) + per (mode c) * packets (log c).
Lemma answers_app a b : answers (a ++ b) = answers a + answers b.
Proof. unfold answers. now rewrite filter_app, app_length. Qed.
Lemma packets_app a b : packets (a ++ b) = packets a + packets b.
Proof. unfold packets. now rewrite filter_app, app_length. Qed.
Lemma plan_unsaid k m d l : plan m = (d, l) -> sum (q_ins k) l + (match d with Some _ => 1 | None => 0 end) <= 1 + k.
Proof. intros P. shapes m; rewrite P0 in P || rewrite P1 in P || idtac; inversion P; subst; cbn; lia. Qed.
Lemma unsaid_broadcast c : unsaid (broadcast c) = unsaid c.
Proof. unfold broadcast. destruct (hb c) eqn:E; try reflexivity. unfold unsaid. cb. now rewrite E. Qed.
Lemma unsaid_closing c : unsaid (closing c) = unsaid c /\ answers (log (closing c)) = answers (log c) /\ packets (log (closing c)) = packets (log c).
Proof.
  destruct (closing_fields c) as (Mo&?&?&?&?&?&?&?&?&M&B&I&H&D&?&?&?&?&?&L). unfold unsaid, q_cl. rewrite Mo, M, B, I, H, D, L, answers_app, packets_app.
  repeat split; cbn; lia.
Qed.
Lemma upd_mon_unsaid s c : q_mon (q_cl c) (upd_mon s c) <= q_cl c.
Proof. unfold upd_mon, q_cl. destruct s; cbn; try (destruct (mode c); cbn; lia); try lia. destruct (st_eqb _ _); cbn; lia. Qed.
Lemma said_step c l c' : step c l = Some c' ->
  mode c' = mode c /\ answers (log c') + unsaid c' + per (mode c) * packets (log c) <= answers (log c) + unsaid c + per (mode c) * packets (log c').
Proof.
  intros S. split; [now apply static_step in S as (? & _)|]. apply step_stepR in S as [C S].
  set (k := q_cl c). assert (K : per (mode c) = 1 + k) by (unfold k, q_cl; destruct (mode c); reflexivity).
  assert (UH : forall i x k0 z, nth_error (hs c) i = Some (x :: k0) -> sum (sum (q_ins k)) (upd (hs c) i z) + q_ins k x + sum (q_ins k) k0 = sum (sum (q_ins k)) (hs c) + sum (q_ins k) z).
  { intros i x k0 z N. pose proof (sum_upd (sum (q_ins k)) (hs c) i (x :: k0) z N) as E. rewrite sum_cons in E. lia. }
  assert (UD : forall i x z, nth_error (ds c) i = Some x -> sum q_data (upd (ds c) i z) + q_data x = sum q_data (ds c) + q_data z) by (intros; now apply sum_upd).
  destruct S;
    try (match goal with H : nth_error (hs c) ?i = Some _ |- _ => pose proof (fun z => UH i _ _ z H) as U; clear UH UD end);
    try (match goal with H : nth_error (ds c) ?i = Some _ |- _ => pose proof (fun z => UD i _ z H) as U; clear UH UD end);
    try (match goal with |- context [hgo ?i ?z _] => specialize (U z) end);
    try (match goal with |- context [dgo ?i ?z _] => specialize (U z) end);
    try (unfold unsaid, hgo, dgo, ugo; cb; unfold q_cl in *; cb; fold (q_cl c) in *; fold k; rewrite ?answers_app, ?packets_app; cbn [answers packets filter is_answer is_read length];
         rewrite ?sum_app, ?sum_one, ?sum_cons, ?sum_nil in *; cbn [q_mon q_ins q_data q_hb q_err] in *;
         repeat match goal with H : mon c = _ |- _ => rewrite H; clear H end; repeat match goal with H : hb c = _ |- _ => rewrite H; clear H end;
         repeat match goal with H : ini c = _ |- _ => rewrite H; clear H end;
         cbn [q_mon q_ins q_data q_hb q_err] in *; lia).
  - assert (Q : q_err e = 1) by (destruct e; cbn in H0; try discriminate; reflexivity).
    unfold unsaid. cb. fold (q_cl c) in *. unfold q_cl at 1 2 3. cb. fold (q_cl c). fold k. rewrite H, !answers_app, !packets_app. cbn [answers packets filter is_answer is_read length q_mon]. lia.
  - rewrite state_update_eq. pose proof (upd_mon_unsaid s c) as Q. unfold unsaid. cb. unfold q_cl at 1 2 3. cb. fold (q_cl c). fold k. fold k in Q. rewrite H, !answers_app, !packets_app.
    cbn [answers packets filter is_answer is_read length q_mon]. lia.
  - replace (unsaid (set_mon MRead (broadcast (set_dial DOk c)))) with (unsaid (broadcast (set_mon MRead (set_dial DOk c))))
      by (unfold broadcast; cb; destruct (hb c); reflexivity).
    rewrite unsaid_broadcast. destruct (broadcast_fields (set_dial DOk c)) as (?&?&?&?&?&?&?&?&?&?&?&?&?&?&?&?&?&?&?&L). cb. rewrite L.
    unfold unsaid. cb. unfold q_cl at 1 2 3. cb. fold (q_cl c). fold k. rewrite H. cbn [q_mon]. lia.
  - replace (unsaid (set_mon MExit (broadcast (closing c)))) with (unsaid (broadcast (set_mon MExit (closing c))))
      by (unfold broadcast; cb; destruct (hb (closing c)); reflexivity).
    rewrite unsaid_broadcast. destruct (broadcast_fields (closing c)) as (?&?&?&?&?&?&?&?&?&?&?&?&?&?&?&?&?&?&?&L). cb. rewrite L.
    destruct (unsaid_closing c) as (U & A & P). rewrite A, P, <- U. assert (unsaid (set_mon MExit (closing c)) <= unsaid (closing c)).
    { unfold unsaid. cb. unfold q_cl at 1 2 3. cb. fold (q_cl (closing c)). cbn [q_mon]. lia. }
    lia.
  - apply (plan_unsaid k) in H2. cbv beta iota in H2. unfold unsaid, hgo. cb. unfold q_cl at 1 2 3. cb. fold (q_cl c). fold k. cbn [q_ins] in U. lia.
  - apply (plan_unsaid k) in H2. cbv beta iota in H2. unfold unsaid, hgo. cb. unfold q_cl at 1 2 3. cb. fold (q_cl c). fold k. rewrite sum_app, sum_one.
    cbn [q_ins q_data] in *. lia.
  - unfold unsaid, hgo. cb. unfold q_cl at 1 2 3. cb. fold (q_cl c). fold k. rewrite sum_cons in U. assert (q_err e <= 1) by (destruct e; cbn; lia).
    cbn [q_ins] in *. lia.
  - unfold unsaid. cb. unfold q_cl at 1 2 3. cb. fold (q_cl c). fold k. destruct (hb_on (cfg c)); cbn [q_hb]; lia.
  - unfold unsaid. cb. unfold q_cl. cb. destruct (hba c); cb; fold (q_cl c); fold k; cbn [q_hb]; lia.
  - destruct (unsaid_closing c) as (U & A & P). unfold ugo. cb. rewrite A, P, <- U. apply Nat.le_refl.
  - assert (A : answers es = 0 /\ packets es = 0) by (destruct H0 as [-> | [-> | (o & e & _ & ->)]]; split; reflexivity).
    destruct A as [A P]. cb. rewrite answers_app, packets_app, A, P, !Nat.add_0_r. apply Nat.le_refl.
Qed.
Lemma answers_run m g o ls c : run (start m g o) ls = Some c -> answers (log c) <= first m + per m * packets (log c).
Proof.
  intros R. assert (H : said c /\ mode c = m).
  { refine (run_along (start m g o) (fun x => said x /\ mode x = m) _ _ ls c R).
    - split; [|reflexivity]. destruct m; unfold said; cbn; lia.
    - intros ls0 x l x' _ (A & B) S. apply said_step in S as [M S]. unfold said in *. rewrite M. split; [lia|congruence]. }
  destruct H as [H M]. unfold said in H. rewrite M in H. lia.
Qed.
