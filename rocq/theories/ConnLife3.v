(** Two endpoints from Dial and Accept on: both together. *)
From Verif Require Import GoBase BaseProofs ParamsModel MessagesModel WireSpec ParamsSpec MsgSpec MessagesProofs MessagesProofs2 ConfigModel
  ConnModel CfgSpec ConfigWire ConnSpec ConnBase ConnInv ConnTrace ConnUser ConnCodec ConnMore ConnStable ConnData ConnPair ConnPieces ConnPace ConnE2E
  DialogSpec ConnDialog ConnDuo TalkSpec ConnTalk ParamsProofs ConnLife ConnLife2 LifeSpec.
From Coq Require Import Arith Lia Permutation.
Open Scope nat_scope.
Opaque max_value_len.

(** ** A channel: [r] packets of the handshake have been read and [s] sent, by endpoints at [kr] and [ks] *)
Definition chan (g : config) (kr ks r s : nat) (lst q fl : list (list byte)) : Prop :=
  (kr = 17 /\ Forall (proper g) fl) \/
  (kr < 17 /\ exists U, q ++ fl = win r s lst ++ U /\ Forall (proper g) U /\ (U <> [] -> ks = 17)).
Lemma win_app {A} (l : list A) a b c : a <= b <= c -> win a b l ++ win b c l = win a c l.
Proof.
  intros L. unfold win. replace (c - a) with ((b - a) + (c - b)) by lia. 
  assert (E : skipn b l = skipn (b - a) (skipn a l)).
  { clear c L0 || idtac. replace b with ((b - a) + a) at 1 by lia. revert l. generalize (b - a) as n. clear. induction a as [|a IH]; intros n l; [now rewrite Nat.add_0_r|].
    rewrite <- plus_n_Sm. destruct l as [|x l]; [now rewrite !skipn_nil|]. cbn [skipn]. apply IH. }
  rewrite E. generalize (skipn a l) as m. generalize (b - a) as n. clear. induction n as [|n IH]; intros m; [reflexivity|].
  destruct m as [|x m]; [cbn; now rewrite firstn_nil|]. cbn [firstn skipn app Nat.add]. f_equal. apply IH.
Qed.
Lemma win_none {A} (l : list A) a b : length l <= a -> win a b l = [].
Proof. intros L. unfold win. rewrite skipn_all2 by exact L. apply firstn_nil. Qed.
(** the sender sends *)
Lemma chan_send_young g kr ks ks' r s s' lst q fl : chan g kr ks r s lst q fl -> ks < 17 -> r <= s <= s' -> s' <= 2 -> length lst = 2 -> (kr = 17 -> s = 2) ->
  chan g kr ks' r s' lst q (fl ++ win s s' lst).
Proof.
  intros [(E & F)|(L & U & E & F & H)] Lk Ls L2 Le K.
  - left. split; [exact E|]. rewrite (K E), win_none by lia. now rewrite app_nil_r.
  - right. split; [exact L|]. destruct U as [|x U]; [|assert (ks = 17) by (apply H; discriminate); lia]. rewrite app_nil_r in E. exists []. rewrite app_nil_r. split; [|split; [constructor|intros []; reflexivity]].
    rewrite app_assoc, E. apply win_app. lia.
Qed.
Lemma chan_send_grown g kr r s lst q fl new : chan g kr 17 r s lst q fl -> Forall (proper g) new -> chan g kr 17 r s lst q (fl ++ new).
Proof.
  intros [(E & F)|(L & U & E & F & H)] Fn; [left; split; [exact E|apply Forall_app; auto]|].
  right. split; [exact L|]. exists (U ++ new). rewrite app_assoc, E, <- app_assoc. split; [reflexivity|]. split; [apply Forall_app; auto|auto].
Qed.
(** the receiver reads *)
Lemma chan_read g kr kr' ks r r' s lst q q' fl : chan g kr ks r s lst q fl -> kr < 17 -> kr <= kr' <= 17 -> q = win r r' lst ++ q' -> r <= r' <= s ->
  (kr' = 17 -> win r' s lst = []) -> chan g kr' ks r' s lst q' fl.
Proof.
  intros [(E & F)|(L & U & E & F & H)] Lk Lk' -> Lr K; [lia|].
  assert (E' : q' ++ fl = win r' s lst ++ U).
  { rewrite <- (win_app lst r r' s) in E by lia. rewrite <- !app_assoc in E. now apply app_inv_head in E. }
  destruct (Nat.eq_dec kr' 17) as [->|N].
  - left. split; [reflexivity|]. rewrite (K eq_refl) in E'. cbn [app] in E'. rewrite <- E' in F. now apply Forall_app in F.
  - right. split; [lia|]. exists U. auto.
Qed.
(** a packet arrives *)
Lemma chan_arrive g kr ks r s lst q raw fl : chan g kr ks r s lst q (raw :: fl) -> chan g kr ks r s lst (q ++ [raw]) fl.
Proof.
  intros [(E & F)|(L & U & E & F & H)]; [left; split; [exact E|now inversion F]|]. right. split; [exact L|]. exists U. rewrite <- app_assoc. auto.
Qed.
Lemma chan_arrive_any g kr ks r s lst q f1 raw f2 : chan g kr ks r s lst q (f1 ++ raw :: f2) -> (kr < 17 -> win r s lst = [] \/ (length (win r s lst) = 1 /\ ks < 17)) ->
  chan g kr ks r s lst (q ++ [raw]) (f1 ++ f2).
Proof.
  intros [(E & F)|(L & U & E & F & H)] W.
  - left. split; [exact E|]. apply Forall_app in F as [F1 F2]. inversion F2; subst. apply Forall_app; auto.
  - right. split; [exact L|]. destruct (W L) as [Wn|[W1 W2]].
    + rewrite Wn in *. cbn [app] in *. exists ((q ++ [raw]) ++ f1 ++ f2). split; [reflexivity|].
      assert (P : Permutation (q ++ f1 ++ raw :: f2) ((q ++ [raw]) ++ f1 ++ f2)) by (symmetry; apply perm_move).
      rewrite E in P. split; [eapply Permutation_Forall; [exact P|exact F]|]. intros _. apply H. intros ->. apply Permutation_nil in P. now destruct q.
    + destruct U as [|x U]; [|assert (ks = 17) by (apply H; discriminate); lia]. rewrite app_nil_r in E.
      assert (length (q ++ f1 ++ raw :: f2) = 1) as Ll by congruence. rewrite !app_length in Ll. cbn [length] in Ll.
      assert (q = []) as -> by (destruct q; [reflexivity|cbn in Ll; lia]). assert (f1 = []) as -> by (destruct f1; [reflexivity|cbn in Ll; lia]).
      exists []. rewrite app_nil_r. split; [exact E|]. split; [constructor|]. intros []; reflexivity.
Qed.
Lemma chan_next g kr ks r s lst q fl : chan g kr ks r s lst q fl -> kr < 17 -> r <= s -> length lst = 2 -> r < 2 -> (ks = 17 -> s = 2) ->
  q = [] \/ exists x q', nth_error lst r = Some x /\ q = x :: q' /\ r < s.
Proof.
  intros [(E & F)|(L & U & E & F & H)] Lk Lr Le R K; [lia|]. destruct q as [|x q]; [now left|]. right.
  destruct (Nat.eq_dec r s) as [->|N].
  - rewrite win_empty in E. cbn [app] in E. assert (ks = 17) by (apply H; rewrite <- E; discriminate). specialize (K H0). lia.
  - assert (exists y, nth_error lst r = Some y) as [y Ny] by (destruct (nth_error lst r) eqn:Z; [eauto|apply nth_error_None in Z; lia]).
    rewrite <- (win_app lst r (Datatypes.S r) s), (win_step _ _ _ Ny) in E by lia. cbn [app] in E. injection E as -> E. exists y, q. repeat split; auto. lia.
Qed.
Lemma chan_proper g kr ks r s lst q fl : chan g kr ks r s lst q fl -> kr = 17 -> Forall (proper g) fl.
Proof. intros [(E & F)|(L & U & E & F & H)] K; [exact F|lia]. Qed.
Lemma chan_proper_q g kr ks r s lst q fl : chan g kr ks r s lst q fl -> kr < 17 -> win r s lst = [] -> Forall (proper g) q.
Proof. intros [(E & F)|(L & U & E & F & H)] K W; [lia|]. rewrite W in E. cbn [app] in E. rewrite <- E in F. now apply Forall_app in F. Qed.

(** ** Two scripts that fit *)
Record side := mkSide { sd_g : config; sd_o : N; sd_mo : cmode; sd_S : nat -> list (list byte) -> bpc -> conn; sd_wt : nat -> bool; sd_sent : nat -> nat; sd_read : nat -> nat; sd_out : list (list byte) }.
Record suits (A B : side) : Prop := {
  su_ok : cfg_ok (sd_g A); su_sp : speaks (sd_g A);
  su_sc : script (sd_g A) (sd_g B) (sd_o A) (sd_mo A) (sd_S A) (sd_wt A) (sd_sent A) (sd_read A) (sd_out A) (sd_out B);
  su_small : Forall (fun b => length b <= 1500) (sd_out A);
  su_s0 : sd_sent A 0 = 0; su_r0 : sd_read A 0 = 0;
  su_s17 : sd_sent A 17 = 2; su_r16 : sd_read A 16 = 2; su_r17 : sd_read A 17 = 2;
  su_wt : forall k, k < 17 -> sd_wt A k = true -> sd_read A k < 2;
  su_s2 : forall k, sd_sent A k <= 2; su_r2 : forall k, sd_read A k <= 2;
  su_mono : forall k k', k <= k' -> sd_sent A k <= sd_sent A k' /\ sd_read A k <= sd_read A k' }.
(** the packets of the handshake cannot overtake one another *)
Definition roomy (A B : side) : Prop := forall k j, k < 17 -> sd_read A k <= sd_sent B j -> sd_read B j <= sd_sent A k ->
  win (sd_read A k) (sd_sent B j) (sd_out B) = [] \/ (length (win (sd_read A k) (sd_sent B j) (sd_out B)) = 1 /\ j < 17).
Definition stuck (A B : side) (k j : nat) : Prop := k = 17 \/ (k < 17 /\ sd_wt A k = true /\ sd_read A k = sd_sent B j).
Definition free (A B : side) : Prop := forall k j, stuck A B k j -> stuck B A j k -> k = 17 /\ j = 17.
(** every BEAT not yet answered is somewhere *)
Definition tokens (a b : conn) (u d : list (list byte)) : Prop := forall x,
  nof x (owed a) = nof x (flat_map beat_in u) + nof x (dueb b) + nof x (flat_map back_in d) + nof x (duea a).
Record linv (A B : side) (ka kb : list uop) (a b : conn) (u d : list (list byte)) (w : nat) : Prop := {
  li_life : exists k j wa wb, life (sd_g A) (sd_g B) (sd_S A) k ka a wa /\ life (sd_g B) (sd_g A) (sd_S B) j kb b wb /\ w = wa + wb + cost u + cost d /\
    sd_read B j <= sd_sent A k /\ sd_read A k <= sd_sent B j /\
    chan (sd_g A) j k (sd_read B j) (sd_sent A k) (sd_out A) (inq b) u /\ chan (sd_g B) k j (sd_read A k) (sd_sent B j) (sd_out B) (inq a) d;
  li_ta : tokens a b u d; li_tb : tokens b a d u;
  li_ra : exists lsa, run (start (sd_mo A) (sd_g A) (sd_o A)) lsa = Some a /\ calls lsa = ka /\ Permutation (arrivals lsa ++ d) (packets (log b));
  li_rb : exists lsb, run (start (sd_mo B) (sd_g B) (sd_o B)) lsb = Some b /\ calls lsb = kb /\ Permutation (arrivals lsb ++ u) (packets (log a));
  li_sa : Forall (fun b => length b <= 1500) (packets (log a)); li_sb : Forall (fun b => length b <= 1500) (packets (log b));
  li_ma : Forall mild (log a); li_mb : Forall mild (log b) }.
Lemma linv_sym A B ka kb a b u d w : linv A B ka kb a b u d w -> linv B A kb ka b a d u w.
Proof.
  intros [(k & j & wa & wb & La & Lb & Ew & R1 & R2 & C1 & C2) T1 T2 Ra Rb S1 S2 M1 M2]. split; auto.
  exists j, k, wb, wa. repeat (split; [solve [auto|lia]|]). exact C1.
Qed.
Lemma life_le g g' S k ops c w : life g g' S k ops c w -> k <= 17.
Proof. intros [(L & _)|(-> & _)]; lia. Qed.
Lemma tokens_waits a b u d : tokens a b u d -> waits a.
Proof. intros T x. rewrite (T x). lia. Qed.
Lemma cost_app l1 l2 : cost (l1 ++ l2) = cost l1 + cost l2.
Proof. apply total_app. Qed.
Lemma win_full {A} (l : list A) a b : b <= length l -> length (win a b l) = b - a.
Proof. intros L. unfold win. rewrite firstn_length, skipn_length. lia. Qed.
Lemma proper_small g l : cfg_ok g -> Forall (proper g) l -> Forall (fun b => length b <= 1500) l.
Proof. intros Ok. apply Forall_impl. intros b P. now apply (proper_cargo g b Ok). Qed.
Lemma incl_Forall' {A} (P : A -> Prop) l1 l2 : incl l1 l2 -> Forall P l2 -> Forall P l1.
Proof. intros I F. apply Forall_forall. intros x H. rewrite Forall_forall in F. auto. Qed.

Lemma linv_go A B ka kb a b u d w l a' new : suits A B -> suits B A -> linv A B ka kb a b u d w -> fair l -> l <> LHbTimer -> step a l = Some a' ->
  packets (log a') = packets (log a) ++ new -> exists w', w' < w /\ linv A B ka kb a' b (u ++ new) d w'.
Proof.
  intros SA SB [(k & j & wa & wb & La & Lb & Ew & R1 & R2 & C1 & C2) T1 T2 (lsa & Ra & Ka & Pa) (lsb & Rb & Kb & Pb) S1 S2 M1 M2] F Nt St Pk.
  pose proof (su_sc _ _ SA) as Sc. pose proof (sc_len _ _ _ _ _ _ _ _ _ _ Sc) as [Lo Li].
  assert (Lk := life_le _ _ _ _ _ _ _ La). assert (Lj := life_le _ _ _ _ _ _ _ Lb).
  pose proof (su_s2 _ _ SA k). pose proof (su_s2 _ _ SB j). pose proof (su_r2 _ _ SA k).
  assert (Hd : k < 17 -> sd_wt A k = true -> inq a = [] \/ exists x r, nth_error (sd_out B) (sd_read A k) = Some x /\ inq a = x :: r).
  { intros Hk Hw. destruct (chan_next _ _ _ _ _ _ _ _ C2 Hk R2 Li (su_wt _ _ SA _ Hk Hw)) as [E|(x & q' & N & E & _)]; [intros ->; apply (su_s17 _ _ SB)|auto|right; eauto]. }
  assert (Hp : k = 16 -> Forall (proper (sd_g B)) (inq a)).
  { intros ->. apply (chan_proper_q _ _ _ _ _ _ _ _ C2); [lia|]. rewrite (su_r16 _ _ SA). apply win_none. lia. }
  destruct (life_step _ _ _ _ _ _ _ _ _ _ _ _ _ _ _ _ Sc (su_ok _ _ SA) (su_ok _ _ SB) (su_sp _ _ SA) La (tokens_waits _ _ _ _ T1) Hd Hp F Nt St)
    as (k' & es & w' & La' & Lk' & El & Mi & Lw & [Mv1 Mv2] & Ch).
  rewrite El, packets_app in Pk. apply app_inv_head in Pk. subst new.
  destruct (su_mono _ _ SA k k' ltac:(lia)) as [Ms Mr]. pose proof (su_s2 _ _ SA k'). pose proof (su_r2 _ _ SA k').
  destruct (fair_label l F) as [L1 L2].
  exists (w' + wb + cost (u ++ packets es) + cost d). split; [rewrite cost_app; lia|]. split.
  - exists k', j, w', wb. split; [exact La'|]. split; [exact Lb|]. split; [reflexivity|]. split; [lia|].
    destruct Ch as [(-> & Pr)|(Hk & Ep & Eq)].
    + assert (k' = 17) as -> by lia. split; [exact R2|]. split; [now apply chan_send_grown|]. left. split; [reflexivity|]. now apply (chan_proper _ _ _ _ _ _ _ _ C2).
    + assert (Rn : sd_read A k' <= sd_sent B j).
      { destruct C2 as [(E & _)|(_ & U & E & _ & HU)]; [lia|]. destruct U as [|x U]; [|rewrite (HU ltac:(discriminate)), (su_s17 _ _ SB); lia].
        rewrite app_nil_r in E. apply (f_equal (@List.length _)) in E. rewrite Eq, !app_length, !win_full in E by lia. lia. }
      split; [exact Rn|]. split.
      * rewrite Ep. eapply chan_send_young; try eassumption; try lia. intros Ej. rewrite Ej, (su_r17 _ _ SB) in R1. lia.
      * eapply chan_read; try eassumption; try lia. intros ->. rewrite (su_r17 _ _ SA). apply win_none. lia.
  - intros x. specialize (T1 x). specialize (Mv2 x). rewrite flat_map_app, nof_app. lia.
  - intros x. specialize (T2 x). specialize (Mv1 x). rewrite flat_map_app, nof_app. lia.
  - exists (lsa ++ [l]). rewrite run_app, Ra, calls_app, arrivals_app, L1, L2, !app_nil_r. cbn [run]. rewrite St. auto.
  - exists lsb. split; [exact Rb|]. split; [exact Kb|]. rewrite El, packets_app, app_assoc. now apply Permutation_app_tail.
  - rewrite El, packets_app. apply Forall_app. split; [exact S1|]. destruct Ch as [(_ & Pr)|(_ & -> & _)]; [eapply proper_small; [apply SA|exact Pr]|].
    eapply incl_Forall'; [apply win_incl|apply SA].
  - exact S2.
  - rewrite El. apply Forall_app. auto.
  - exact M2.
Qed.
Lemma linv_arr A B ka kb a b u d1 raw d2 w a' : suits A B -> suits B A -> linv A B ka kb a b u (d1 ++ raw :: d2) w -> d1 = [] \/ dial a = DOk \/ roomy A B ->
  step a (LArrive raw) = Some a' -> exists w', w' < w /\ linv A B ka kb a' b u (d1 ++ d2) w'.
Proof.
  intros SA SB [(k & j & wa & wb & La & Lb & Ew & R1 & R2 & C1 & C2) T1 T2 (lsa & Ra & Ka & Pa) (lsb & Rb & Kb & Pb) S1 S2 M1 M2] Or St.
  pose proof (su_sc _ _ SA) as Sc. assert (Lk := life_le _ _ _ _ _ _ _ La). 
  destruct (life_arrive _ _ _ _ _ _ _ _ _ _ _ _ _ _ raw Sc La) as (a2 & St2 & La' & El & Eq & D1 & D2 & Eo).
  { intros Ek. pose proof (chan_proper _ _ _ _ _ _ _ _ C2 Ek) as F. apply Forall_app in F as [_ F]. now inversion F. }
  rewrite St in St2. apply some_inj in St2. subst a2.
  exists (value raw + wa + wb + cost u + cost (d1 ++ d2)). split; [rewrite Ew, !cost_app; unfold cost; cbn [total]; lia|]. split; rewrite ?El; auto.
  - exists k, j, (value raw + wa), wb. rewrite Eq. repeat (split; [solve [auto|lia]|]).
    destruct Or as [->|Or]; [now apply chan_arrive|]. apply chan_arrive_any; [exact C2|]. intros Hk.
    destruct Or as [Dl|Ro]; [destruct (life_up _ _ _ _ _ _ _ _ _ _ _ _ _ _ Sc La Dl); lia|]. now apply Ro.
  - intros x. specialize (T1 x). specialize (D2 x). rewrite Eo. rewrite flat_map_app, nof_app in *. cbn [flat_map] in T1. rewrite nof_app in T1. lia.
  - intros x. specialize (T2 x). specialize (D1 x). rewrite flat_map_app, nof_app in *. cbn [flat_map] in T2. rewrite nof_app in T2. lia.
  - exists (lsa ++ [LArrive raw]). rewrite run_app, Ra, calls_app, arrivals_app. cbn [run calls arrivals flat_map app]. rewrite St, app_nil_r. split; [reflexivity|]. split; [exact Ka|].
    eapply Permutation_trans; [apply perm_move|exact Pa].
  - exists lsb. auto.
Qed.
Lemma linv_tick A B ka kb a b u d w a' : suits A B -> linv A B ka kb a b u d w -> hb a = BSleep -> step a LHbTimer = Some a' -> linv A B ka kb a' b u d (31 + w).
Proof.
  intros SA [(k & j & wa & wb & La & Lb & Ew & R1 & R2 & C1 & C2) T1 T2 (lsa & Ra & Ka & Pa) (lsb & Rb & Kb & Pb) S1 S2 M1 M2] Hb St.
  destruct (life_asleep _ _ _ _ _ _ _ _ _ _ _ _ _ _ (su_sc _ _ SA) La Hb) as [-> Gr]. destruct (grown_tick _ _ _ _ _ _ Gr Hb St) as (Gr' & El & [Mv1 Mv2]).
  split; rewrite ?El; auto.
  - exists 17, j, (31 + wa), wb. split; [right; auto|]. repeat (split; [solve [auto|lia]|]). left. split; [reflexivity|]. now apply (chan_proper _ _ _ _ _ _ _ _ C2).
  - intros x. specialize (T1 x). specialize (Mv2 x). cbn [packets flat_map] in Mv2. cbn [nof count_occ] in Mv2. lia.
  - intros x. specialize (T2 x). specialize (Mv1 x). cbn [packets flat_map] in Mv1. cbn [nof count_occ] in Mv1. lia.
  - exists (lsa ++ [LHbTimer]). rewrite run_app, Ra, calls_app, arrivals_app. cbn [run calls arrivals flat_map app]. rewrite St, !app_nil_r. auto.
  - exists lsb. auto.
Qed.
Lemma linv_call A B ka kb a b u d w op a' : suits A B -> linv A B ka kb a b u d w -> sane a op -> step a (LCall op) = Some a' ->
  exists w', w' <= 13 + w /\ linv A B (ka ++ [op]) kb a' b u d w'.
Proof.
  intros SA [(k & j & wa & wb & La & Lb & Ew & R1 & R2 & C1 & C2) T1 T2 (lsa & Ra & Ka & Pa) (lsb & Rb & Kb & Pb) S1 S2 M1 M2] Sa St.
  assert (Dl : dial a = DOk).
  { unfold step in St. destruct (crash a); [discriminate|]. destruct (dial a); congruence. }
  destruct (life_up _ _ _ _ _ _ _ _ _ _ _ _ _ _ (su_sc _ _ SA) La Dl) as [-> Gr]. destruct (grown_call _ _ _ _ _ _ _ Gr Sa St) as (w' & Gr' & Lw & El & [Mv1 Mv2]).
  exists (w' + wb + cost u + cost d). split; [lia|].
  split; rewrite ?El; auto.
  - exists 17, j, w', wb. split; [right; auto|]. repeat (split; [solve [auto|lia]|]). left. split; [reflexivity|]. now apply (chan_proper _ _ _ _ _ _ _ _ C2).
  - intros x. specialize (T1 x). specialize (Mv2 x). cbn [packets flat_map] in Mv2. cbn [nof count_occ] in Mv2. lia.
  - intros x. specialize (T2 x). specialize (Mv1 x). cbn [packets flat_map] in Mv1. cbn [nof count_occ] in Mv1. lia.
  - exists (lsa ++ [LCall op]). rewrite run_app, Ra, calls_app, arrivals_app. cbn [run calls arrivals flat_map app]. rewrite St, !app_nil_r, Ka. auto.
  - exists lsb. auto.
Qed.
Lemma start_life A B : suits A B -> life (sd_g A) (sd_g B) (sd_S A) 0 [] (start (sd_mo A) (sd_g A) (sd_o A)) 68.
Proof.
  intros SA. left. split; [lia|]. split; [reflexivity|]. exists BStart. split; [now left|]. split; [symmetry; apply (sc_start _ _ _ _ _ _ _ _ _ _ (su_sc _ _ SA))|reflexivity].
Qed.
Lemma start_chan A B : suits A B -> suits B A -> chan (sd_g A) 0 0 (sd_read B 0) (sd_sent A 0) (sd_out A) [] [].
Proof. intros SA SB. right. split; [lia|]. exists []. rewrite (su_r0 _ _ SB), (su_s0 _ _ SA), win_empty. repeat split; auto. congruence. Qed.
Lemma linv_start A B : suits A B -> suits B A -> linv A B [] [] (start (sd_mo A) (sd_g A) (sd_o A)) (start (sd_mo B) (sd_g B) (sd_o B)) [] [] 136.
Proof.
  intros SA SB. split; try (now constructor); try (intros x; reflexivity).
  - exists 0, 0, 68, 68. split; [now apply start_life|]. split; [now apply start_life|]. split; [reflexivity|].
    split; [rewrite (su_r0 _ _ SB); lia|]. split; [rewrite (su_r0 _ _ SA); lia|]. split; [apply (start_chan A B SA SB)|apply (start_chan B A SB SA)].
  - exists []. auto.
  - exists []. auto.
Qed.

(** ** Rest *)
Lemma life_dec A B k j ops c w : suits A B -> suits B A -> life (sd_g A) (sd_g B) (sd_S A) k ops c w -> sd_read A k <= sd_sent B j ->
  chan (sd_g B) k j (sd_read A k) (sd_sent B j) (sd_out B) (inq c) [] -> can_go c \/ stuck A B k j.
Proof.
  intros SA SB L R C. destruct L as [(Lk & -> & h & Fh & Ec & Ew)|(-> & Gr)]; [|right; now left]. pose proof (su_sc _ _ SA) as Sc. pose proof (sc_len _ _ _ _ _ _ _ _ _ _ Sc) as [Lo Li].
  destruct (sd_wt A k) eqn:W.
  - destruct (inq c) as [|x q] eqn:Q.
    + right. right. split; [exact Lk|]. split; [exact W|]. destruct C as [(E & _)|(_ & U & E & _)]; [lia|]. cbn [app] in E. symmetry in E. apply app_eq_nil in E as [E _].
      apply (f_equal (@List.length _)) in E. rewrite win_full in E by (pose proof (su_s2 _ _ SB j); lia). cbn [List.length] in E. lia.
    + left. rewrite Ec. apply (sc_go _ _ _ _ _ _ _ _ _ _ Sc); [exact Lk|discriminate].
  - left. rewrite Ec. apply (sc_go _ _ _ _ _ _ _ _ _ _ Sc); [exact Lk|congruence].
Qed.
Lemma grown_rest g g' ops c w : grown g g' ops c w -> still ops c -> idle (hs c) -> hb_quiet (hb c) -> (forall x, nof x (owed c) = 0) -> calm_end ops c.
Proof.
  intros Gr [M Q U D] I H O. split; auto; try apply Gr.
  unfold unworried. destruct (hb c) eqn:E; cbn [hb_quiet] in H; try contradiction; auto. exfalso. specialize (O (hbd c)). unfold owed in O. rewrite (cur_idle _ I), E in O. cbn [acking hbt] in O.
  rewrite nof_self in O. discriminate.
Qed.
Lemma mild_refused l : Forall mild l -> refused_data l = [].
Proof.
  induction 1 as [|e l M F IH]; [reflexivity|]. cbn [refused_data flat_map]. fold (refused_data l). rewrite IH. destruct e; try reflexivity.
  destruct M as [[i ->] _]. reflexivity.
Qed.
Theorem linv_end A B ka kb a b w : suits A B -> suits B A -> free A B -> linv A B ka kb a b [] [] w ->
  can_go a \/ can_go b \/ (calm_end ka a /\ calm_end kb b /\ received b (sd_g A) ka /\ received a (sd_g B) kb).
Proof.
  intros SA SB Fr [(k & j & wa & wb & La & Lb & Ew & R1 & R2 & C1 & C2) T1 T2 (lsa & Ra & Ka & Pa) (lsb & Rb & Kb & Pb) S1 S2 M1 M2].
  destruct (life_dec A B k j _ _ _ SA SB La R2 C2) as [G|K1]; [now left|]. destruct (life_dec B A j k _ _ _ SB SA Lb R1 C1) as [G|K2]; [now right; left|].
  destruct (Fr k j K1 K2) as [-> ->]. destruct La as [(L & _)|(_ & Ga)]; [lia|]. destruct Lb as [(L & _)|(_ & Gb)]; [lia|].
  destruct (grown_dec _ _ _ _ _ (su_ok _ _ SA) (su_ok _ _ SB) (su_sp _ _ SA) Ga) as [G|(St1 & I1 & H1)]; [now left|].
  destruct (grown_dec _ _ _ _ _ (su_ok _ _ SB) (su_ok _ _ SA) (su_sp _ _ SB) Gb) as [G|(St2 & I2 & H2)]; [now right; left|].
  right. right. destruct St1 as [Mo1 Q1 U1 D1] eqn:E1. destruct St2 as [Mo2 Q2 U2 D2] eqn:E2.
  split; [eapply grown_rest; eauto; intros x; rewrite (T1 x); unfold dueb, duea; rewrite Q1, Q2, !cur_idle by assumption; reflexivity|].
  split; [eapply grown_rest; eauto; intros x; rewrite (T2 x); unfold dueb, duea; rewrite Q1, Q2, !cur_idle by assumption; reflexivity|].
  pose proof (sane_plain _ _ _ _ (gw_us _ _ _ _ _ Ga)) as P1. pose proof (sane_plain _ _ _ _ (gw_us _ _ _ _ _ Gb)) as P2. rewrite <- Ka in P1. rewrite <- Kb in P2.
  split; [destruct D2 as [D2|D2]; [right|now left]|destruct D1 as [D1|D1]; [right|now left]].
  - rewrite <- (answered_all _ _ _ U1), <- Ka. rewrite <- (app_nil_r (dq b)), <- (mild_refused (log b) M2).
    apply (end_to_end_all _ _ _ lsa a _ _ _ lsb b Ra Rb (su_ok _ _ SA) P1 S1); auto; apply Gb.
  - rewrite <- (answered_all _ _ _ U2), <- Kb. rewrite <- (app_nil_r (dq a)), <- (mild_refused (log a) M1).
    apply (end_to_end_all _ _ _ lsb b _ _ _ lsa a Rb Ra (su_ok _ _ SB) P2 S2); auto; apply Ga.
Qed.

(** ** The client and the server *)
Lemma mono_step (f : nat -> nat) : (forall k, f k <= f (Datatypes.S k)) -> forall k k', k <= k' -> f k <= f k'.
Proof. intros H k k' L. induction L as [|m L IH]; [lia|]. specialize (H m). lia. Qed.
Lemma reads_mono : (forall k k', k <= k' -> csent k <= csent k') /\ (forall k k', k <= k' -> cread k <= cread k') /\ (forall k k', k <= k' -> ssent k <= ssent k') /\ (forall k k', k <= k' -> sread k <= sread k').
Proof.
  repeat split; intros k k' L; unfold csent, cread, ssent, sread;
    repeat match goal with |- context [?a <? ?b] => destruct (Nat.ltb_spec a b) end; lia.
Qed.
Lemma read_2 k : cread k <= 2 /\ sread k <= 2.
Proof. unfold cread, sread. destruct (k <? 4), (k <? 11), (k <? 3), (k <? 10); lia. Qed.
Definition side_cl (gc : config) (oc : N) (up act upk ack : list byte) (mk mc : msg) : side := mkSide gc oc Client (Cl gc oc upk ack mk mc up act) cwait csent cread [up; act].
Definition side_sv (gs : config) (os : N) (up act upk ack : list byte) (mu ma : msg) : side := mkSide gs os Server (Sv gs os up act mu ma upk ack) swait ssent sread [upk; ack].
Lemma suits_cl gc gs oc os up act upk ack mu ma mk mc : cfg_ok gc -> speaks gc -> plays2 gc gs up act upk ack mu ma mk mc ->
  suits (side_cl gc oc up act upk ack mk mc) (side_sv gs os up act upk ack mu ma).
Proof.
  intros Ok Sp Pl. destruct reads_mono as (X1 & X2 & X3 & X4). split; cbn [side_cl side_sv sd_g sd_o sd_mo sd_S sd_wt sd_sent sd_read sd_out]; auto; try (intros; apply sent_2); try (intros; apply read_2).
  - eapply script_cl; eassumption.
  - destruct Pl. change bufsize with 1500 in *. repeat (apply Forall_cons; [assumption|]). apply Forall_nil.
  - intros k L W. do 17 (destruct k as [|k]; [cbn in *; try discriminate W; lia|]). lia.
Qed.
Lemma suits_sv gc gs oc os up act upk ack mu ma mk mc : cfg_ok gs -> speaks gs -> plays2 gc gs up act upk ack mu ma mk mc ->
  suits (side_sv gs os up act upk ack mu ma) (side_cl gc oc up act upk ack mk mc).
Proof.
  intros Ok Sp Pl. destruct reads_mono as (X1 & X2 & X3 & X4). split; cbn [side_cl side_sv sd_g sd_o sd_mo sd_S sd_wt sd_sent sd_read sd_out]; auto; try (intros; apply sent_2); try (intros; apply read_2).
  - eapply script_sv; eassumption.
  - destruct Pl. change bufsize with 1500 in *. repeat (apply Forall_cons; [assumption|]). apply Forall_nil.
  - intros k L W. do 17 (destruct k as [|k]; [cbn in *; try discriminate W; lia|]). lia.
Qed.
Lemma free_cs gc gs oc os up act upk ack mu ma mk mc : free (side_cl gc oc up act upk ack mk mc) (side_sv gs os up act upk ack mu ma).
Proof.
  intros k j Ck Cj. unfold stuck in *. cbn [side_cl side_sv sd_wt sd_sent sd_read] in *.
  assert (Ek : k = 17 \/ k = 3 \/ k = 10).
  { destruct Ck as [|(L & W & _)]; auto. right. do 17 (destruct k as [|k]; [cbn in W; try discriminate W; lia|]). lia. }
  assert (Ej : j = 17 \/ j = 2 \/ j = 9).
  { destruct Cj as [|(L & W & _)]; auto. right. do 17 (destruct j as [|j]; [cbn in W; try discriminate W; lia|]). lia. }
  destruct Ek as [->|[-> | ->]], Ej as [->|[-> | ->]]; auto; cbn in Ck, Cj;
    destruct Ck as [?|(_ & _ & ?)]; destruct Cj as [?|(_ & _ & ?)]; lia.
Qed.
Lemma roomy_sv gc gs oc os up act upk ack mu ma mk mc : roomy (side_sv gs os up act upk ack mu ma) (side_cl gc oc up act upk ack mk mc).
Proof.
  intros j k Lj R1 R2. cbn [side_cl side_sv sd_wt sd_sent sd_read sd_out] in *. pose proof (sent_2 k) as [S2 _]. rewrite win_full by (cbn; lia).
  assert (E : sread j = csent k \/ (csent k - sread j = 1 /\ k < 17)).
  { unfold csent, sread, cread, ssent in *. destruct (Nat.ltb_spec k 3), (Nat.ltb_spec k 10), (Nat.ltb_spec k 4), (Nat.ltb_spec k 11), (Nat.ltb_spec j 3), (Nat.ltb_spec j 10), (Nat.ltb_spec j 7), (Nat.ltb_spec j 14); lia. }
  destruct E as [->|E]; [left; apply win_empty|right; exact E].
Qed.

Lemma linv_lives A B n i ka kb t : suits A B -> suits B A -> roomy B A ->
  lives n i ka kb (mkTalk (start (sd_mo A) (sd_g A) (sd_o A)) (start (sd_mo B) (sd_g B) (sd_o B)) [] []) t ->
  exists w, n + w <= 136 + 13 * (length ka + length kb) + 31 * i /\ linv A B ka kb (t_cl t) (t_sv t) (t_up t) (t_dn t) w.
Proof.
  intros SA SB Ro L. remember (mkTalk (start (sd_mo A) (sd_g A) (sd_o A)) (start (sd_mo B) (sd_g B) (sd_o B)) [] []) as t0 eqn:E0.
  induction L as [t|n i p q t t1 t2 L IH S|n i p q t t1 t2 L IH S|n i p q t a b u d op a' L IH Sa St|n i p q t a b u d op b' L IH Sa St].
  - exists 136. subst t. cbn [t_cl t_sv t_up t_dn length]. split; [lia|]. now apply linv_start.
  - destruct (IH E0) as (w & Lw & I). destruct S as [a b u d l a' new F Nt St Pk|a b u d l b' new F Nt St Pk|a b u1 raw u2 d b' St|a b u d1 raw d2 a' Or St]; cbn [t_cl t_sv t_up t_dn] in *.
    + destruct (linv_go _ _ _ _ _ _ _ _ _ _ _ _ SA SB I F Nt St Pk) as (w' & Hw & I'). exists w'. split; [lia|exact I'].
    + destruct (linv_go _ _ _ _ _ _ _ _ _ _ _ _ SB SA (linv_sym _ _ _ _ _ _ _ _ _ I) F Nt St Pk) as (w' & Hw & I'). exists w'. split; [lia|apply linv_sym; exact I'].
    + destruct (linv_arr _ _ _ _ _ _ _ _ _ _ _ _ SB SA (linv_sym _ _ _ _ _ _ _ _ _ I) (or_intror (or_intror Ro)) St) as (w' & Hw & I'). exists w'. split; [lia|apply linv_sym; exact I'].
    + destruct (linv_arr _ _ _ _ _ _ _ _ _ _ _ _ SA SB I ltac:(destruct Or; auto) St) as (w' & Hw & I'). exists w'. split; [lia|exact I'].
  - destruct (IH E0) as (w & Lw & I). destruct S as [a b u d a' Hb St|a b u d b' Hb St]; cbn [t_cl t_sv t_up t_dn] in *.
    + exists (31 + w). split; [lia|]. eapply linv_tick; eassumption.
    + exists (31 + w). split; [lia|]. apply linv_sym. eapply linv_tick; [eassumption|apply linv_sym; eassumption|eassumption|eassumption].
  - destruct (IH E0) as (w & Lw & I). cbn [t_cl t_sv t_up t_dn] in *. destruct (linv_call _ _ _ _ _ _ _ _ _ _ _ SA I Sa St) as (w' & Hw & I'). exists w'.
    rewrite app_length. cbn [length]. split; [lia|exact I'].
  - destruct (IH E0) as (w & Lw & I). cbn [t_cl t_sv t_up t_dn] in *. destruct (linv_call _ _ _ _ _ _ _ _ _ _ _ SB (linv_sym _ _ _ _ _ _ _ _ _ I) Sa St) as (w' & Hw & I'). exists w'.
    rewrite app_length. cbn [length]. split; [lia|apply linv_sym; exact I'].
Qed.
(** what both have come to when nothing more happens *)
Definition rested (gc gs : config) (ka kb : list uop) (t : talk) : Prop :=
  calm_end ka (t_cl t) /\ calm_end kb (t_sv t) /\ t_up t = [] /\ t_dn t = [] /\ received (t_sv t) gc ka /\ received (t_cl t) gs kb.
Lemma mild_gentle e : mild e -> gentle e.
Proof. destruct e; cbn; auto. intros [[i ->] (t & -> & K)]. eauto. Qed.
Lemma refusals_filter l : refusals l = length (filter refusal l).
Proof. induction l as [|e l IH]; [reflexivity|]. unfold refusals in *. cbn [total filter]. rewrite IH. destruct e; reflexivity. Qed.
Lemma few_side A B k ops c w : suits A B -> life (sd_g A) (sd_g B) (sd_S A) k ops c w -> Forall mild (log c) -> few (sd_g A) c.
Proof.
  intros SA L M. destruct (life_refusals _ _ _ _ _ _ _ _ _ _ _ _ _ _ (su_sc _ _ SA) L) as [R1 R2]. split; [eapply Forall_impl; [exact mild_gentle|exact M]|].
  rewrite refusals_filter in *. split; [exact R1|]. intros H. specialize (R2 H). now destruct (filter refusal (log c)).
Qed.
Lemma life_can_arrive g g' o mo S wt sent read out inn k ops c w raw : script g g' o mo S wt sent read out inn -> life g g' S k ops c w -> exists c', step c (LArrive raw) = Some c'.
Proof. intros Sc L. pose proof (life_sound _ _ _ _ _ _ _ _ _ _ _ _ _ _ Sc L) as So. unfold step. destruct So as (Cr & _). rewrite Cr. eauto. Qed.
Theorem life_fine gc gs oc os n i ka kb t : cfg_ok gc -> cfg_ok gs -> signals_fit gc -> signals_fit gs -> lives n i ka kb (lstart gc gs oc os) t ->
  n <= 136 + 13 * (length ka + length kb) + 31 * i /\ sound (t_cl t) /\ sound (t_sv t) /\ few gc (t_cl t) /\ few gs (t_sv t) /\
  ((exists t', lstep t t') \/ rested gc gs ka kb t).
Proof.
  intros O1 O2 F1 F2 L. pose proof (cfg_speaks _ O1 F1) as Sp1. pose proof (cfg_speaks _ O2 F2) as Sp2.
  destruct (cfg_plays2 gc gs Sp1 Sp2) as (up & act & upk & ack & mu & ma & mk & mc & Pl).
  pose proof (suits_cl gc gs oc os _ _ _ _ _ _ _ _ O1 Sp1 Pl) as SA. pose proof (suits_sv gc gs oc os _ _ _ _ _ _ _ _ O2 Sp2 Pl) as SB.
  destruct (linv_lives _ _ n i ka kb t SA SB (roomy_sv _ _ _ _ _ _ _ _ _ _ _ _) L) as (w & Lw & I).
  pose proof I as [(k & j & wa & wb & La & Lb & _) _ _ _ _ _ _ M1 M2].
  pose proof (life_sound _ _ _ _ _ _ _ _ _ _ _ _ _ _ (su_sc _ _ SA) La) as So1. pose proof (life_sound _ _ _ _ _ _ _ _ _ _ _ _ _ _ (su_sc _ _ SB) Lb) as So2.
  split; [lia|]. split; [exact So1|]. split; [exact So2|]. split; [exact (few_side _ _ _ _ _ _ SA La M1)|]. split; [exact (few_side _ _ _ _ _ _ SB Lb M2)|].
  destruct t as [a b u d]. cbn [t_cl t_sv t_up t_dn] in *.
  destruct u as [|raw u].
  2:{ left. destruct (life_can_arrive _ _ _ _ _ _ _ _ _ _ _ _ _ _ raw (su_sc _ _ SB) Lb) as [b' St]. eexists. apply (L_to_server a b [] raw u d b' St). }
  destruct d as [|raw d].
  2:{ left. destruct (life_can_arrive _ _ _ _ _ _ _ _ _ _ _ _ _ _ raw (su_sc _ _ SA) La) as [a' St]. eexists. apply (L_to_client a b [] [] raw d a' (or_introl eq_refl) St). }
  destruct (linv_end _ _ _ _ _ _ _ SA SB (free_cs _ _ _ _ _ _ _ _ _ _ _ _) I) as [(l & a' & F & Nt & St)|[(l & b' & F & Nt & St)|(E1 & E2 & E3 & E4)]].
  - left. destruct (log_grows _ _ _ St) as [es El]. eexists. apply (L_client a b [] [] l a' (packets es) F Nt St). now rewrite El, packets_app.
  - left. destruct (log_grows _ _ _ St) as [es El]. eexists. apply (L_server a b [] [] l b' (packets es) F Nt St). now rewrite El, packets_app.
  - right. repeat split; auto; apply E1 || apply E2.
Qed.
Lemma lsteps_cons m t t1 t2 : lstep t t1 -> lsteps m t1 t2 -> lsteps (Datatypes.S m) t t2.
Proof. intros S R. induction R as [t1|m t1 t2 t3 R IH S2]; [eapply LL_S; [apply LL_0|exact S]|eapply LL_S; [apply IH, S|exact S2]]. Qed.
Theorem life_settles gc gs oc os n i ka kb t : cfg_ok gc -> cfg_ok gs -> signals_fit gc -> signals_fit gs -> lives n i ka kb (lstart gc gs oc os) t ->
  exists m t', n + m <= 136 + 13 * (length ka + length kb) + 31 * i /\ lsteps m t t' /\ rested gc gs ka kb t'.
Proof.
  intros O1 O2 F1 F2. remember (136 + 13 * (length ka + length kb) + 31 * i - n) as k eqn:Ek. revert n t Ek. induction k as [|k IH]; intros n t Ek T.
  all: destruct (life_fine _ _ _ _ _ _ _ _ _ O1 O2 F1 F2 T) as (L & _ & _ & _ & _ & [[t' S]|E]); [|exists 0, t; split; [lia|split; [apply LL_0|exact E]]].
  - pose proof (LV_S _ _ _ _ _ _ _ T S) as T'. destruct (life_fine _ _ _ _ _ _ _ _ _ O1 O2 F1 F2 T') as (L' & _). lia.
  - destruct (IH (Datatypes.S n) t') as (m & t2 & Lm & R2 & E2); [lia|eapply LV_S; eauto|]. exists (Datatypes.S m), t2. split; [lia|]. split; [eapply lsteps_cons; eauto|exact E2].
Qed.
