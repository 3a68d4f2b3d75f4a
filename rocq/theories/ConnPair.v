(** A client and a server of the library connected to each other. *)
From Verif Require Import GoBase BaseProofs ParamsModel MessagesModel WireSpec ParamsSpec MsgSpec MessagesProofs MessagesProofs2 ConfigModel
  ConnModel CfgSpec ConnSpec ConnBase ConnInv ConnCodec.
From Coq Require Import Arith Lia.
Open Scope nat_scope.
Opaque max_value_len.

(** ** The pair *)
(** the packets an endpoint has sent *)
Definition packets (l : list event) : list (list byte) :=
  flat_map (fun e => match e with ESend _ _ _ b => [b] | _ => [] end) l.
(** [p_ab], [p_ba]: how many packets of the client (server) have reached the peer *)
Record pair := mkPair { p_cl : conn; p_sv : conn; p_ab : nat; p_ba : nat }.
(** the steps of an endpoint whose environment is benign: no fault, no timeout, no cancellation, no user call *)
Definition benign (l : label) : Prop :=
  match l with
  | LArrive _ | LCancel | LOtherBeat _ | LMon false | LHand _ false | LHb false | LDialTimeout | LCall _ => False
  | _ => True
  end.
(** the transport delivers each packet once, in order *)
Inductive pstep : pair -> pair -> Prop :=
| P_client a b x y l a' : benign l -> step a l = Some a' -> pstep (mkPair a b x y) (mkPair a' b x y)
| P_server a b x y l b' : benign l -> step b l = Some b' -> pstep (mkPair a b x y) (mkPair a b' x y)
| P_to_server a b x y raw b' : nth_error (packets (log a)) x = Some raw -> step b (LArrive raw) = Some b' ->
    pstep (mkPair a b x y) (mkPair a b' (S x) y)
| P_to_client a b x y raw a' : nth_error (packets (log b)) y = Some raw -> step a (LArrive raw) = Some a' ->
    pstep (mkPair a b x y) (mkPair a' b x (S y)).
Inductive psteps : nat -> pair -> pair -> Prop :=
| PS_0 p : psteps 0 p p
| PS_S n p q r : psteps n p q -> pstep q r -> psteps (S n) p r.
Definition pstart (gc gs : config) (oc os : N) : pair := mkPair (start Client gc oc) (start Server gs os) 0 0.

(** ** The scripts *)
Definition at_ (mo : cmode) (g : config) (o : N) (q : list (list byte)) (h : bpc) (s : st) (mn : mpc) (i : bool) (l : list (list instr)) (d : dialst) (lg : list event) : conn :=
  mkConn mo g (u16 (o + 65535)) s false true false q [] mn h i l [] [] d (match cf_hb g with Some x => hb_data x | None => [] end) false None lg.

(** p1, p2: packets received; m1, m2: their contents; b1, b2: the packets sent *)
Definition Cl g o p1 p2 m1 m2 b1 b2 (k : nat) (q : list (list byte)) (h : bpc) : conn :=
  let base := at_ Client g o q h in
  let L0 := [EUpd Down] in
  let L1 := [EUpd Down; ESend OMon 0 (asp_up g) b1] in
  let L2 := L1 ++ [ERead p1] in
  let L3 := L2 ++ [EUpd Inactive] in
  let L4 := L3 ++ [ESend OMon 0 (asp_active g) b2] in
  let L5 := L4 ++ [ERead p2] in
  let L6 := L5 ++ [EUpd Active] in
  match k with
  | 0 => base Down MSelect true [] DWait []
  | 1 => base Down (MUpd Down) false [] DWait []
  | 2 => base Down (MInit (asp_up g)) false [] DWait L0
  | 3 => base Down MRead false [] DWait L1
  | 4 => base Down MSelect false [[IParse p1]] DWait L2
  | 5 => base Down MSelect false [[ISig (Typed m1)]] DWait L2
  | 6 => base Down MSelect false [[IHandle m1; ISt Inactive]] DWait L2
  | 7 => base Down MSelect false [[ISt Inactive]] DWait L2
  | 8 => base Down (MUpd Inactive) false [[]] DWait L2
  | 9 => base Inactive (MInit (asp_active g)) false [[]] DWait L3
  | 10 => base Inactive MRead false [[]] DWait L4
  | 11 => base Inactive MSelect false [[]; [IParse p2]] DWait L5
  | 12 => base Inactive MSelect false [[]; [ISig (Typed m2)]] DWait L5
  | 13 => base Inactive MSelect false [[]; [IHandle m2; ISt Active]] DWait L5
  | 14 => base Inactive MSelect false [[]; [ISt Active]] DWait L5
  | 15 => base Inactive (MUpd Active) false [[]; []] DWait L5
  | 16 => base Active MEst false [[]; []] DWait L6
  | _ => base Active MRead false [[]; []] DOk L6
  end.
Definition up_ack (g : config) : m3ua := Typed (NewAspUpAck (cf_aspid g) None).
Definition active_ack (g : config) : m3ua := Typed (NewAspActiveAck (cf_tmt g) (cf_rc g) None).
Definition Sv g o p1 p2 m1 m2 b1 b2 (k : nat) (q : list (list byte)) (h : bpc) : conn :=
  let base := at_ Server g o q h in
  let L0 := [EUpd Down] in
  let L1 := L0 ++ [ERead p1] in
  let L2 := L1 ++ [ESend (OHand 0) 0 (up_ack g) b1] in
  let L3 := L2 ++ [EUpd Inactive] in
  let L4 := L3 ++ [ERead p2] in
  let L5 := L4 ++ [ESend (OHand 1) 0 (active_ack g) b2] in
  let L6 := L5 ++ [EUpd Active] in
  match k with
  | 0 => base Down MSelect true [] DWait []
  | 1 => base Down (MUpd Down) false [] DWait []
  | 2 => base Down MRead false [] DWait L0
  | 3 => base Down MSelect false [[IParse p1]] DWait L1
  | 4 => base Down MSelect false [[ISig (Typed m1)]] DWait L1
  | 5 => base Down MSelect false [[IHandle m1; ISt Inactive]] DWait L1
  | 6 => base Down MSelect false [[IWrite (up_ack g); ISt Inactive]] DWait L1
  | 7 => base Down MSelect false [[ISt Inactive]] DWait L2
  | 8 => base Down (MUpd Inactive) false [[]] DWait L2
  | 9 => base Inactive MRead false [[]] DWait L3
  | 10 => base Inactive MSelect false [[]; [IParse p2]] DWait L4
  | 11 => base Inactive MSelect false [[]; [ISig (Typed m2)]] DWait L4
  | 12 => base Inactive MSelect false [[]; [IHandle m2; ISt Active]] DWait L4
  | 13 => base Inactive MSelect false [[]; [IWrite (active_ack g); ISt Active]] DWait L4
  | 14 => base Inactive MSelect false [[]; [ISt Active]] DWait L5
  | 15 => base Inactive (MUpd Active) false [[]; []] DWait L5
  | 16 => base Active MEst false [[]; []] DWait L6
  | _ => base Active MRead false [[]; []] DOk L6
  end.
(** the heartbeat goroutine while the heartbeat is disabled *)
Definition hq (h : bpc) : Prop := match h with BStart | BWait | BRun | BDone => True | _ => False end.
Definition hw (h : bpc) : nat := match h with BStart => 3 | BWait => 2 | BRun => 1 | _ => 0 end.
Definition woken (h : bpc) : bpc := match h with BWait => BRun | _ => h end.

Lemma signal_ok o c m b : wire m = Ok b -> sopen c = true -> WriteSignal o c m true = WOk (emit (ESend o 0 m b) c) (m3_MarshalLen m + length b).
Proof. intros W S. unfold WriteSignal, can_write. rewrite W, S. now destruct (b2n (MessageClass m) =? 1)%N. Qed.
(** the step of an endpoint that executes step k of its script; [w k]: the script waits for a packet *)
Definition scripted (S : nat -> list (list byte) -> bpc -> conn) (w : nat -> bool) (k : nat) (q : list (list byte)) (h : bpc) (c' : conn) : Prop :=
  (exists h', c' = S k q h' /\ hq h' /\ hw h' < hw h) \/
  (k < 17 /\ exists q' h', c' = S (Datatypes.S k) q' h' /\ hq h' /\ hw h' <= hw h /\ (if w k then exists r, q = r :: q' else q' = q)).
Definition cwait (k : nat) : bool := match k with 3 | 10 => true | _ => false end.
Definition swait (k : nat) : bool := match k with 2 | 9 => true | _ => false end.


Lemma quiet_labels c l c' : us c = [] -> ds c = [] -> ctxd c = false -> closed c = false -> hq (hb c) -> hb_on (cfg c) = false -> crash c = None ->
  benign l -> step c l = Some c' ->
  (exists h, c' = set_hb h c /\ hq h /\ hw h < hw (hb c)) \/ l = LInit \/ l = LMon true \/ exists i, l = LHand i true.
Proof.
  intros U D X K H Ho C B S. unfold step in S. rewrite C in S.
  assert (Nn : forall A i, @nth_error A [] i = None) by (intros A [|]; reflexivity).
  destruct l; try contradiction; try rewrite D in S; try rewrite U in S; try rewrite X in S; try rewrite K in S; auto.
  - destruct ok; [auto|contradiction].
  - destruct (mon c); discriminate.
  - destruct ok; [eauto 6|contradiction].
  - unfold step_data in S. rewrite D, Nn in S. discriminate.
  - rewrite Nn in S. discriminate.
  - unfold step_hb in S. rewrite Ho in S. destruct ok; [|contradiction]. left.
    destruct (hb c); cbn in H; try contradiction; try discriminate; injection S as <-; eexists; (split; [reflexivity|]); cbn; split; auto; lia.
  - destruct (hb c); cbn in H; try contradiction; discriminate.
  - destruct (hb c); cbn in H; try contradiction; discriminate.
  - destruct (hb c); cbn in H; try contradiction; discriminate.
  - destruct (dial c); discriminate.
  - unfold step_user in S. rewrite U, Nn in S. discriminate.
Qed.

Lemma Cl_step g o p1 p2 m1 m2 b1 b2 k q h l c' : hb_on g = false -> hq h -> k <= 17 ->
  wire (asp_up g) = Ok b1 -> wire (asp_active g) = Ok b2 -> valid p1 (Typed m1) -> valid p2 (Typed m2) ->
  length p1 <= bufsize -> length p2 <= bufsize -> m_kind m1 = KAspUpAck -> m_kind m2 = KAspActiveAck ->
  (k = 3 -> q = [] \/ exists r, q = p1 :: r) -> (k = 10 -> q = [] \/ exists r, q = p2 :: r) -> (k = 17 -> q = []) ->
  benign l -> step (Cl g o p1 p2 m1 m2 b1 b2 k q h) l = Some c' ->
  scripted (Cl g o p1 p2 m1 m2 b1 b2) cwait k q h c'.
Proof.
  intros Hb Hh Lk W1 W2 [P1 V1] [P2 V2] L1 L2 K1 K2 Q3 Q10 Q17 Be St.
  assert (Pl1 : plan (Typed m1) = (None, [IHandle m1; ISt Inactive])) by (unfold plan; now rewrite K1).
  assert (Pl2 : plan (Typed m2) = (None, [IHandle m2; ISt Active])) by (unfold plan; now rewrite K2).
  assert (Hn1 : forall d, handle g d Down m1 = HNil) by (intros; unfold handle; now rewrite K1).
  assert (Hn2 : forall d, handle g d Inactive m2 = HNil) by (intros; unfold handle; now rewrite K2).
  assert (F1 : firstn bufsize p1 = p1) by (apply firstn_all2; lia). assert (E1 : skipn bufsize p1 = []) by (apply skipn_all2; lia).
  assert (F2 : firstn bufsize p2 = p2) by (apply firstn_all2; lia). assert (E2 : skipn bufsize p2 = []) by (apply skipn_all2; lia).
  assert (Z : forall k, k <= 17 -> forall h h', set_hb h' (Cl g o p1 p2 m1 m2 b1 b2 k q h) = Cl g o p1 p2 m1 m2 b1 b2 k q h').
  { clear. intros k Lk h h'. do 18 (destruct k as [|k]; [reflexivity|]). lia. }
  assert (B : forall T (f : conn -> T) v, (forall s mn i l d lg, f (at_ Client g o q h s mn i l d lg) = v) -> f (Cl g o p1 p2 m1 m2 b1 b2 k q h) = v).
  { clear. intros T f v E. unfold Cl. do 17 (destruct k as [|k]; [apply E|]). apply E. }
  assert (Hbe : hb (Cl g o p1 p2 m1 m2 b1 b2 k q h) = h) by (now apply (B _ hb)).
  destruct (quiet_labels _ _ _ (B _ us [] ltac:(reflexivity)) (B _ ds [] ltac:(reflexivity)) (B _ ctxd false ltac:(reflexivity)) (B _ closed false ltac:(reflexivity))
    ltac:(rewrite Hbe; exact Hh) ltac:(rewrite (B _ cfg g ltac:(reflexivity)); exact Hb) (B _ crash None ltac:(reflexivity)) Be St) as [(h' & -> & A1 & A2)|Lb].
  { left. exists h'. rewrite Hbe in A2. rewrite Z by exact Lk. auto. }
  clear Be. right.
  assert (Ik : In k (seq 0 18)) by (apply in_seq; lia). cbn [seq] in Ik. clear B Z Hbe Lk.
  repeat (destruct Ik as [<-|Ik]; [|]); try contradiction.
  all: destruct Lb as [->|[->|[i ->]]].
  all: unfold step, step_hand, step_mon in St; cbn [Cl at_ crash mon ini hs] in St; try discriminate;
    try (destruct i as [|[|i]]; cbn [nth_error] in St; try discriminate; try (destruct i; discriminate)).
  all: cbn [at_ sopen inq ctxd unlocked mon handle cfg hbd state] in St;
    rewrite ?P1, ?P2, ?V1, ?V2, ?Pl1, ?Pl2, ?Hn1, ?Hn2, ?(signal_ok _ _ _ _ W1), ?(signal_ok _ _ _ _ W2) in St by reflexivity;
    try (destruct (Q3 eq_refl) as [->|[r ->]]; [discriminate|]); try (destruct (Q10 eq_refl) as [->|[r ->]]; [discriminate|]);
    try (rewrite (Q17 eq_refl) in St; discriminate);
    cbv beta iota in St; rewrite ?F1, ?E1, ?F2, ?E2 in St; cbn [andb N.eqb negb Pos.eqb] in St; injection St as <-; (split; [lia|]).
  all: try (exists q, h; split; [reflexivity|split; [exact Hh|split; [lia|reflexivity]]]).
  all: try (exists r, h; split; [reflexivity|split; [exact Hh|split; [lia|eexists; reflexivity]]]).
  exists q, (woken h). destruct h; cbn in Hh; try contradiction; (split; [reflexivity|split; [exact Logic.I|split; [cbn; lia|reflexivity]]]).
Qed.

Lemma Sv_step g o p1 p2 m1 m2 b1 b2 k q h l c' : hb_on g = false -> hq h -> k <= 17 ->
  wire (up_ack g) = Ok b1 -> wire (active_ack g) = Ok b2 -> valid p1 (Typed m1) -> valid p2 (Typed m2) ->
  length p1 <= bufsize -> length p2 <= bufsize -> m_kind m1 = KAspUp -> m_kind m2 = KAspActive ->
  (k = 2 -> q = [] \/ exists r, q = p1 :: r) -> (k = 9 -> q = [] \/ exists r, q = p2 :: r) -> (k = 17 -> q = []) ->
  benign l -> step (Sv g o p1 p2 m1 m2 b1 b2 k q h) l = Some c' ->
  scripted (Sv g o p1 p2 m1 m2 b1 b2) swait k q h c'.
Proof.
  intros Hb Hh Lk W1 W2 [P1 V1] [P2 V2] L1 L2 K1 K2 Q3 Q10 Q17 Be St.
  assert (Pl1 : plan (Typed m1) = (None, [IHandle m1; ISt Inactive])) by (unfold plan; now rewrite K1).
  assert (Pl2 : plan (Typed m2) = (None, [IHandle m2; ISt Active])) by (unfold plan; now rewrite K2).
  assert (Hn1 : forall d, handle g d Down m1 = HReply (up_ack g)) by (intros; unfold handle; now rewrite K1).
  assert (Hn2 : forall d, handle g d Inactive m2 = HReply (active_ack g)) by (intros; unfold handle; now rewrite K2).
  assert (F1 : firstn bufsize p1 = p1) by (apply firstn_all2; lia). assert (E1 : skipn bufsize p1 = []) by (apply skipn_all2; lia).
  assert (F2 : firstn bufsize p2 = p2) by (apply firstn_all2; lia). assert (E2 : skipn bufsize p2 = []) by (apply skipn_all2; lia).
  assert (Z : forall k, k <= 17 -> forall h h', set_hb h' (Sv g o p1 p2 m1 m2 b1 b2 k q h) = Sv g o p1 p2 m1 m2 b1 b2 k q h').
  { clear. intros k Lk h h'. do 18 (destruct k as [|k]; [reflexivity|]). lia. }
  assert (B : forall T (f : conn -> T) v, (forall s mn i l d lg, f (at_ Server g o q h s mn i l d lg) = v) -> f (Sv g o p1 p2 m1 m2 b1 b2 k q h) = v).
  { clear. intros T f v E. unfold Sv. do 17 (destruct k as [|k]; [apply E|]). apply E. }
  assert (Hbe : hb (Sv g o p1 p2 m1 m2 b1 b2 k q h) = h) by (now apply (B _ hb)).
  destruct (quiet_labels _ _ _ (B _ us [] ltac:(reflexivity)) (B _ ds [] ltac:(reflexivity)) (B _ ctxd false ltac:(reflexivity)) (B _ closed false ltac:(reflexivity))
    ltac:(rewrite Hbe; exact Hh) ltac:(rewrite (B _ cfg g ltac:(reflexivity)); exact Hb) (B _ crash None ltac:(reflexivity)) Be St) as [(h' & -> & A1 & A2)|Lb].
  { left. exists h'. rewrite Hbe in A2. rewrite Z by exact Lk. auto. }
  clear Be. right.
  assert (Ik : In k (seq 0 18)) by (apply in_seq; lia). cbn [seq] in Ik. clear B Z Hbe Lk.
  repeat (destruct Ik as [<-|Ik]; [|]); try contradiction.
  all: destruct Lb as [->|[->|[i ->]]].
  all: unfold step, step_hand, step_mon in St; cbn [Sv at_ crash mon ini hs] in St; try discriminate;
    try (destruct i as [|[|i]]; cbn [nth_error] in St; try discriminate; try (destruct i; discriminate)).
  all: cbn [at_ sopen inq ctxd unlocked mon handle cfg hbd state] in St;
    rewrite ?P1, ?P2, ?V1, ?V2, ?Pl1, ?Pl2, ?Hn1, ?Hn2, ?(signal_ok _ _ _ _ W1), ?(signal_ok _ _ _ _ W2) in St by reflexivity;
    try (destruct (Q3 eq_refl) as [->|[r ->]]; [discriminate|]); try (destruct (Q10 eq_refl) as [->|[r ->]]; [discriminate|]);
    try (rewrite (Q17 eq_refl) in St; discriminate);
    cbv beta iota in St; rewrite ?F1, ?E1, ?F2, ?E2 in St; cbn [andb N.eqb negb Pos.eqb] in St; injection St as <-; (split; [lia|]).
  all: try (exists q, h; split; [reflexivity|split; [exact Hh|split; [lia|reflexivity]]]).
  all: try (exists r, h; split; [reflexivity|split; [exact Hh|split; [lia|eexists; reflexivity]]]).
  exists q, (woken h). destruct h; cbn in Hh; try contradiction; (split; [reflexivity|split; [exact Logic.I|split; [cbn; lia|reflexivity]]]).
Qed.

Definition clabel (k : nat) : label :=
  match k with 0 => LInit | 4 | 5 | 6 | 7 => LHand 0 true | 11 | 12 | 13 | 14 => LHand 1 true | _ => LMon true end.
Lemma Cl_go g o p1 p2 m1 m2 b1 b2 k q h : 
  wire (asp_up g) = Ok b1 -> wire (asp_active g) = Ok b2 -> valid p1 (Typed m1) -> valid p2 (Typed m2) ->
  m_kind m1 = KAspUpAck -> m_kind m2 = KAspActiveAck ->
  k < 17 -> (cwait k = true -> q <> []) -> exists c', benign (clabel k) /\ step (Cl g o p1 p2 m1 m2 b1 b2 k q h) (clabel k) = Some c'.
Proof.
  intros W1 W2 [P1 V1] [P2 V2] K1 K2 Lk Q.
  assert (Pl1 : plan (Typed m1) = (None, [IHandle m1; ISt Inactive])) by (unfold plan; now rewrite K1).
  assert (Pl2 : plan (Typed m2) = (None, [IHandle m2; ISt Active])) by (unfold plan; now rewrite K2).
  assert (Hn1 : forall d, handle g d Down m1 = HNil) by (intros; unfold handle; now rewrite K1).
  assert (Hn2 : forall d, handle g d Inactive m2 = HNil) by (intros; unfold handle; now rewrite K2).
  assert (Ik : In k (seq 0 17)) by (apply in_seq; lia). cbn [seq] in Ik.
  repeat (destruct Ik as [<-|Ik]; [|]); try contradiction.
  all: unfold step, step_hand, step_mon; cbn [clabel Cl at_ crash mon ini hs nth_error sopen inq ctxd unlocked cfg hbd state];
    rewrite ?P1, ?P2, ?V1, ?V2, ?Pl1, ?Pl2, ?Hn1, ?Hn2, ?(signal_ok _ _ _ _ W1), ?(signal_ok _ _ _ _ W2) by reflexivity;
    try (destruct q as [|r q]; [exfalso; now apply Q|]); eexists; (split; [exact Logic.I|reflexivity]).
Qed.

Definition slabel (k : nat) : label :=
  match k with 0 => LInit | 3 | 4 | 5 | 6 | 7 => LHand 0 true | 10 | 11 | 12 | 13 | 14 => LHand 1 true | _ => LMon true end.
Lemma Sv_go g o p1 p2 m1 m2 b1 b2 k q h : 
  wire (up_ack g) = Ok b1 -> wire (active_ack g) = Ok b2 -> valid p1 (Typed m1) -> valid p2 (Typed m2) ->
  m_kind m1 = KAspUp -> m_kind m2 = KAspActive ->
  k < 17 -> (swait k = true -> q <> []) -> exists c', benign (slabel k) /\ step (Sv g o p1 p2 m1 m2 b1 b2 k q h) (slabel k) = Some c'.
Proof.
  intros W1 W2 [P1 V1] [P2 V2] K1 K2 Lk Q.
  assert (Pl1 : plan (Typed m1) = (None, [IHandle m1; ISt Inactive])) by (unfold plan; now rewrite K1).
  assert (Pl2 : plan (Typed m2) = (None, [IHandle m2; ISt Active])) by (unfold plan; now rewrite K2).
  assert (Hn1 : forall d, handle g d Down m1 = HReply (up_ack g)) by (intros; unfold handle; now rewrite K1).
  assert (Hn2 : forall d, handle g d Inactive m2 = HReply (active_ack g)) by (intros; unfold handle; now rewrite K2).
  assert (Ik : In k (seq 0 17)) by (apply in_seq; lia). cbn [seq] in Ik.
  repeat (destruct Ik as [<-|Ik]; [|]); try contradiction.
  all: unfold step, step_hand, step_mon; cbn [slabel Sv at_ crash mon ini hs nth_error sopen inq ctxd unlocked cfg hbd state];
    rewrite ?P1, ?P2, ?V1, ?V2, ?Pl1, ?Pl2, ?Hn1, ?Hn2, ?(signal_ok _ _ _ _ W1), ?(signal_ok _ _ _ _ W2) by reflexivity;
    try (destruct q as [|r q]; [exfalso; now apply Q|]); eexists; (split; [exact Logic.I|reflexivity]).
Qed.

(** ** The invariant *)
Definition win {A} (a b : nat) (l : list A) : list A := firstn (b - a) (skipn a l).
Lemma win_snoc {A} (u v : A) a b x : a <= b -> nth_error [u; v] b = Some x -> win a b [u; v] ++ [x] = win a (S b) [u; v].
Proof.
  intros L N. destruct b as [|[|[|b]]]; cbn in N; inversion N; subst; destruct a as [|[|a]]; try lia; reflexivity.
Qed.
Lemma win_pop {A} (u v : A) a b r q : b <= 2 -> win a b [u; v] = r :: q -> a < b /\ q = win (S a) b [u; v] /\ nth_error [u; v] a = Some r.
Proof.
  intros L H. destruct a as [|[|a]], b as [|[|[|b]]]; try lia; cbn in H; inversion H; subst; repeat split; auto; try lia.
Qed.
Lemma win_nil {A} (u v : A) a b : a <= b -> b <= 2 -> win a b [u; v] = [] -> a = b.
Proof. intros L L2 H. destruct a as [|[|[|a]]], b as [|[|[|b]]]; try lia; cbn in H; inversion H; auto. Qed.
Lemma win_same {A} (l : list A) a : win a a l = [].
Proof. unfold win. now rewrite Nat.sub_diag. Qed.

Definition csent (k : nat) : nat := if k <? 3 then 0 else if k <? 10 then 1 else 2.
Definition cread (k : nat) : nat := if k <? 4 then 0 else if k <? 11 then 1 else 2.
Definition ssent (k : nat) : nat := if k <? 7 then 0 else if k <? 14 then 1 else 2.
Definition sread (k : nat) : nat := if k <? 3 then 0 else if k <? 10 then 1 else 2.

Lemma Cl_packets g o p1 p2 m1 m2 b1 b2 k q h : k <= 17 -> packets (log (Cl g o p1 p2 m1 m2 b1 b2 k q h)) = firstn (csent k) [b1; b2].
Proof. intros L. do 18 (destruct k as [|k]; [reflexivity|]). lia. Qed.
Lemma Sv_packets g o p1 p2 m1 m2 b1 b2 k q h : k <= 17 -> packets (log (Sv g o p1 p2 m1 m2 b1 b2 k q h)) = firstn (ssent k) [b1; b2].
Proof. intros L. do 18 (destruct k as [|k]; [reflexivity|]). lia. Qed.
Lemma Cl_arrive g o p1 p2 m1 m2 b1 b2 k q h raw : k <= 17 -> step (Cl g o p1 p2 m1 m2 b1 b2 k q h) (LArrive raw) = Some (Cl g o p1 p2 m1 m2 b1 b2 k (q ++ [raw]) h).
Proof. intros L. do 18 (destruct k as [|k]; [reflexivity|]). lia. Qed.
Lemma Sv_arrive g o p1 p2 m1 m2 b1 b2 k q h raw : k <= 17 -> step (Sv g o p1 p2 m1 m2 b1 b2 k q h) (LArrive raw) = Some (Sv g o p1 p2 m1 m2 b1 b2 k (q ++ [raw]) h).
Proof. intros L. do 18 (destruct k as [|k]; [reflexivity|]). lia. Qed.
Lemma nth_firstn {A} (l : list A) n i x : nth_error (firstn n l) i = Some x -> i < n /\ nth_error l i = Some x.
Proof.
  revert l i. induction n as [|n IH]; intros l i H; [destruct i; discriminate|].
  destruct l as [|a l]; [destruct i; discriminate|]. destruct i; cbn in *; [split; [lia|auto]|]. apply IH in H. split; [lia|apply H].
Qed.

(** what both sides send and how it decodes *)
Record plays (gc gs : config) (up act upk ack : list byte) (mu ma mk mc : msg) : Prop := {
  pl_c : hb_on gc = false; pl_s : hb_on gs = false;
  pl_up : wire (asp_up gc) = Ok up; pl_act : wire (asp_active gc) = Ok act;
  pl_upk : wire (up_ack gs) = Ok upk; pl_ack : wire (active_ack gs) = Ok ack;
  pl_mu : valid up (Typed mu); pl_ma : valid act (Typed ma); pl_mk : valid upk (Typed mk); pl_mc : valid ack (Typed mc);
  pl_ku : m_kind mu = KAspUp; pl_ka : m_kind ma = KAspActive; pl_kk : m_kind mk = KAspUpAck; pl_kc : m_kind mc = KAspActiveAck;
  pl_lu : length up <= bufsize; pl_la : length act <= bufsize; pl_lk : length upk <= bufsize; pl_lc : length ack <= bufsize }.

Definition PInv gc gs oc os up act upk ack mu ma mk mc (n : nat) (p : pair) : Prop :=
  exists k j x y hc hs, k <= 17 /\ j <= 17 /\ hq hc /\ hq hs /\ sread j <= x <= csent k /\ cread k <= y <= ssent j /\
    n = (17 - k) + (17 - j) + (2 - x) + (2 - y) + hw hc + hw hs /\
    p = mkPair (Cl gc oc upk ack mk mc up act k (win (cread k) y [upk; ack]) hc)
               (Sv gs os up act mu ma upk ack j (win (sread j) x [up; act]) hs) x y.

Lemma sent_2 k : csent k <= 2 /\ ssent k <= 2.
Proof. unfold csent, ssent. destruct (k <? 3), (k <? 10), (k <? 7), (k <? 14); lia. Qed.
Lemma cread_S k : k < 17 -> cread (S k) = (if cwait k then S (cread k) else cread k) /\ csent k <= csent (S k).
Proof. intros L. do 17 (destruct k as [|k]; [cbn; auto|]). lia. Qed.
Lemma sread_S k : k < 17 -> sread (S k) = (if swait k then S (sread k) else sread k) /\ ssent k <= ssent (S k).
Proof. intros L. do 17 (destruct k as [|k]; [cbn; auto|]). lia. Qed.

Lemma PInv_step gc gs oc os up act upk ack mu ma mk mc n p p' : plays gc gs up act upk ack mu ma mk mc ->
  PInv gc gs oc os up act upk ack mu ma mk mc n p -> pstep p p' -> exists n', n' < n /\ PInv gc gs oc os up act upk ack mu ma mk mc n' p'.
Proof.
  intros [] (k & j & x & y & hc & hs & Lk & Lj & Hc & Hs & X & Y & En & ->) S.
  pose proof (sent_2 k) as [Sk _]. pose proof (sent_2 j) as [_ Sj].
  inversion S; subst; clear S.
  - destruct (Cl_step gc oc upk ack mk mc up act k (win (cread k) y [upk; ack]) hc l a') as [(h' & -> & A & B)|(Lt & q' & h' & -> & A & B & W)]; auto.
    + intros ->. destruct (win (cread 3) y [upk; ack]) as [|r q] eqn:E; [auto|]. right. apply win_pop in E as (_ & _ & E); [|lia]. injection E as <-. eauto.
    + intros ->. destruct (win (cread 10) y [upk; ack]) as [|r q] eqn:E; [auto|]. right. apply win_pop in E as (_ & _ & E); [|lia]. injection E as <-. eauto.
    + intros ->. replace y with (cread 17); [apply win_same|]. change (cread 17) with 2 in *. lia.
    + eexists. split; [|exists k, j, x, y, h', hs; repeat split; auto; try lia; reflexivity]. lia.
    + destruct (cread_S k Lt) as [E1 E2].
      assert (q' = win (cread (Datatypes.S k)) y [upk; ack] /\ cread (Datatypes.S k) <= y) as [-> L].
      { rewrite E1. destruct (cwait k); [destruct W as [r W]; apply win_pop in W as (W1 & W2 & _); [split; auto|lia]|subst q'; split; auto; lia]. }
      eexists. split; [|exists (Datatypes.S k), j, x, y, h', hs; repeat split; auto; try lia; reflexivity]. lia.
  - destruct (Sv_step gs os up act mu ma upk ack j (win (sread j) x [up; act]) hs l b') as [(h' & -> & A & B)|(Lt & q' & h' & -> & A & B & W)]; auto.
    + intros ->. destruct (win (sread 2) x [up; act]) as [|r q] eqn:E; [auto|]. right. apply win_pop in E as (_ & _ & E); [|lia]. injection E as <-. eauto.
    + intros ->. destruct (win (sread 9) x [up; act]) as [|r q] eqn:E; [auto|]. right. apply win_pop in E as (_ & _ & E); [|lia]. injection E as <-. eauto.
    + intros ->. replace x with (sread 17); [apply win_same|]. change (sread 17) with 2 in *. lia.
    + eexists. split; [|exists k, j, x, y, hc, h'; repeat split; auto; try lia; reflexivity]. lia.
    + destruct (sread_S j Lt) as [E1 E2].
      assert (q' = win (sread (Datatypes.S j)) x [up; act] /\ sread (Datatypes.S j) <= x) as [-> L].
      { rewrite E1. destruct (swait j); [destruct W as [r W]; apply win_pop in W as (W1 & W2 & _); [split; auto|lia]|subst q'; split; auto; lia]. }
      eexists. split; [|exists k, (Datatypes.S j), x, y, hc, h'; repeat split; auto; try lia; reflexivity]. lia.
  - match goal with H : nth_error _ x = Some raw |- _ => rewrite Cl_packets in H by exact Lk; apply nth_firstn in H as [Lx N] end.
    match goal with H : step _ _ = Some b' |- _ => rewrite Sv_arrive in H by exact Lj; injection H as <- end.
    rewrite (win_snoc up act (sread j) x raw) by (auto; lia).
    eexists. split; [|exists k, j, (Datatypes.S x), y, hc, hs; repeat split; auto; try lia; reflexivity]. lia.
  - match goal with H : nth_error _ y = Some raw |- _ => rewrite Sv_packets in H by exact Lj; apply nth_firstn in H as [Lx N] end.
    match goal with H : step _ _ = Some a' |- _ => rewrite Cl_arrive in H by exact Lk; injection H as <- end.
    rewrite (win_snoc upk ack (cread k) y raw) by (auto; lia).
    eexists. split; [|exists k, j, x, (Datatypes.S y), hc, hs; repeat split; auto; try lia; reflexivity]. lia.
Qed.

Lemma PInv_safe gc gs oc os up act upk ack mu ma mk mc n p : PInv gc gs oc os up act upk ack mu ma mk mc n p ->
  forall e, In e (log (p_cl p) ++ log (p_sv p)) -> match e with ERefused _ _ | EClosed => False | _ => True end.
Proof.
  intros (k & j & x & y & hc & hs & Lk & Lj & _ & _ & _ & _ & _ & ->) e H. cbn [p_cl p_sv] in H. apply in_app_iff in H as [H|H].
  - do 18 (destruct k as [|k]; [cbn in H; repeat (destruct H as [<-|H]; [exact Logic.I|]); contradiction|]). lia.
  - do 18 (destruct j as [|j]; [cbn in H; repeat (destruct H as [<-|H]; [exact Logic.I|]); contradiction|]). lia.
Qed.
Lemma PInv_crash gc gs oc os up act upk ack mu ma mk mc n p : PInv gc gs oc os up act upk ack mu ma mk mc n p ->
  crash (p_cl p) = None /\ crash (p_sv p) = None.
Proof.
  intros (k & j & x & y & hc & hs & Lk & Lj & _ & _ & _ & _ & _ & ->). cbn [p_cl p_sv]. split.
  - do 18 (destruct k as [|k]; [reflexivity|]). lia.
  - do 18 (destruct j as [|j]; [reflexivity|]). lia.
Qed.
(** both connections are established and wait for packets *)
Definition up_and_running (c : conn) : Prop :=
  state c = Active /\ dial c = DOk /\ mon c = MRead /\ updates (log c) = [Down; Inactive; Active].
Lemma PInv_end gc gs oc os up act upk ack mu ma mk mc n p : plays gc gs up act upk ack mu ma mk mc ->
  PInv gc gs oc os up act upk ack mu ma mk mc n p -> (forall p', ~ pstep p p') -> up_and_running (p_cl p) /\ up_and_running (p_sv p).
Proof.
  intros [] (k & j & x & y & hc & hs & Lk & Lj & Hc & Hs & X & Y & En & ->) S.
  pose proof (sent_2 k) as [Sk _]. pose proof (sent_2 j) as [_ Sj].
  assert (Xe : x = csent k).
  { destruct (Nat.eq_dec x (csent k)) as [|Ne]; auto. exfalso.
    destruct (nth_error (firstn (csent k) [up; act]) x) as [raw|] eqn:N.
    - eapply S. eapply P_to_server; [rewrite Cl_packets by exact Lk; exact N|apply Sv_arrive; exact Lj].
    - apply nth_error_None in N. rewrite firstn_length in N. cbn [length] in N. lia. }
  assert (Ye : y = ssent j).
  { destruct (Nat.eq_dec y (ssent j)) as [|Ne]; auto. exfalso.
    destruct (nth_error (firstn (ssent j) [upk; ack]) y) as [raw|] eqn:N.
    - eapply S. eapply P_to_client; [rewrite Sv_packets by exact Lj; exact N|apply Cl_arrive; exact Lk].
    - apply nth_error_None in N. rewrite firstn_length in N. cbn [length] in N. lia. }
  assert (Ck : k = 17 \/ (cwait k = true /\ cread k = y)).
  { destruct (Nat.eq_dec k 17) as [|Ne]; [auto|]. right.
    destruct (cwait k) eqn:W; [|exfalso].
    - split; auto. destruct (win (cread k) y [upk; ack]) as [|r q] eqn:E; [apply win_nil in E; auto; lia|]. exfalso.
      destruct (Cl_go gc oc upk ack mk mc up act k (r :: q) hc) as (c' & B & St); auto; [lia|discriminate|].
      eapply S. eapply P_client; [exact B|exact St].
    - destruct (Cl_go gc oc upk ack mk mc up act k (win (cread k) y [upk; ack]) hc) as (c' & B & St); auto; [lia|congruence|].
      eapply S. eapply P_client; [exact B|exact St]. }
  assert (Cj : j = 17 \/ (swait j = true /\ sread j = x)).
  { destruct (Nat.eq_dec j 17) as [|Ne]; [auto|]. right.
    destruct (swait j) eqn:W; [|exfalso].
    - split; auto. destruct (win (sread j) x [up; act]) as [|r q] eqn:E; [apply win_nil in E; auto; lia|]. exfalso.
      destruct (Sv_go gs os up act mu ma upk ack j (r :: q) hs) as (c' & B & St); auto; [lia|discriminate|].
      eapply S. eapply P_server; [exact B|exact St].
    - destruct (Sv_go gs os up act mu ma upk ack j (win (sread j) x [up; act]) hs) as (c' & B & St); auto; [lia|congruence|].
      eapply S. eapply P_server; [exact B|exact St]. }
  clear S. subst x y.
  assert (k = 17 /\ j = 17) as [-> ->].
  { assert (Ek : k = 17 \/ k = 3 \/ k = 10).
    { destruct Ck as [|[W _]]; auto. right. do 17 (destruct k as [|k]; [cbn in W; try discriminate W; lia|]). cbn in W. discriminate W. }
    assert (Ej : j = 17 \/ j = 2 \/ j = 9).
    { destruct Cj as [|[W _]]; auto. right. do 17 (destruct j as [|j]; [cbn in W; try discriminate W; lia|]). cbn in W. discriminate W. }
    destruct Ek as [->|[-> | ->]], Ej as [->|[-> | ->]]; auto; cbn in X, Y, Ck, Cj; try lia;
      destruct Ck as [?|[_ ?]]; destruct Cj as [?|[_ ?]]; lia. }
  split; repeat split.
Qed.
Lemma PInv_start gc gs oc os up act upk ack mu ma mk mc : PInv gc gs oc os up act upk ack mu ma mk mc 44 (pstart gc gs oc os).
Proof. exists 0, 0, 0, 0, BStart, BStart. repeat split; auto; cbn; lia. Qed.

(** the handshake messages of a configuration fit the receive buffer *)
Definition handshake_fits (g : config) : Prop :=
  8 + slot_size (cf_aspid g) <= 1500 /\ 8 + slot_size (cf_tmt g) + slot_size (cf_rc g) <= 1500.
Lemma sum_slots l l' : map slot_size l = map slot_size l' -> sum_len l = sum_len l'.
Proof.
  revert l'. induction l as [|a l IH]; intros [|b l'] H; cbn [map] in H; inversion H; auto. cbn [sum_len fold_right].
  rewrite !slot_size_len. fold (sum_len l) (sum_len l'). rewrite (IH l'); auto.
Qed.
Lemma plays_packet t slots m k : roundtrips t slots m -> m_kind m = k -> b2n (h_version (m_hdr m)) = 1%N ->
  map slot_size (slots_of m) = map slot_size slots -> 8 + sum_len slots <= 1500 ->
  exists b m', wire (Typed m) = Ok b /\ valid b (Typed m') /\ m_kind m' = k /\ length b <= bufsize.
Proof.
  intros (m' & E & Le & P & _) K V Sl Ln. destruct (wire_total (Typed m)) as [b W]. pose proof (wire_encodes _ _ W) as [m2 E2].
  assert (X : m2 = Typed m' /\ b = packet x01 x00 (rfc_class t) (rfc_type t) (N.of_nat (8 + length (body_for (present slots)))) (body_for (present slots))).
  { rewrite E in E2. split; congruence. }
  destruct X as [-> ->]. eexists _, m'. split; [exact W|].
  rewrite msg_MarshalBinary_ok in E. assert (E' : m' = mkMsg (m_kind m) (set_payload (m_hdr m) (m_body m)) (m_f m)) by congruence.
  split; [split; [exact P|rewrite E'; exact V]|]. split; [rewrite E'; exact K|].
  rewrite <- Le. cbn [m3_MarshalLen]. rewrite msg_MarshalLen_sum, (sum_slots _ _ Sl). exact Ln.
Qed.
Lemma cfg_plays gc gs : cfg_ok gc -> cfg_ok gs -> handshake_fits gc -> handshake_fits gs -> hb_on gc = false -> hb_on gs = false ->
  exists up act upk ack mu ma mk mc, plays gc gs up act upk ack mu ma mk mc.
Proof.
  intros (A1 & A2 & _ & A4 & _) (B1 & B2 & _ & B4 & _) [Fc1 Fc2] [Fs1 Fs2] Hc Hs.
  destruct (plays_packet ASPUP [cf_aspid gc; None] (NewAspUp (cf_aspid gc) None) KAspUp) as (up & mu & W1 & V1 & K1 & L1).
  { apply NewAspUp_rt. repeat (apply Forall2_cons; [first [assumption | exact Logic.I]|]); apply Forall2_nil. }
  { reflexivity. } { reflexivity. } { destruct (cf_aspid gc); reflexivity. }
  { cbn [sum_len fold_right]. rewrite !slot_size_len. cbn [slot_size]. lia. }
  destruct (plays_packet ASPUP_ACK [cf_aspid gs; None] (NewAspUpAck (cf_aspid gs) None) KAspUpAck) as (upk & mk & W2 & V2 & K2 & L2).
  { apply NewAspUpAck_rt. repeat (apply Forall2_cons; [first [assumption | exact Logic.I]|]); apply Forall2_nil. }
  { reflexivity. } { reflexivity. } { destruct (cf_aspid gs); reflexivity. }
  { cbn [sum_len fold_right]. rewrite !slot_size_len. cbn [slot_size]. lia. }
  destruct (plays_packet ASPAC [cf_tmt gc; cf_rc gc; None] (NewAspActive (cf_tmt gc) (cf_rc gc) None) KAspActive) as (act & ma & W3 & V3 & K3 & L3).
  { apply NewAspActive_rt. repeat (apply Forall2_cons; [first [assumption | exact Logic.I]|]); apply Forall2_nil. }
  { reflexivity. } { reflexivity. } { destruct (cf_tmt gc), (cf_rc gc); reflexivity. }
  { cbn [sum_len fold_right]. rewrite !slot_size_len. cbn [slot_size]. lia. }
  destruct (plays_packet ASPAC_ACK [cf_tmt gs; cf_rc gs; None] (NewAspActiveAck (cf_tmt gs) (cf_rc gs) None) KAspActiveAck) as (ack & mc & W4 & V4 & K4 & L4).
  { apply NewAspActiveAck_rt. repeat (apply Forall2_cons; [first [assumption | exact Logic.I]|]); apply Forall2_nil. }
  { reflexivity. } { reflexivity. } { destruct (cf_tmt gs), (cf_rc gs); reflexivity. }
  { cbn [sum_len fold_right]. rewrite !slot_size_len. cbn [slot_size]. lia. }
  exists up, act, upk, ack, mu, ma, mk, mc. constructor; assumption.
Qed.

Theorem pair_establishes gc gs oc os : cfg_ok gc -> cfg_ok gs -> handshake_fits gc -> handshake_fits gs -> hb_on gc = false -> hb_on gs = false ->
  forall n p, psteps n (pstart gc gs oc os) p ->
  n <= 44 /\ crash (p_cl p) = None /\ crash (p_sv p) = None /\
  (forall e, In e (log (p_cl p) ++ log (p_sv p)) -> match e with ERefused _ _ | EClosed => False | _ => True end) /\
  ((forall p', ~ pstep p p') -> up_and_running (p_cl p) /\ up_and_running (p_sv p)).
Proof.
  intros C1 C2 F1 F2 H1 H2. destruct (cfg_plays gc gs C1 C2 F1 F2 H1 H2) as (up & act & upk & ack & mu & ma & mk & mc & Pl).
  assert (I : forall n p, psteps n (pstart gc gs oc os) p -> exists w, n + w <= 44 /\ PInv gc gs oc os up act upk ack mu ma mk mc w p).
  { intros n p R. remember (pstart gc gs oc os) as p0 eqn:E0. induction R as [|n a b c R IH S]; subst.
    - exists 44. split; [lia|apply PInv_start].
    - destruct (IH eq_refl) as (w & Lw & I). destruct (PInv_step _ _ _ _ _ _ _ _ _ _ _ _ _ _ _ Pl I S) as (w' & Lw' & I'). exists w'. split; [lia|exact I']. }
  intros n p R. destruct (I n p R) as (w & Lw & Iv). split; [lia|].
  destruct (PInv_crash _ _ _ _ _ _ _ _ _ _ _ _ _ _ Iv) as [D1 D2]. split; [exact D1|]. split; [exact D2|].
  split; [eapply PInv_safe; eauto|]. eapply PInv_end; eauto.
Qed.
