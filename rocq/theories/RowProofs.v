(** Proofs: messages one after another. *)
From Verif Require Import GoBase BaseProofs WireSpec ParamsModel ParamsSpec ParamsProofs MessagesModel MsgSpec AccessorProofs MessagesProofs MessagesProofs2 RowSpec.
From Coq Require Import Arith Lia.
Open Scope nat_scope.

Lemma proper_rt x : proper x -> roundtrips (l_type x) (l_slots x) (l_msg x).
Proof.
  destruct x as [t s m]. intros [M F]. cbn in *.
  destruct M; [exact (NewData_rt _ _ _ _ F)|exact (NewDUNA_rt _ _ _ _ F)|exact (NewDAVA_rt _ _ _ _ F)|exact (NewDAUD_rt _ _ _ _ F)|exact (NewDRST_rt _ _ _ _ F)|
    exact (NewSCON_rt _ _ _ _ _ _ F)|exact (NewDUPU_rt _ _ _ _ _ F)|exact (NewAspUp_rt _ _ F)|exact (NewAspUpAck_rt _ _ F)|exact (NewAspDown_rt _ F)|
    exact (NewAspDownAck_rt _ F)|exact (NewHeartbeat_rt _ F)|exact (NewHeartbeatAck_rt _ F)|exact (NewAspActive_rt _ _ _ F)|exact (NewAspActiveAck_rt _ _ _ F)|
    exact (NewAspInactive_rt _ _ F)|exact (NewAspInactiveAck_rt _ _ F)|exact (NewError_rt _ _ _ _ _ F)|exact (NewNotify_rt _ _ _ _ F)].
Qed.
Lemma values_set s : map (option_map tv) (map (option_map SetLength) s) = map (option_map tv) s.
Proof. rewrite map_map. apply map_ext. intros [p|]; [|reflexivity]. unfold tv. destruct p; reflexivity. Qed.
Lemma body_len_bound l : Forall (fun x => length (snd x) <= max_value_len) l -> (N.of_nat (length (body_of l)) <= 65536 * N.of_nat (length l))%N.
Proof.
  induction 1 as [|[t v] l H _ IH]; [cbn; lia|]. unfold body_of in *. cbn [map concat]. rewrite app_length. cbn [fst snd] in *. pose proof (tlv_bound t v H). cbn [length]. lia.
Qed.
Lemma slots_bound ts s : Forall2 slot_ok ts s -> Forall (fun x => length (snd x) <= max_value_len) (map tv (present s)) /\ length (map tv (present s)) <= length ts.
Proof.
  induction 1 as [|t o ts s H _ [IH1 IH2]]; [split; [constructor|cbn; lia]|]. destruct o as [p|]; cbn [present flat_map map app length] in *.
  - split; [constructor; [apply H|exact IH1]|apply le_n_S, IH2].
  - split; [exact IH1|]. apply le_S, IH2.
Qed.
Lemma slots_short t s : Forall2 slot_ok (rfc_params t) s -> (N.of_nat (8 + length (body_for (present s))) < 4294967296)%N.
Proof.
  intros F. apply slots_bound in F as [F L]. apply body_len_bound in F. assert (length (rfc_params t) <= 6) by (destruct t; cbn; lia). unfold body_for.
  set (n := length (map tv (present s))) in *. set (k := length (body_of (map tv (present s)))) in *. lia.
Qed.
(** the octets of a message: its header tells its length *)
Lemma proper_octets x b : proper x -> octets_are x b ->
  exists body, b = packet x01 x00 (rfc_class (l_type x)) (rfc_type (l_type x)) (N.of_nat (8 + length body)) body /\ (N.of_nat (8 + length body) < 4294967296)%N.
Proof.
  intros P [m' E]. destruct (proper_rt x P) as (m & M & _). rewrite M in E. injection E as _ <-. eexists. split; [reflexivity|]. apply (slots_short (l_type x)). apply P.
Qed.
Lemma proper_read x b : proper x -> octets_are x b -> read_as x b.
Proof.
  intros P [m' E]. destruct (proper_rt x P) as (m & M & _ & R & H). rewrite M in E. injection E as _ <-. exists m, (map (option_map SetLength) (l_slots x)).
  split; [exact R|]. split; [exact H|apply values_set].
Qed.
Lemma header_length v r c ty body : (N.of_nat (8 + length body) < 4294967296)%N ->
  let p := packet v r c ty (N.of_nat (8 + length body)) body in 8 <= length p /\ val (firstn 4 (skipn 4 p)) = N.of_nat (length p).
Proof.
  intros H p. unfold p. rewrite packet_length. split; [lia|]. unfold packet. cbn [app skipn]. rewrite firstn_app, be_length, Nat.sub_diag, firstn_O, app_nil_r.
  rewrite firstn_all2 by (rewrite be_length; lia). now apply val_be4.
Qed.
Lemma types_differ t t' : rfc_class t = rfc_class t' -> rfc_type t = rfc_type t' -> t = t'.
Proof. destruct t, t'; cbn; intros; try reflexivity; discriminate. Qed.
Lemma field_for t tag : In tag (rfc_params t) -> exists f, field_tag f = tag.
Proof.
  intros I. destruct t; cbn in I; decompose [or] I; try contradiction; subst tag;
    first [now exists FNetworkAppearance|now exists FRoutingContext|now exists FProtocolData|now exists FCorrelationID|now exists FAffectedPointCode|now exists FInfoString
      |now exists FConcernedDestination|now exists FCongestionIndications|now exists FUserCause|now exists FAspIdentifier|now exists FHeartbeatData|now exists FTrafficModeType
      |now exists FErrorCode|now exists FDiagnosticInformation|now exists FStatus].
Qed.
Lemma has_params_det t s s' m : has_params t s m -> has_params t s' m -> s = s'.
Proof.
  intros (_ & F & _) (_ & F' & _). assert (G : forall tag, In tag (rfc_params t) -> exists f, field_tag f = tag) by (apply field_for). revert s' F' G.
  induction F as [|tag o ts s H F IH]; intros s' F' G; inversion F'; subst; [reflexivity|]. f_equal; [|apply IH; [assumption|intros; apply G; now right]].
  destruct (G tag (or_introl eq_refl)) as [f Hf]. rewrite <- (H f Hf). auto.
Qed.
Lemma prefixes x y b b' r r' : proper x -> proper y -> octets_are x b -> octets_are y b' -> b ++ r = b' ++ r' -> same_letter x y /\ b = b' /\ r = r'.
Proof.
  intros P Q E E' Eq. destruct (proper_octets x b P E) as (body & B & L). destruct (proper_octets y b' Q E') as (body' & B' & L').
  destruct (header_length x01 x00 (rfc_class (l_type x)) (rfc_type (l_type x)) body L) as [_ V]. destruct (header_length x01 x00 (rfc_class (l_type y)) (rfc_type (l_type y)) body' L') as [_ V'].
  cbv zeta in V, V'. rewrite <- B in V. rewrite <- B' in V'.
  assert (H8 : 8 <= length b /\ 8 <= length b') by (rewrite B, B', !packet_length; lia).
  assert (F8 : firstn 8 b = firstn 8 b').
  { assert (X : firstn 8 (b ++ r) = firstn 8 (b' ++ r')) by now rewrite Eq. rewrite !firstn_app in X. replace (8 - length b) with 0 in X by lia. replace (8 - length b') with 0 in X by lia.
    cbn [firstn] in X. now rewrite !app_nil_r in X. }
  assert (Ln : length b = length b').
  { apply Nat2N.inj. rewrite <- V, <- V'. f_equal. change 8 with (4 + 4) in F8. rewrite !firstn_skipn_comm. now rewrite F8. }
  assert (Eb : b = b' /\ r = r') by (revert Eq Ln; clear; revert b'; induction b as [|a b IH]; intros [|a' b'] Eq Ln; cbn in *; try discriminate; [auto|]; injection Eq as -> Eq; destruct (IH _ Eq ltac:(lia)) as [-> ->]; auto).
  destruct Eb as [<- <-]. split; [|auto]. assert (T : l_type x = l_type y).
  { rewrite B in B'. unfold packet in B'. cbn in B'. injection B' as H1 H2 _. now apply types_differ. }
  split; [exact T|]. destruct (proper_read x b P E) as (m & s & R & H & S). destruct (proper_read y b Q E') as (m' & s' & R' & H' & S').
  rewrite R in R'. injection R' as <-. rewrite <- T in H'. rewrite <- S, <- S'. f_equal. eapply has_params_det; eauto.
Qed.
Lemma rows xs ys bs bs' : Forall proper xs -> Forall proper ys -> Forall2 octets_are xs bs -> Forall2 octets_are ys bs' -> concat bs = concat bs' -> bs = bs' /\ Forall2 same_letter xs ys.
Proof.
  intros P Q F. revert ys bs' P Q. induction F as [|x b xs bs E F IH]; intros ys bs' P Q G Eq.
  - destruct G as [|y b' ys bs' E' G]; [auto|]. exfalso. inversion Q; subst. destruct (proper_octets y b' ltac:(assumption) E') as (body & -> & _). discriminate.
  - inversion P; subst. destruct G as [|y b' ys bs' E' G].
    + exfalso. destruct (proper_octets x b ltac:(assumption) E) as (body & -> & _). discriminate.
    + inversion Q; subst. cbn in Eq. destruct (prefixes x y b b' _ _ ltac:(assumption) ltac:(assumption) E E' Eq) as (S & <- & Er). destruct (IH ys bs') as [-> S2]; auto.
Qed.
Lemma cut_row xs bs : Forall proper xs -> Forall2 octets_are xs bs -> cut_up (concat bs) bs.
Proof.
  intros P F. induction F as [|x b xs bs E F IH]; [constructor|]. inversion P; subst. cbn [concat]. destruct (proper_octets x b ltac:(assumption) E) as (body & -> & L).
  destruct (header_length x01 x00 (rfc_class (l_type x)) (rfc_type (l_type x)) body L) as [A B]. constructor; auto.
Qed.
Lemma cut_det s ps : cut_up s ps -> forall qs, cut_up s qs -> ps = qs.
Proof.
  induction 1 as [|p rest ps H V C IH]; intros qs D.
  - inversion D as [|p' rest' qs' H' V' D' E]; subst; [reflexivity|]. destruct p'; [cbn in H'; lia|discriminate].
  - remember (p ++ rest) as s eqn:Es. destruct D as [|p' rest' qs' H' V' D']; [destruct p; [cbn in H; lia|discriminate]|].
    assert (Ln : length p' = length p).
    { apply Nat2N.inj. rewrite <- V, <- V'. f_equal. rewrite !firstn_skipn_comm. f_equal.
      assert (X : firstn 8 (p' ++ rest') = firstn 8 (p ++ rest)) by now rewrite Es. rewrite !firstn_app in X. replace (8 - length p) with 0 in X by lia. replace (8 - length p') with 0 in X by lia.
      cbn [firstn] in X. now rewrite !app_nil_r in X. }
    assert (Eb : p' = p /\ rest' = rest).
    { revert Es Ln. clear. revert p. induction p' as [|a p' IH]; intros [|b p] Es Ln; cbn in *; try discriminate; [auto|]. injection Es as -> Es. destruct (IH p Es ltac:(lia)) as [-> ->]. auto. }
    destruct Eb as [-> ->]. f_equal. now apply IH.
Qed.
