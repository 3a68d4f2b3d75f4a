(** Proofs: what an endpoint sends depends on the meaning of the packets alone. *)
From Verif Require Import GoBase BaseProofs WireSpec ParamsModel ParamsSpec MessagesModel MsgSpec MessagesProofs MessagesProofs2 ConfigModel ConnModel ConnSpec ExactSpec NormSpec NormProofs EchoSpec.
From Coq Require Import Arith Lia.
Open Scope nat_scope.

Lemma same_encodes m m' b : same_content m m' -> encodes m b -> encodes m' b.
Proof.
  intros S [n E]. destruct (MarshalLen_exact m') as (n' & b' & E' & _). destruct (same_bytes _ _ _ _ _ _ S E E') as [-> ->]. now exists n'.
Qed.
Lemma same_version m m' : same_content m m' -> Version m' = Version m.
Proof. unfold Version. destruct m, m'; cbn; try contradiction; intros H; decompose [and] H; unfold same_head in *; intuition congruence. Qed.
Lemma same_valid raw raw' m m' : Parse raw' = Ok m' -> same_content m m' -> valid raw m -> valid raw' m'.
Proof. intros P S [_ V]. split; [exact P|]. now rewrite (same_version _ _ S). Qed.
Lemma same_names m m' : same_content m m' -> names m' = names m.
Proof. destruct m as [a|a], m' as [a'|a']; cbn; try contradiction; [|reflexivity]. intros (K & _). now rewrite K. Qed.
Lemma same_supported m m' : same_content m m' -> supported m' = supported m.
Proof. destruct m as [a|a], m' as [a'|a']; cbn; try contradiction; [|reflexivity]. intros (K & _). now rewrite K. Qed.
Lemma same_silent a a' : m_kind a = m_kind a' -> silent_table a' = silent_table a.
Proof. unfold silent_table. now intros ->. Qed.
Lemma same_reply g a a' l r : same_content (Typed a) (Typed a') -> reply_table g a = Some (l, r) -> exists r', reply_table g a' = Some (l, r') /\ same_content r r'.
Proof.
  intros (K & F & H) E. unfold reply_table in *. rewrite <- K. destruct (m_kind a) eqn:Ka; try discriminate E; injection E as <- <-; eexists; (split; [reflexivity|]); try apply same_refl.
  cbn [same_content beat_ack_of m_kind m_f m_hdr]. split; [congruence|]. split; [exact F|]. unfold same_head in *. cbn. intuition congruence.
Qed.
Lemma same_reacts g s m m' x bs : same_content m m' -> reacts g s m x -> because g x bs -> exists x', reacts g s m' x' /\ because g x' bs.
Proof.
  intros S R B. destruct R as [t I|t l r E I|t Su N1 N2|m Su|t K St].
  - destruct m' as [t'|]; [|contradiction]. exists Consume. split; [|inversion B; subst; constructor]. constructor. rewrite (same_silent t t'); [exact I|apply S].
  - destruct m' as [t'|]; [|contradiction]. destruct (same_reply g _ _ _ _ S E) as (r' & E' & S'). exists (Reply r'). split; [econstructor; eauto|].
    inversion B; subst. constructor. eapply same_encodes; eauto.
  - destruct m' as [t'|]; [|contradiction]. exists (Refuse (EUnexpected (Typed t'))). split.
    + constructor; [now rewrite (same_supported _ _ S)|rewrite (same_silent t t'); [exact N1|apply S]|].
      intros l r E'. destruct (same_reply g _ _ _ _ (same_sym _ _ S) E') as (r0 & E0 & _). exact (N2 _ _ E0).
    + inversion B as [| |e r b A Eb]; subst. inversion A; subst. econstructor; [constructor|exact Eb].
  - exists (Refuse (EUnsupportedMessage m')). split; [constructor; now rewrite (same_supported _ _ S)|].
    inversion B as [| |e r b A Eb]; subst. inversion A; subst. econstructor; [|exact Eb]. econstructor. eapply same_encodes; eauto.
  - destruct m' as [t'|]; [|contradiction]. exists (Refuse (EUnexpected (Typed t'))). split; [apply RC_beat_ack; [destruct S as (S & _); congruence|exact St]|].
    inversion B as [| |e r b A Eb]; subst. inversion A; subst. econstructor; [constructor|exact Eb].
Qed.
Lemma unexpected_because g t t' bs : because g (Refuse (EUnexpected (Typed t))) bs -> because g (Refuse (EUnexpected (Typed t'))) bs.
Proof. intros B. inversion B as [| |e r b A Eb]; subst. inversion A; subst. econstructor; [constructor|exact Eb]. Qed.

Lemma same_responds mo g d f raw raw' os f' : same_meaning raw raw' -> responds mo g d f raw os f' -> responds mo g d f raw' os f'.
Proof.
  intros M R. destruct R as [s told raw e P|s told raw m bs P V B|s told raw m x bs gs Va Na Nd R B G|s told raw t bs Va K Ns B|told raw t Va K Fn|told raw t p Va K Fs Hd|told raw t p bs Va K Fs Hd B|f raw Nf].
  - destruct M as [(m & m' & P1 & _)|[_ [e' P']]]; [congruence|]. econstructor; eauto.
  - destruct M as [(m0 & m' & P1 & P2 & S)|[[e P1] _]]; [|congruence]. rewrite P in P1. injection P1 as <-. eapply RS_version; [exact P2|now rewrite (same_version _ _ S)|].
    rewrite (same_version _ _ S). exact B.
  - destruct M as [(m0 & m' & P1 & P2 & S)|[[e P1] _]]; [|destruct Va; congruence]. assert (m0 = m) as -> by (destruct Va; congruence).
    destruct (same_reacts _ _ _ _ _ _ S R B) as (x' & R' & B'). unfold asked in *. rewrite <- (same_names _ _ S) in *.
    eapply (RS_message mo g d s told raw' m' x' bs gs); auto; [eapply same_valid; eauto| |].
    + intros (t & -> & K). apply Na. destruct m as [a|]; [|contradiction]. exists a. split; [reflexivity|]. destruct S as (S & _). congruence.
    + intros (t & -> & K). apply Nd. destruct m as [a|]; [|contradiction]. exists a. split; [reflexivity|]. destruct S as (S & _). congruence.
  - destruct M as [(m0 & m' & P1 & P2 & S)|[[e P1] _]]; [|destruct Va; congruence]. assert (m0 = Typed t) as -> by (destruct Va; congruence). destruct m' as [t'|]; [|contradiction].
    eapply RS_ack_early; [eapply same_valid; eauto|destruct S as (S & _); congruence|exact Ns|eapply unexpected_because; eauto].
  - destruct M as [(m0 & m' & P1 & P2 & S)|[[e P1] _]]; [|destruct Va; congruence]. assert (m0 = Typed t) as -> by (destruct Va; congruence). destruct m' as [t'|]; [|contradiction].
    pose proof S as (S1 & S2 & _). eapply RS_ack_empty; [eapply same_valid; eauto|congruence|congruence].
  - destruct M as [(m0 & m' & P1 & P2 & S)|[[e P1] _]]; [|destruct Va; congruence]. assert (m0 = Typed t) as -> by (destruct Va; congruence). destruct m' as [t'|]; [|contradiction].
    pose proof S as (S1 & S2 & _). eapply RS_ack_same; [eapply same_valid; eauto|congruence|rewrite <- S2; exact Fs|exact Hd].
  - destruct M as [(m0 & m' & P1 & P2 & S)|[[e P1] _]]; [|destruct Va; congruence]. assert (m0 = Typed t) as -> by (destruct Va; congruence). destruct m' as [t'|]; [|contradiction].
    pose proof S as (S1 & S2 & _). eapply RS_ack_other; [eapply same_valid; eauto|congruence|rewrite <- S2; exact Fs|exact Hd|eapply unexpected_because; eauto].
  - now apply RS_lost.
Qed.
Lemma request_reply g a a' : m_kind a = m_kind a' -> In (m_kind a) unread_kinds -> reply_table g a' = reply_table g a.
Proof. intros K I. unfold reply_table. rewrite <- K. cbn in I. decompose [or] I; try contradiction; match goal with H : _ = m_kind a |- _ => rewrite <- H end; reflexivity. Qed.
Lemma request_responds mo g d f raw raw' os f' : same_request raw raw' -> responds mo g d f raw os f' -> responds mo g d f raw' os f'.
Proof.
  intros (a & a' & Va & Va' & K & I) R.
  assert (Nk : m_kind a <> KHeartbeatAck /\ m_kind a <> KData) by (split; intros X; rewrite X in I; cbn in I; intuition discriminate).
  destruct R as [s told raw e P|s told raw m bs P V B|s told raw m x bs gs Vm Na Nd R B G|s told raw t bs Vt Kt Ns B|told raw t Vt Kt Fn|told raw t p Vt Kt Fs Hd|told raw t p bs Vt Kt Fs Hd B|f raw Nf];
    try (destruct Va as [Pa Vn]; match goal with V : valid raw (Typed t) |- _ => destruct V as [Pt _]; rewrite Pa in Pt; injection Pt as <-; tauto end).
  - destruct Va; congruence.
  - destruct Va as [Pa Vn]. rewrite P in Pa. injection Pa as ->. contradiction.
  - assert (m = Typed a) as -> by (destruct Va, Vm; congruence).
    assert (En : names (Typed a') = names (Typed a)) by (cbn; now rewrite K).
    assert (X : exists x', reacts g s (Typed a') x' /\ because g x' bs).
    { inversion R as [t It E|t l r E It|t Su N1 N2|m Su|t Kt St]; subst.
      - exists Consume. split; [|exact B]. constructor. rewrite (same_silent a a' K). exact It.
      - exists (Reply r). split; [|exact B]. econstructor; [rewrite (request_reply g a a' K I); exact E|exact It].
      - exists (Refuse (EUnexpected (Typed a'))). split; [|eapply unexpected_because; exact B]. constructor.
        + cbn in Su |- *. now rewrite <- K.
        + rewrite (same_silent a a' K). exact N1.
        + intros l r E. rewrite (request_reply g a a' K I) in E. exact (N2 _ _ E).
      - exfalso. cbn in Su. cbn in I. decompose [or] I; try contradiction; match goal with H : _ = m_kind a |- _ => rewrite <- H in Su end; discriminate.
      - tauto. }
    destruct X as (x' & R' & B'). unfold asked in *. rewrite <- En in *. eapply (RS_message mo g d s told raw' (Typed a') x' bs gs); auto.
    + intros (t & E & Kt). injection E as <-. rewrite K in Nk. tauto.
    + intros (t & E & Kt). injection E as <-. rewrite K in Nk. tauto.
  - now apply RS_lost.
Qed.
Lemma effect_responds mo g d f raw raw' os f' : same_effect raw raw' -> responds mo g d f raw os f' -> responds mo g d f raw' os f'.
Proof. intros [M|M]; [now apply same_responds|now apply request_responds]. Qed.
Lemma same_transcript mo g d rs bs f : transcript mo g d rs bs f -> forall rs', Forall2 same_effect rs rs' -> transcript mo g d rs' bs f.
Proof.
  induction 1 as [gs G|rs bs f raw os f' T IH R]; intros rs' F.
  - inversion F; subst. now constructor.
  - apply Forall2_app_inv_l in F as (r1 & r2 & F1 & F2 & ->). inversion F2 as [|? raw' ? ? M F3]; subst. inversion F3; subst. econstructor; [apply IH, F1|]. eapply effect_responds; eauto.
Qed.
Lemma same_not_data raw raw' : same_effect raw raw' -> ~ is_data raw -> ~ is_data raw'.
Proof.
  intros [M|(a & a' & Va & Va' & K & I)] N (t' & [P' V] & Kt).
  - apply N. destruct M as [(m & m' & P1 & P2 & S)|[_ [e P2]]]; [|congruence]. rewrite P' in P2. injection P2 as <-.
    destruct m as [t|]; [|contradiction]. exists t. split; [|destruct S as (S & _); congruence]. split; [exact P1|]. now rewrite <- (same_version _ _ S).
  - destruct Va' as [Pa _]. rewrite P' in Pa. injection Pa as ->. rewrite K, Kt in I. cbn in I. intuition discriminate.
Qed.

(** ** parameters in another order *)
From Verif Require Import ParamsProofs AccessorProofs ChangeSpec ChangeProofs.
From Coq Require Import Permutation.
Lemma last_in t l : NoDup (map fst l) -> forall v, last_with t (map mk l) = Some (mk (t, v)) <-> In (t, v) l.
Proof.
  induction l as [|[u w] l IH]; intros D v; [split; [discriminate|intros []]|]. cbn [map] in *. inversion D as [|? ? Nu D']; subst. cbn [fst] in Nu. rewrite last_with_cons. unfold mk at 2. cbn [p_tag fst].
  destruct (N.eqb_spec u t) as [->|Ne].
  - replace (last_with t (map mk l)) with (@None param).
    2:{ symmetry. apply last_with_none. intros v0 I. apply Nu. apply (in_map fst) in I. exact I. }
    cbn [or_else]. split; [intros E; left; unfold mk in E; cbn in E; injection E as _ E; now rewrite E|].
    intros [E|I]; [injection E as ->; reflexivity|]. exfalso. apply Nu. apply (in_map fst) in I. exact I.
  - split.
    + intros E. right. apply (IH D'). destruct (last_with t (map mk l)); [exact E|discriminate].
    + intros [E|I]; [injection E as -> _; congruence|]. apply (IH D') in I. rewrite I. reflexivity.
Qed.
Lemma last_some t l p : last_with t (map mk l) = Some p -> exists v, p = mk (t, v) /\ In (t, v) l.
Proof.
  induction l as [|[u w] l IH]; [discriminate|]. cbn [map]. rewrite last_with_cons. unfold mk at 2. cbn [p_tag fst].
  destruct (last_with t (map mk l)) as [q|]; cbn [or_else].
  - intros E. destruct (IH E) as (v & -> & I). exists v. split; [reflexivity|now right].
  - destruct (N.eqb_spec u t) as [->|Ne]; [|discriminate]. intros E. injection E as <-. exists w. split; [reflexivity|now left].
Qed.
Lemma last_perm t l l' : NoDup (map fst l) -> Permutation l l' -> last_with t (map mk l') = last_with t (map mk l).
Proof.
  intros D P. assert (D' : NoDup (map fst l')) by (eapply Permutation_NoDup; [apply Permutation_map, P|exact D]).
  destruct (last_with t (map mk l')) as [p|] eqn:E'.
  - apply last_some in E' as (v & -> & I). symmetry. apply last_in; [exact D|]. eapply Permutation_in; [apply Permutation_sym, P|exact I].
  - symmetry. apply last_with_none. intros v I. apply (Permutation_in _ P) in I. exact (proj1 (last_with_none t l') E' v I).
Qed.
Lemma permuted v r c ty len body body' l l' m : (len < 4294967296)%N -> TLVs body l -> TLVs body' l' -> Permutation l l' -> NoDup (map fst l) ->
  Parse (packet v r c ty len body) = Ok (Typed m) -> same_meaning (packet v r c ty len body) (packet v r c ty len body').
Proof.
  intros Hl T T' P D Pm. destruct (Parse_list v r c ty len _ _ Hl T) as [A1 A2]. destruct (Parse_list v r c ty len _ _ Hl T') as [B1 _].
  destruct (dispatch c ty) as [k|]; [|rewrite (A2 eq_refl) in Pm; discriminate]. destruct (go_type_surj k) as [mt <-].
  destruct (A1 mt eq_refl) as [A Nf]. destruct (B1 mt eq_refl) as [B _].
  destruct (Forall_dec (fun x : N * list byte => In (fst x) (rfc_params mt)) (fun x => in_dec N.eq_dec (fst x) (rfc_params mt)) l) as [F|F]; [|rewrite (Nf F) in Pm; discriminate].
  assert (F' : Forall (fun x : N * list byte => In (fst x) (rfc_params mt)) l') by (eapply Permutation_Forall; eauto).
  destruct (A F) as (a & Pa & Ka & Ha & Fa). destruct (B F') as (a' & Pb & Kb & Hb & Fb). left. exists (Typed a), (Typed a'). split; [exact Pa|]. split; [exact Pb|].
  split; [congruence|]. split; [|rewrite Ha, Hb; unfold same_head; cbn; auto]. apply fields_same. intros f. rewrite Fa, Fb. now rewrite (last_perm _ _ _ D P).
Qed.

(** ** DATA *)
From Verif Require Import ConnData.
Lemma same_payload raw raw' : same_data raw raw' \/ not_data raw /\ not_data raw' -> payload raw = payload raw'.
Proof.
  assert (None_ : forall r, not_data r -> payload r = []).
  { intros r Nd. unfold payload. destruct (Parse r) as [m| |] eqn:P; [|reflexivity|reflexivity]. destruct m as [t|]; [|reflexivity]. unfold sig_payload. destruct (N.eqb_spec (b2n (Version (Typed t))) 1) as [V|V]; [|reflexivity].
    unfold msg_payload. destruct (m_kind t) eqn:K; try reflexivity. destruct (Nd t (conj P V) K). }
  intros [(a & a' & [P V] & [P' V'] & K & K' & E)|[N1 N2]]; [|now rewrite !None_].
  unfold payload, sig_payload. rewrite P, P', V, V', !N.eqb_refl. unfold msg_payload. rewrite K, K', E. reflexivity.
Qed.
Lemma same_payloads rs rs' : Forall2 (fun r r' => same_data r r' \/ not_data r /\ not_data r') rs rs' -> flat_map payload rs = flat_map payload rs'.
Proof. induction 1 as [|r r' rs rs' H _ IH]; [reflexivity|]. cbn. now rewrite IH, (same_payload _ _ H). Qed.
