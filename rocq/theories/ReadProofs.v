(** Reading a received message. *)
From Verif Require Import GoBase BaseProofs ParamsModel MessagesModel WireSpec ParamsSpec MsgSpec ParamsProofs AccessorProofs
  MessagesProofs MessagesProofs2 NormSpec NormProofs ReadModel ReadSpec.
From Coq Require Import Arith Lia.
Open Scope nat_scope.
Opaque max_value_len.

(** what a field of a decoded message is *)
Lemma field_seen v r c ty len body l t :
  (len < 4294967296)%N -> coded c ty (Some t) -> TLVs body l -> only_of (Some t) l ->
  exists m, Parse (packet v r c ty len body) = Ok (Typed m) /\ m_kind m = go_type t /\
    forall f, fget f (m_f m) = option_map (fun w => mk (field_tag f, w)) (last_value (field_tag f) l).
Proof.
  intros Hl C T Pm. cbn [coded only_of] in C, Pm. apply dispatch_spec in C.
  destruct (proj1 (Parse_typed t v r c ty len body _ Hl C (TLVs_ok _ _ T))) as (m & E & K & H & F).
  { apply Forall_forall. intros p I. apply in_map_iff in I as (x & <- & I). cbn [mk p_tag].
    rewrite Forall_forall in Pm. exact (Pm _ I). }
  exists m. split; [exact E|]. split; [exact K|]. intros f. rewrite F. destruct (in_dec _ _ _) as [i|n].
  - apply last_value_with.
  - destruct (last_value (field_tag f) l) as [w|] eqn:L; [|reflexivity]. apply last_value_in in L.
    rewrite Forall_forall in Pm. destruct (n (Pm _ L)).
Qed.

Lemma on_seen {A} f (acc : param -> res A) (g : list byte -> res A) l o :
  (forall w, acc (mk (field_tag f, w)) = g w) ->
  o = option_map (fun w => mk (field_tag f, w)) (last_value (field_tag f) l) ->
  on acc o = seen (field_tag f) l g.
Proof. intros H ->. unfold seen. destruct (last_value (field_tag f) l); cbn [option_map on]; [apply H|reflexivity]. Qed.

Lemma plain_ok {A} (acc : param -> A) (g : list byte -> A) tag :
  (forall w, acc (mk (tag, w)) = g w) -> forall w, plain acc (mk (tag, w)) = Ok (g w).
Proof. intros H w. unfold plain. now rewrite H. Qed.


Lemma reads_all v r c ty len body l t :
  (len < 4294967296)%N -> coded c ty (Some t) -> TLVs body l -> only_of (Some t) l ->
  exists m, Parse (packet v r c ty len body) = Ok (Typed m) /\ m_kind m = go_type t /\
  let fld f := fget f (m_f m) in
  let num tag (sel : N -> N) := seen tag l (fun w => Ok (sel (number w))) in
  let same n := n in
  on (plain NetworkAppearance) (fld FNetworkAppearance) = num 0x200%N same /\
  on (plain CorrelationID) (fld FCorrelationID) = num 19%N same /\
  on (plain AspIdentifier) (fld FAspIdentifier) = num 17%N same /\
  on (plain TrafficModeType) (fld FTrafficModeType) = num 11%N same /\
  on (plain ErrorCode) (fld FErrorCode) = num 12%N same /\
  on (plain ConcernedDestination) (fld FConcernedDestination) = num 0x206%N (fun n => n mod 16777216)%N /\
  on (plain CongestionLevel) (fld FCongestionIndications) = num 0x205%N (fun n => n mod 256)%N /\
  on (plain UserCause) (fld FUserCause) = num 0x204%N same /\
  on (plain UserIdentity) (fld FUserCause) = num 0x204%N (fun n => n mod 65536)%N /\
  on (plain UnavailabilityCause) (fld FUserCause) = num 0x204%N (fun n => n / 65536)%N /\
  on (plain Status) (fld FStatus) = num 13%N same /\
  on (plain StatusType) (fld FStatus) = num 13%N (fun n => n / 65536)%N /\
  on (plain StatusInfo) (fld FStatus) = num 13%N (fun n => n mod 65536)%N /\
  on (plain InfoString) (fld FInfoString) = seen 4%N l (fun w => Ok w) /\
  on (plain HeartbeatData) (fld FHeartbeatData) = seen 9%N l (fun w => Ok w) /\
  on (plain DiagnosticInformation) (fld FDiagnosticInformation) = seen 7%N l (fun w => Ok w) /\
  on RoutingContext (fld FRoutingContext) = seen 6%N l first_word /\
  on AffectedPointCode (fld FAffectedPointCode) = seen 18%N l first_word /\
  on ProtocolData (fld FProtocolData) = seen 0x210%N l label_and_data /\
  (forall w, last_value 6 l = Some w ->
     exists us, on (plain RoutingContexts) (fld FRoutingContext) = Ok us /\ spelled w us) /\
  (last_value 6 l = None -> on (plain RoutingContexts) (fld FRoutingContext) = Panic PNil) /\
  (forall w, last_value 18 l = Some w ->
     exists us, on (plain AffectedPointCodes) (fld FAffectedPointCode) = Ok us /\ spelled w us) /\
  (last_value 18 l = None -> on (plain AffectedPointCodes) (fld FAffectedPointCode) = Panic PNil).
Proof.
  intros Hl C T Pm. destruct (field_seen v r c ty len body l t Hl C T Pm) as (m & P & K & F).
  exists m. split; [exact P|]. split; [exact K|]. cbv zeta.
  pose proof (fun tag w => accessors_any (mk (tag, w))) as A. pose proof (fun tag w => halves_any (mk (tag, w))) as H.
  pose proof (fun tag w => lists_any (mk (tag, w))) as L. pose proof (fun tag w => first_value (mk (tag, w))) as W.
  cbv zeta in A, H, L, W.
  split; [refine (on_seen FNetworkAppearance _ _ l _ (plain_ok _ _ _ _) (F _)); intros w; exact (proj1 (proj2 (proj2 (A 0x200%N w))))|].
  split; [refine (on_seen FCorrelationID _ _ l _ (plain_ok _ _ _ _) (F _)); intros w; exact (proj1 (proj2 (A 19%N w)))|].
  split; [refine (on_seen FAspIdentifier _ _ l _ (plain_ok _ _ _ _) (F _)); intros w; exact (proj1 (A 17%N w))|].
  split; [refine (on_seen FTrafficModeType _ _ l _ (plain_ok _ _ _ _) (F _)); intros w; destruct (A 11%N w) as (_ & _ & _ & _ & _ & _ & X & _); exact X|].
  split; [refine (on_seen FErrorCode _ _ l _ (plain_ok _ _ _ _) (F _)); intros w; destruct (A 12%N w) as (_ & _ & _ & _ & _ & _ & _ & X & _); exact X|].
  split; [refine (on_seen FConcernedDestination _ _ l _ (plain_ok _ (fun w => (number w mod 16777216)%N) _ _) (F _)); intros w; destruct (A 0x206%N w) as (_ & _ & _ & _ & _ & _ & _ & _ & _ & _ & X & _); exact X|].
  split; [refine (on_seen FCongestionIndications _ _ l _ (plain_ok _ (fun w => (number w mod 256)%N) _ _) (F _)); intros w; destruct (A 0x205%N w) as (_ & _ & _ & _ & _ & _ & _ & _ & _ & _ & _ & _ & X); exact X|].
  split; [refine (on_seen FUserCause _ _ l _ (plain_ok _ _ _ _) (F _)); intros w; destruct (A 0x204%N w) as (_ & _ & _ & _ & _ & _ & _ & _ & _ & X & _); exact X|].
  split; [refine (on_seen FUserCause _ _ l _ (plain_ok _ (fun w => (number w mod 65536)%N) _ _) (F _)); intros w; destruct (H 0x204%N w) as (_ & _ & _ & X); exact X|].
  split; [refine (on_seen FUserCause _ _ l _ (plain_ok _ (fun w => (number w / 65536)%N) _ _) (F _)); intros w; destruct (H 0x204%N w) as (_ & _ & X & _); exact X|].
  split; [refine (on_seen FStatus _ _ l _ (plain_ok _ _ _ _) (F _)); intros w; destruct (A 13%N w) as (_ & _ & _ & _ & _ & _ & _ & _ & X & _); exact X|].
  split; [refine (on_seen FStatus _ _ l _ (plain_ok _ (fun w => (number w / 65536)%N) _ _) (F _)); intros w; destruct (H 13%N w) as (X & _); exact X|].
  split; [refine (on_seen FStatus _ _ l _ (plain_ok _ (fun w => (number w mod 65536)%N) _ _) (F _)); intros w; destruct (H 13%N w) as (_ & X & _); exact X|].
  split; [refine (on_seen FInfoString _ _ l _ (plain_ok _ (fun w => w) _ _) (F _)); intros w; destruct (L 4%N w) as (X & _); exact X|].
  split; [refine (on_seen FHeartbeatData _ _ l _ (plain_ok _ (fun w => w) _ _) (F _)); intros w; destruct (L 9%N w) as (_ & _ & X & _); exact X|].
  split; [refine (on_seen FDiagnosticInformation _ _ l _ (plain_ok _ (fun w => w) _ _) (F _)); intros w; destruct (L 7%N w) as (_ & X & _); exact X|].
  split; [refine (on_seen FRoutingContext _ _ l _ _ (F _)); intros w; destruct (W 6%N w) as (X & _); exact X|].
  split; [refine (on_seen FAffectedPointCode _ _ l _ _ (F _)); intros w; destruct (W 18%N w) as (_ & X); exact X|].
  split; [refine (on_seen FProtocolData _ _ l _ _ (F _)); intros w; rewrite ProtocolData_any; reflexivity|].
  rewrite (F FRoutingContext), (F FAffectedPointCode).
  change (field_tag FRoutingContext) with 6%N. change (field_tag FAffectedPointCode) with 18%N.
  split; [intros w E; rewrite E; eexists; split; [reflexivity|]; destruct (L 6%N w) as (_ & _ & _ & _ & X & _); exact X|].
  split; [intros E; rewrite E; reflexivity|].
  split; [intros w E; rewrite E; eexists; split; [reflexivity|]; destruct (L 18%N w) as (_ & _ & _ & _ & _ & X & _); exact X|].
  intros E; rewrite E; reflexivity.
Qed.

(** nothing is required *)
Lemma empty_accepted t v r len : (len < 4294967296)%N ->
  exists m, Parse (packet v r (rfc_class t) (rfc_type t) len []) = Ok (Typed m) /\ m_kind m = go_type t /\
    forall f, fget f (m_f m) = None.
Proof.
  intros Hl.
  assert (C : coded (rfc_class t) (rfc_type t) (Some t)) by (destruct t; reflexivity).
  destruct (field_seen v r _ _ len [] [] t Hl C TLVs_nil ltac:(constructor)) as (m & P & K & F).
  exists m. split; [exact P|]. split; [exact K|]. exact F.
Qed.
