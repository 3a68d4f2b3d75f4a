(** Property C63: the exported code points against RFC 4666. *)
From Coq Require Import Lia.
From Verif Require Import GoBase ParamsModel WireSpec ParamsSpec BaseProofs ParamsProofs AccessorProofs CodePoints.
From Coq Require Import String.
Open Scope N_scope.
Open Scope string_scope.
Open Scope list_scope.
Opaque max_value_len.

(** ** RFC 4666, numbers written out (3.8.1, 3.6.2, 3.6.4, 3.7.1, 3.8.2, 3.4.5);
    the names are those of the package, to say which meaning is meant *)
Definition rfc_error_codes : list (string * N) :=
  [("InvalidVersionError", 0x01); ("UnsupportedMessageErrorClass", 0x03);
   ("UnsupportedMessageErrorType", 0x04); ("ErrUnsupportedTrafficModeType", 0x05);
   ("UnexpectedMessageError", 0x06); ("ErrProtocolError", 0x07); ("ErrInvalidStreamIdentifier", 0x09);
   ("ErrRefusedManagementBlocking", 0x0d); ("ErrAspIdentifierRequired", 0x0e);
   ("ErrInvalidAspIdentifier", 0x0f); ("ErrInvalidParameterValue", 0x11);
   ("ErrParameterFieldError", 0x12); ("ErrUnexpectedParameter", 0x13);
   ("ErrDestinationStatusUnknown", 0x14); ("ErrInvalidNetworkAppearance", 0x15);
   ("ErrMissingParameter", 0x16); ("ErrInvalidRoutingContext", 0x19); ("ErrNoConfiguredAsForAsp", 0x1a)].
Definition rfc_registration : list (string * N) :=
  [("SuccessfullyRegistered", 0); ("RegistrationStatusUnknown", 1); ("InvalidDPC", 2);
   ("InvalidNetworkAppearance", 3); ("InvalidRoutingKey", 4); ("PermissionDenied", 5);
   ("CannotSupportUniqueRouting", 6); ("RoutingKeynotCurrentlyProvisioned", 7);
   ("InsufficientResources", 8); ("UnsupportedRKparameterField", 9);
   ("UnsupportedTrafficHandlingMode", 10); ("RoutingKeyChangeRefused", 11);
   ("RoutingKeyAlreadyRegistered", 12)].
Definition rfc_deregistration : list (string * N) :=
  [("SuccessfullyDeregistered", 0); ("DeregStatusUnknown", 1); ("DeregInvalidRoutingContext", 2);
   ("DeregPermissionDenied", 3); ("DeregNotRegistered", 4); ("DeregASPActiveForRoutingContext", 5)].
Definition rfc_traffic_modes : list (string * N) :=
  [("TrafficModeOverride", 1); ("TrafficModeLoadshare", 2); ("TrafficModeBroadcast", 3)].
(** status type and status information *)
Definition rfc_statuses : list (string * (N * N)) :=
  [("AsStateInactive", (1, 2)); ("AsStateActive", (1, 3)); ("AsStatePending", (1, 4));
   ("InsufficientAspResources", (2, 1)); ("AlternateAspActive", (2, 2)); ("AspFailure", (2, 3))].
Definition rfc_causes : list (string * N) :=
  [("UserIdentityUnknown", 0); ("Unequipped", 1); ("Inaccessible", 2)].
(** MTP3 users: the same numbers identify the user in User/Cause and in the SI *)
Inductive user := SCCP_user | TUP_user | ISUP_user | BISUP_user | SatISUP_user | AAL2_user | BICC_user | GCP_user.
Definition rfc_user (u : user) : N :=
  match u with
  | SCCP_user => 3 | TUP_user => 4 | ISUP_user => 5 | BISUP_user => 9 | SatISUP_user => 10
  | AAL2_user => 12 | BICC_user => 13 | GCP_user => 14
  end.
Definition cause_name (u : user) : string :=
  match u with
  | SCCP_user => "SCCP" | TUP_user => "TUP" | ISUP_user => "ISUP" | BISUP_user => "BroadbandISUP"
  | SatISUP_user => "SatelliteISUP" | AAL2_user => "AAL2Signalling" | BICC_user => "BICC"
  | GCP_user => "GatewayControlProtocol"
  end.
Definition si_name (u : user) : string :=
  match u with
  | SCCP_user => "ServiceIndSCCP" | TUP_user => "ServiceIndTUP" | ISUP_user => "ServiceIndISUP"
  | BISUP_user => "ServiceIndBroadbandISUP" | SatISUP_user => "ServiceIndSatelliteISUP"
  | AAL2_user => "ServiceIndAALType2Signalling" | BICC_user => "ServiceIndBICC"
  | GCP_user => "ServiceIndGatewayControlProtocol"
  end.

Lemma const_In b : NoDup (map fst b) -> forall x n, const b x = Some n <-> In (x, n) b.
Proof.
  unfold const. induction b as [|[y m] b IH]; cbn [map fst find]; intros ND x n.
  - split; [discriminate|intros []].
  - inversion ND as [|? ? NI ND']; subst. destruct (String.eqb y x) eqn:E.
    + apply String.eqb_eq in E as ->. cbn [snd]. split.
      * intros [= ->]. now left.
      * intros [[= ->]|H]; [reflexivity|]. exfalso. apply NI, (in_map fst _ _ H).
    + rewrite (IH ND'). split; [now right|]. intros [[= -> _]|H]; [|exact H].
      rewrite String.eqb_refl in E. discriminate.
Qed.
Fixpoint nodupb (l : list string) : bool :=
  match l with [] => true | x :: r => negb (existsb (String.eqb x) r) && nodupb r end.
Lemma nodupb_ok l : nodupb l = true -> NoDup l.
Proof.
  induction l as [|x r IH]; cbn [nodupb]; intros H; constructor.
  - intros Hx. apply andb_prop in H as [H _]. apply Bool.negb_true_iff in H.
    assert (T : existsb (String.eqb x) r = true)
      by (apply existsb_exists; exists x; split; [exact Hx|apply String.eqb_refl]).
    congruence.
  - apply IH. now apply andb_prop in H.
Qed.
Lemma const_same b b' : b = b' -> nodupb (map fst b) = true ->
  forall x n, const b x = Some n <-> In (x, n) b'.
Proof. intros <- H. apply const_In, nodupb_ok, H. Qed.

(** ** Error codes, registration results, traffic modes and statuses are the RFC's *)
Theorem C63_code_points : forall x,
  (forall n, const error_codes x = Some n <-> In (x, n) rfc_error_codes) /\
  (forall n, const registration_statuses x = Some n <-> In (x, n) rfc_registration) /\
  (forall n, const deregistration_statuses x = Some n <-> In (x, n) rfc_deregistration) /\
  (forall n, const traffic_modes x = Some n <-> In (x, n) rfc_traffic_modes) /\
  (forall n, const user_identities x = Some n <-> In (x, n) rfc_causes) /\
  (forall ty i, (ty < 65536 -> i < 65536 ->
     const (as_state_changes ++ other_statuses) x = Some (ty * 65536 + i)
     <-> In (x, (ty, i)) rfc_statuses)).
Proof.
  intros x. do 5 (split; [intros n; apply const_same; vm_compute; reflexivity|]).
  intros ty i Hty Hi. rewrite (const_same (as_state_changes ++ other_statuses) _ eq_refl)
    by (vm_compute; reflexivity).
  change (as_state_changes ++ other_statuses) with
    (map (fun e : string * (N * N) => (fst e, fst (snd e) * 65536 + snd (snd e))) rfc_statuses).
  rewrite in_map_iff. split.
  - intros ([y [ty' i']] & E & H). cbn [fst snd] in E.
    assert (B : ty' < 65536 /\ i' < 65536).
    { cbn [rfc_statuses In] in H. repeat destruct H as [[= <- <- <-]|H]; try (split; reflexivity). destruct H. }
    assert (Ex : y = x) by (now injection E). assert (En : ty' * 65536 + i' = ty * 65536 + i) by (now injection E).
    assert (ty' = ty) by nia. assert (i' = i) by nia. subst. exact H.
  - intros H. exists (x, (ty, i)). now split.
Qed.
Print Assumptions C63_code_points.
Example C63_ex : const error_codes "ErrProtocolError" = Some 7 /\
  const (as_state_changes ++ other_statuses) "AspFailure" = Some (2 * 65536 + 3).
Proof. split; reflexivity. Qed.

(** what such a parameter looks like to the peer *)
Theorem C63_on_the_wire : forall x n,
  (const error_codes x = Some n -> MarshalBinary (NewErrorCode n) = Ok ([x00; x0c; x00; x08] ++ be 4 n)) /\
  (const registration_statuses x = Some n ->
     MarshalBinary (NewRegistrationStatus n) = Ok ([x02; x12; x00; x08] ++ be 4 n)) /\
  (const deregistration_statuses x = Some n ->
     MarshalBinary (NewDeregistrationStatus n) = Ok ([x02; x13; x00; x08] ++ be 4 n)) /\
  (const traffic_modes x = Some n ->
     MarshalBinary (NewTrafficModeType n) = Ok ([x00; x0b; x00; x08] ++ be 4 n)) /\
  (forall ty i, In (x, (ty, i)) rfc_statuses ->
     const (as_state_changes ++ other_statuses) x = Some n ->
     MarshalBinary (NewStatus n) = Ok ([x00; x0d; x00; x08] ++ be 2 ty ++ be 2 i)).
Proof.
  intros x n. destruct (C63_code_points x) as (A & B & C & D & _ & F).
  split; [|split; [|split; [|split]]].
  - rewrite A. intros H. cbn [rfc_error_codes In] in H.
    repeat destruct H as [[= <- <-]|H]; try (vm_compute; reflexivity). destruct H.
  - rewrite B. intros H. cbn [rfc_registration In] in H.
    repeat destruct H as [[= <- <-]|H]; try (vm_compute; reflexivity). destruct H.
  - rewrite C. intros H. cbn [rfc_deregistration In] in H.
    repeat destruct H as [[= <- <-]|H]; try (vm_compute; reflexivity). destruct H.
  - rewrite D. intros H. cbn [rfc_traffic_modes In] in H.
    repeat destruct H as [[= <- <-]|H]; try (vm_compute; reflexivity). destruct H.
  - intros ty i H. cbn [rfc_statuses In] in H.
    repeat destruct H as [[= <- <- <-]|H]; try (vm_compute; intros [= <-]; vm_compute; reflexivity). destruct H.
Qed.
Print Assumptions C63_on_the_wire.

(** ** The users of User/Cause: every constant has the wrong number, and two of
    them are the number of another user *)
Theorem C63_users_refuted :
  (forall u, exists n, const unavailability_causes (cause_name u) = Some n /\ n <> rfc_user u) /\
  (exists n, const unavailability_causes "ISUP" = Some n /\
     forall cause, cause < 65536 -> UserIdentity (NewUserCause n cause) = rfc_user SCCP_user) /\
  (exists n, const unavailability_causes "BroadbandISUP" = Some n /\
     forall cause, cause < 65536 -> UserIdentity (NewUserCause n cause) = rfc_user ISUP_user).
Proof.
  split; [intros []; eexists; (split; [vm_compute; reflexivity|vm_compute; discriminate])|].
  split; eexists; (split; [vm_compute; reflexivity|]); intros c Hc; now apply UserCause_parts.
Qed.
Print Assumptions C63_users_refuted.

(** ** The service indicators: SCCP, TUP and ISUP are right, no other; AAL type 2
    signalling and the gateway control protocol are taken for another user *)
Theorem C63_service_indicators_refuted :
  (forall u n, const service_indicators (si_name u) = Some n ->
     (n = rfc_user u <-> In u [SCCP_user; TUP_user; ISUP_user])) /\
  (forall u, exists n, const service_indicators (si_name u) = Some n) /\
  (const service_indicators (si_name AAL2_user) = Some (rfc_user SatISUP_user)) /\
  (const service_indicators (si_name GCP_user) = Some (rfc_user AAL2_user)).
Proof.
  split; [|split; [intros []; eexists; vm_compute; reflexivity|split; vm_compute; reflexivity]].
  intros u n H.
  destruct u; vm_compute in H; injection H as <-; cbn [rfc_user In]; split;
    try (intros _; tauto); try (intros E; discriminate E); try reflexivity;
    intros [E|[E|[E|[]]]]; discriminate E.
Qed.
Print Assumptions C63_service_indicators_refuted.
