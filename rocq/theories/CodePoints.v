(** Model of the exported code point constants of package messages/params.  A Go
    const block whose first line is [X uintN = f(iota)] gives the k-th line the
    value f(k); a line [_] takes a number and names nothing. *)
From Coq Require Import NArith List String.
Import ListNotations.
Open Scope N_scope.
Open Scope string_scope.

Fixpoint numbered (f : N -> N) (k : N) (l : list string) : list (string * N) :=
  match l with
  | [] => []
  | x :: r => (if String.eqb x "_" then [] else [(x, f k)]) ++ numbered f (k + 1) r
  end.

(** error-code.go:8-36 *)
Definition error_codes := numbered (fun i => i) 0
  ["_"; "InvalidVersionError"; "_"; "UnsupportedMessageErrorClass"; "UnsupportedMessageErrorType";
   "ErrUnsupportedTrafficModeType"; "UnexpectedMessageError"; "ErrProtocolError"; "_";
   "ErrInvalidStreamIdentifier"; "_"; "_"; "_"; "ErrRefusedManagementBlocking";
   "ErrAspIdentifierRequired"; "ErrInvalidAspIdentifier"; "_"; "ErrInvalidParameterValue";
   "ErrParameterFieldError"; "ErrUnexpectedParameter"; "ErrDestinationStatusUnknown";
   "ErrInvalidNetworkAppearance"; "ErrMissingParameter"; "_"; "_"; "ErrInvalidRoutingContext";
   "ErrNoConfiguredAsForAsp"].

(** registration-status.go:8-22 *)
Definition registration_statuses := numbered (fun i => i) 0
  ["SuccessfullyRegistered"; "RegistrationStatusUnknown"; "InvalidDPC"; "InvalidNetworkAppearance";
   "InvalidRoutingKey"; "PermissionDenied"; "CannotSupportUniqueRouting";
   "RoutingKeynotCurrentlyProvisioned"; "InsufficientResources"; "UnsupportedRKparameterField";
   "UnsupportedTrafficHandlingMode"; "RoutingKeyChangeRefused"; "RoutingKeyAlreadyRegistered"].

(** deregistration-status.go:8-15 *)
Definition deregistration_statuses := numbered (fun i => i) 0
  ["SuccessfullyDeregistered"; "DeregStatusUnknown"; "DeregInvalidRoutingContext";
   "DeregPermissionDenied"; "DeregNotRegistered"; "DeregASPActiveForRoutingContext"].

(** traffic-mode-type.go:8-13 *)
Definition traffic_modes := numbered (fun i => i) 0
  ["_"; "TrafficModeOverride"; "TrafficModeLoadshare"; "TrafficModeBroadcast"].

(** status.go:15-20 and 24-28: [|] and [+] have the same precedence in Go and
    associate to the left, so the value is ((type << 16) | iota) + 1 *)
Definition as_state_changes := numbered (fun i => N.lor (N.shiftl 1 16) i + 1) 0
  ["_"; "AsStateInactive"; "AsStateActive"; "AsStatePending"].
Definition other_statuses := numbered (fun i => N.lor (N.shiftl 2 16) i + 1) 0
  ["InsufficientAspResources"; "AlternateAspActive"; "AspFailure"].

(** user-cause.go:8-12, called "User Identity" there *)
Definition user_identities := numbered (fun i => i) 0
  ["UserIdentityUnknown"; "Unequipped"; "Inaccessible"].
(** user-cause.go:15-28, called "Unavailability Cause" there *)
Definition unavailability_causes := numbered (fun i => i) 0
  ["_"; "SCCP"; "TUP"; "ISUP"; "_"; "BroadbandISUP"; "SatelliteISUP"; "_"; "AAL2Signalling"; "BICC";
   "GatewayControlProtocol"; "_"].

(** protocol-data.go:14-29 *)
Definition service_indicators := numbered (fun i => i) 0
  ["ServiceIndUnused"; "_"; "_"; "ServiceIndSCCP"; "ServiceIndTUP"; "ServiceIndISUP"; "_";
   "ServiceIndBroadbandISUP"; "ServiceIndSatelliteISUP"; "_"; "ServiceIndAALType2Signalling";
   "ServiceIndBICC"; "ServiceIndGatewayControlProtocol"; "_"].

(** the value of a named constant of a block *)
Definition const (b : list (string * N)) (x : string) : option N :=
  match find (fun e => String.eqb (fst e) x) b with Some e => Some (snd e) | None => None end.
