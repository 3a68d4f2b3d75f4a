(** Model: texts of states and of the package's errors. *)
From Verif Require Import GoBase ParamsModel MessagesModel PcModel ConfigModel ConnModel TextModel.
From Coq Require Import Strings.String.
Open Scope list_scope.

(** State.String — fsm.go:28-43; State is a uint8, its constants are fsm.go:20-26 *)
Definition StateAspDown : byte := x00.
Definition StateAspInactive : byte := x01.
Definition StateAspActive : byte := x02.
Definition StateSCTPCDI : byte := x03.
Definition StateSCTPRI : byte := x04.
Definition State_String (s : byte) : str :=
  if Byte.eqb s StateAspDown then txt "AspDown" else
  if Byte.eqb s StateAspInactive then txt "AspInactive" else
  if Byte.eqb s StateAspActive then txt "AspActive" else
  if Byte.eqb s StateSCTPCDI then txt "SCTPCDI" else
  if Byte.eqb s StateSCTPRI then txt "SCTPRI" else txt "Unknown".
(** the states of ConnModel as values of that type *)
Definition state_value (s : st) : byte :=
  match s with Down => StateAspDown | Inactive => StateAspInactive | Active => StateAspActive | CDI => StateSCTPCDI | RI => StateSCTPRI end.

(** Error() of the errors that go through the errChan — errors.go:16-29, 42-44, 58-60, 86-88, 115-117, 130-132;
    None: the error comes from another package (SCTP, crypto/rand, or package messages) *)
Definition Error_text (e : cerr) : option str :=
  match e with
  | EInvalidVersion v => Some (txt "invalid version: " ++ fmt_d (b2n v))
  | EUnsupportedClass m => Some (txt "message class unsupported. class: " ++ ClassName m)
  | EUnsupportedMessage m => Some (txt "message unsupported. class: " ++ ClassName m ++ txt ", type: " ++ TypeName m)
  | EUnexpected m => Some (txt "unexpected message. class: " ++ ClassName m ++ txt ", type: " ++ TypeName m)
  | EInvalidStream id => Some (txt "invalid SCTP Stream ID: " ++ fmt_d id)
  | EAspIDRequired => Some (txt "ASP Identifier required")
  | EHeartbeatExpired => Some (txt "heartbeat timer expired")
  | EFailedToPeelOff => Some (txt "failed to peel off Protocol Data")
  | EFailedToWriteSignal => Some (txt "failed to write signal")
  | EWriteSignal | ERand => None
  end.
