(** Model of the identity of error values: which errors are returned as they are and which are wrapped by fmt.Errorf with %w. *)
From Verif Require Import GoBase ParamsModel MessagesModel PcModel ConfigModel ConnModel TextModel EstModel.
From Coq Require Import Strings.String.
Open Scope list_scope.

(** the error variables of the packages, and the errors of the system *)
Inductive evar :=
| VCodec (e : goerr)        (* params.go:64-67, message.go:190-192 *)
| VNotEstablished           (* errors.go:19 *)
| VFailedToEstablish        (* errors.go:20 *)
| VTimeout                  (* errors.go:21 *)
| VSystem (n : nat).        (* an error of the SCTP package *)
(** an error value: one of them, the result of fmt.Errorf with %w, or that of fmt.Errorf without *)
Inductive errval := Named (v : evar) | Wraps (text : str) (inner : errval) | Texts (text : str).

(** the default case of UnmarshalBinary — duna.go:120, dava.go:120, daud.go:120, drst.go:120, dupu.go:129; the others return ErrInvalidParameter itself,
    e.g. data.go:124 *)
Definition foreign_error (k : kind) : errval :=
  let e := Named (VCodec EMsgInvalidParameter) in
  match k with
  | KDUNA => Wraps (txt "failed to decode DUNA: ") e
  | KDAVA => Wraps (txt "failed to decode DAVA: ") e
  | KDAUD => Wraps (txt "failed to decode DAUD: ") e
  | KDRST => Wraps (txt "failed to decode DRST: ") e
  | KDUPU => Wraps (txt "failed to decode DUPU: ") e
  | _ => e
  end.
(** UnmarshalBinary — e.g. duna.go:98-124: the errors of ParseHeader and ParseMultiParams are returned as they are *)
Definition unmarshal_error (k : kind) (b : list byte) : option errval :=
  match msg_Unmarshal k b with
  | Err EMsgInvalidParameter => Some (foreign_error k)
  | Err e => Some (Named (VCodec e))
  | _ => None
  end.
(** the error of Parse — message.go:114-177 *)
Definition parse_error (b : list byte) : option errval :=
  if (List.length b <? 4)%nat then Some (Named (VCodec EMsgTooShortParse)) else
  match GoBase.index b 2, GoBase.index b 3 with
  | Ok c, Ok t =>
      match dispatch c t with
      | Some k => unmarshal_error k b
      | None => match gen_Unmarshal b with Err e => Some (Named (VCodec e)) | _ => None end
      end
  | _, _ => None
  end.

(** the error of a write when SCTPWrite fails with n — conn.go:132-134, 166-168; of WriteSignal — conn.go:178-180, 189-191 *)
Definition write_error (n : nat) : errval := Named (VSystem n).
Definition signal_error (m : m3ua) (n : nat) : errval :=
  match wire m with
  | Err e => Wraps (txt "failed to create ") (Named (VCodec e))
  | _ => Wraps (txt "failed to write M3UA: ") (Named (VSystem n))
  end.

(** the errors of Dial, Accept and Listen; n is the error of the SCTP call that failed — client.go:36, 41, 46, 59, 64, server.go:30, 35, 59, 71, 84, 89.
    Simplification: the failed type assertion of server.go:66 (an error without a variable) is left out, as in EstModel.v *)
Definition dial_error (x : eerr) (n : nat) : errval :=
  match x with
  | XNet => Texts (txt "invalid network: ")
  | XSctp => Named (VSystem n)
  | XStatus => Wraps (txt "failed to get sctpConn status: ") (Named (VSystem n))
  | XFailed => Named VFailedToEstablish
  | XTimeout => Named VTimeout
  end.
Definition listen_error (x : eerr) (n : nat) : errval :=
  match x with XSctp => Wraps (txt "failed to listen SCTP: ") (Named (VSystem n)) | _ => dial_error x n end.
