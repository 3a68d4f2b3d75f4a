(** Go run-time notions shared by all model files: bytes, outcomes of a call,
    bounds-checked slices and encoding/binary's big-endian access.
    Nothing in this file is about go-m3ua itself. *)
From Coq Require Export List NArith ZArith Bool.
From Coq.Init Require Export Byte.
From Coq.Strings Require Export Byte.
From Coq Require Import Arith Lia.
Export ListNotations.

Open Scope nat_scope.

(** uint8 values.  [n2b] is Go's truncating conversion uint8(x). *)
Definition b2n (b : byte) : N := Byte.to_N b.
Definition n2b (n : N) : byte :=
  match Byte.of_N (n mod 256)%N with Some b => b | None => x00 end.

(** Truncating conversions uint16(x), uint32(x). *)
Definition u16 (n : N) : N := (n mod 65536)%N.
Definition u32 (n : N) : N := (n mod 4294967296)%N.

(** Why a goroutine panics. *)
Inductive panic :=
| PSlice      (* slice bounds out of range *)
| PIndex      (* index out of range *)
| PNil        (* nil pointer dereference *)
| PSendClosed (* send on closed channel *)
| PCloseClosed (* close of closed channel *)
| PIntn.      (* invalid argument to Intn *)

(** Error values of the codec packages: messages/params/params.go:63-68 and
    messages/message.go:189-193.  (EFuel is not a Go value: it marks exhausted
    recursion fuel in the model and is proved unreachable.) *)
Inductive goerr :=
| EParamInvalidType      (* params.ErrInvalidType *)
| EParamInvalidLength    (* params.ErrInvalidLength *)
| EParamTooShortMarshal  (* params.ErrTooShortToMarshalBinary *)
| EParamTooShortParse    (* params.ErrTooShortToParse *)
| EMsgTooShortMarshal    (* messages.ErrTooShortToMarshalBinary *)
| EMsgTooShortParse      (* messages.ErrTooShortToParse *)
| EMsgInvalidParameter   (* messages.ErrInvalidParameter *)
| EFuel.

Inductive res (A : Type) :=
| Ok (a : A)
| Err (e : goerr)
| Panic (p : panic).
Arguments Ok {A} a.
Arguments Err {A} e.
Arguments Panic {A} p.

Definition bind {A B} (r : res A) (k : A -> res B) : res B :=
  match r with Ok a => k a | Err e => Err e | Panic p => Panic p end.
Notation "'let!' x ':=' r 'in' k" := (bind r (fun x => k))
  (at level 200, x pattern, r at level 100, k at level 200, right associativity).

(** [b[lo:hi]] on a slice whose capacity region is [b]. *)
Definition slice (b : list byte) (lo hi : nat) : res (list byte) :=
  if (lo <=? hi) && (hi <=? length b)
  then Ok (firstn (hi - lo) (skipn lo b)) else Panic PSlice.

(** [b[i]] *)
Definition index {A} (b : list A) (i : nat) : res A :=
  match nth_error b i with Some x => Ok x | None => Panic PIndex end.

(** Overwrite [length s] bytes at offset [lo]. *)
Definition splice (b : list byte) (lo : nat) (s : list byte) : list byte :=
  firstn lo b ++ s ++ skipn (lo + length s) b.

(** [b[i] = v] *)
Definition set_index (b : list byte) (i : nat) (v : byte) : res (list byte) :=
  if i <? length b then Ok (splice b i [v]) else Panic PIndex.

(** [copy(b[lo:hi], src)] *)
Definition copy_at (b : list byte) (lo hi : nat) (src : list byte) : res (list byte) :=
  if (lo <=? hi) && (hi <=? length b)
  then Ok (splice b lo (firstn (min (hi - lo) (length src)) src)) else Panic PSlice.

(** encoding/binary BigEndian: the byte order is written with shifts as in
    the library (b[0] = byte(v >> 8); b[1] = byte(v), etc.). *)
Definition put_u16 (v : N) : list byte := [n2b (N.shiftr v 8); n2b v].
Definition put_u32 (v : N) : list byte :=
  [n2b (N.shiftr v 24); n2b (N.shiftr v 16); n2b (N.shiftr v 8); n2b v].
Definition get_u16 (b0 b1 : byte) : N := N.lor (b2n b1) (N.shiftl (b2n b0) 8).
Definition get_u32 (b0 b1 b2 b3 : byte) : N :=
  N.lor (N.lor (N.lor (b2n b3) (N.shiftl (b2n b2) 8)) (N.shiftl (b2n b1) 16)) (N.shiftl (b2n b0) 24).

(** binary.BigEndian.PutUint16(b[lo:lo+2], v), PutUint32(b[lo:lo+4], v) *)
Definition PutUint16 (b : list byte) (lo : nat) (v : N) : res (list byte) :=
  if lo + 2 <=? length b then Ok (splice b lo (put_u16 v)) else Panic PSlice.
Definition PutUint32 (b : list byte) (lo : nat) (v : N) : res (list byte) :=
  if lo + 4 <=? length b then Ok (splice b lo (put_u32 v)) else Panic PSlice.

(** binary.BigEndian.Uint16(b[lo:lo+2]), Uint32(b[lo:lo+4]) *)
Definition Uint16 (b : list byte) (lo : nat) : res N :=
  let! s := slice b lo (lo + 2) in
  match s with [b0; b1] => Ok (get_u16 b0 b1) | _ => Panic PSlice end.
Definition Uint32 (b : list byte) (lo : nat) : res N :=
  let! s := slice b lo (lo + 4) in
  match s with [b0; b1; b2; b3] => Ok (get_u32 b0 b1 b2 b3) | _ => Panic PSlice end.

(** make([]byte, n) *)
Definition zeros (n : nat) : list byte := repeat x00 n.
