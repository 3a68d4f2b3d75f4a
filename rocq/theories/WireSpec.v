(** Wire format specification, written independently of the model's encoders
    and decoders (it uses only the byte type and its numeric value). *)
From Verif Require Import GoBase.
From Coq Require Import Arith.
Open Scope nat_scope.

(** [w] bytes, most significant first, holding [n] modulo 256^w *)
Fixpoint be (w : nat) (n : N) : list byte :=
  match w with 0 => [] | S w' => be w' (n / 256) ++ [n2b n] end.

(** the number denoted by big-endian bytes *)
Definition val (bs : list byte) : N := fold_left (fun a b => a * 256 + b2n b)%N bs 0%N.

(** number of padding bytes after a value of [n] bytes *)
Definition pad_len (n : nat) : nat := (4 - n mod 4) mod 4.

Definition max_value_len : nat := N.to_nat 65531.

(** one parameter on the wire: tag, length field, value, zero padding *)
Definition tlv (tag : N) (v : list byte) : list byte :=
  be 2 tag ++ be 2 (N.of_nat (4 + length v)) ++ v ++ repeat x00 (pad_len (length v)).

(** what a receiver accepts: padding bytes may have any value, and the padding
    of the last parameter may be cut short by the end of the input *)
Inductive TLVs : list byte -> list (N * list byte) -> Prop :=
| TLVs_nil : TLVs [] []
| TLVs_cut : forall tag v pad,
    (tag < 65536)%N -> length v <= max_value_len -> length pad < pad_len (length v) ->
    TLVs (be 2 tag ++ be 2 (N.of_nat (4 + length v)) ++ v ++ pad) [(tag, v)]
| TLVs_cons : forall tag v pad rest l,
    (tag < 65536)%N -> length v <= max_value_len -> length pad = pad_len (length v) ->
    TLVs rest l ->
    TLVs (be 2 tag ++ be 2 (N.of_nat (4 + length v)) ++ v ++ pad ++ rest) ((tag, v) :: l).

(** a whole packet *)
Definition packet (ver rsv cls typ : byte) (len : N) (body : list byte) : list byte :=
  [ver; rsv; cls; typ] ++ be 4 len ++ body.

(** body made of parameters given as (tag, value), with zero padding *)
Definition body_of (l : list (N * list byte)) : list byte :=
  concat (map (fun tv => tlv (fst tv) (snd tv)) l).

(** RFC 4666 numbers, written out as literals *)
Inductive mtype :=
| DATA | DUNA | DAVA | DAUD | SCON | DUPU | DRST
| ASPUP | ASPDN | BEAT | ASPUP_ACK | ASPDN_ACK | BEAT_ACK
| ASPAC | ASPIA | ASPAC_ACK | ASPIA_ACK | ERR | NTFY.

(** class, type and the parameters of each message in their order on the wire *)
Definition rfc (t : mtype) : byte * byte * list N :=
  match t with
  | ERR => (x00, x00, [12; 6; 0x200; 18; 7])
  | NTFY => (x00, x01, [13; 17; 6; 4])
  | DATA => (x01, x01, [0x200; 6; 0x210; 19])
  | DUNA => (x02, x01, [0x200; 6; 18; 4])
  | DAVA => (x02, x02, [0x200; 6; 18; 4])
  | DAUD => (x02, x03, [0x200; 6; 18; 4])
  | SCON => (x02, x04, [0x200; 6; 18; 0x206; 0x205; 4])
  | DUPU => (x02, x05, [0x200; 6; 18; 0x204; 4])
  | DRST => (x02, x06, [0x200; 6; 18; 4])
  | ASPUP => (x03, x01, [17; 4])
  | ASPDN => (x03, x02, [4])
  | BEAT => (x03, x03, [9])
  | ASPUP_ACK => (x03, x04, [17; 4])
  | ASPDN_ACK => (x03, x05, [4])
  | BEAT_ACK => (x03, x06, [9])
  | ASPAC => (x04, x01, [11; 6; 4])
  | ASPIA => (x04, x02, [6; 4])
  | ASPAC_ACK => (x04, x03, [11; 6; 4])
  | ASPIA_ACK => (x04, x04, [6; 4])
  end%N.
Definition rfc_class t := fst (fst (rfc t)).
Definition rfc_type t := snd (fst (rfc t)).
Definition rfc_params t := snd (rfc t).
