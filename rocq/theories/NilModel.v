(** nil pointers handed to the codec: nil elements of a slice of parameters, and
    a nil header. Of the exported functions only those that take such
    values are repeated here; with nothing nil they are the functions of
    ParamsModel.v and MessagesModel.v (proved in NilProofs.v). *)
From Verif Require Import GoBase ParamsModel MessagesModel ReuseModel PcModel TextModel.
From Coq Require Import Strings.String.
Open Scope nat_scope.
Open Scope list_scope.

(** methods of *Param with a receiver that may be nil: the first access to a field
    panics.  Param.MarshalLen and SetLength — params.go:243-250; Param.MarshalTo —
    params.go:200-205 (with a short buffer the panic may be that of b[0:2], which
    is evaluated in the same expression as p.Tag); Param.MarshalBinary —
    params.go:191-197 starts with MarshalLen *)
Definition at_ptr {A} (o : option param) (f : param -> res A) : res A :=
  match o with None => Panic PNil | Some p => f p end.
Definition nMarshalLen (o : option param) : res nat := at_ptr o (fun p => Ok (MarshalLen p)).
Definition nSetLength (o : option param) : res (option param) := at_ptr o (fun p => Ok (Some (SetLength p))).
Definition nMarshalTo (o : option param) (b : list byte) : res (list byte) := at_ptr o (fun p => MarshalTo p b).
Definition nMarshalBinary (o : option param) : res (list byte) := at_ptr o MarshalBinary.

(** MarshalMultiParams — params.go:265-275 *)
Fixpoint nMarshalMultiParams (ps : list (option param)) : res (list byte) :=
  match ps with
  | [] => Ok []
  | p :: r => let! c := nMarshalBinary p in let! b := nMarshalMultiParams r in Ok (c ++ b)
  end.

(** type Generic — generic.go:18-21 *)
Record ngeneric := mkNG { ng_hdr : option header; ng_params : list (option param) }.
(** Generic.MarshalLen — generic.go:93-99 *)
Fixpoint nsum (l : nat) (ps : list (option param)) : res nat :=
  match ps with [] => Ok l | p :: r => let! n := nMarshalLen p in nsum (l + n) r end.
Definition nMarshalLenG (g : ngeneric) : res nat := nsum 8 (ng_params g).
(** Generic.SetLength — generic.go:102-108 *)
Fixpoint nset (ps : list (option param)) : res (list (option param)) :=
  match ps with [] => Ok [] | p :: r => let! p := nSetLength p in let! r := nset r in Ok (p :: r) end.
Definition nSetLengthG (g : ngeneric) : res ngeneric :=
  let! ps := nset (ng_params g) in
  let! n := nsum 8 ps in
  match ng_hdr g with
  | None => Panic PNil
  | Some h => Ok (mkNG (Some (mkHeader (h_version h) (h_reserved h) (h_class h) (h_type h) (u32 (N.of_nat n)) (h_payload h))) ps)
  end.
(** New — generic.go:24-37 *)
Definition nNew (ver cls typ : byte) (ps : list (option param)) : res ngeneric :=
  nSetLengthG (mkNG (Some (mkHeader ver x00 cls typ 0 [])) ps).
(** Generic.MarshalTo — generic.go:49-65 *)
Fixpoint nput (ps : list (option param)) (pl : list byte) (off : nat) : res (list byte) :=
  match ps with
  | [] => Ok pl
  | p :: r =>
      let! s := slice pl off (List.length pl) in
      let! s := nMarshalTo p s in
      let! n := nMarshalLen p in
      nput r (firstn off pl ++ s) (off + n)
  end.
Definition nMarshalToG (g : ngeneric) (b : list byte) : res (ngeneric * list byte) :=
  let! n := nMarshalLenG g in
  if List.length b <? n then Err EMsgTooShortMarshal else
  match ng_hdr g with
  | None => Panic PNil
  | Some h =>
      let! pl := nput (ng_params g) (zeros (n - 8)) 0 in
      let h := set_payload h pl in
      let! b := Header_MarshalTo h b in
      Ok (mkNG (Some h) (ng_params g), b)
  end.
(** Generic.MarshalBinary — generic.go:40-46 *)
Definition nMarshalBinaryG (g : ngeneric) : res (ngeneric * list byte) :=
  let! n := nMarshalLenG g in nMarshalToG g (zeros n).
(** Generic.String — generic.go:111-121; Param.String asks for nil — params.go:253-262 *)
Definition nStringG (g : ngeneric) : res str :=
  match ng_hdr g with
  | None => Panic PNil
  | Some h => Ok (txt "{Header: "%string ++ Header_String h ++ txt ", Params: "%string ++ fmt_s_slice (map Param_String (ng_params g)) ++ txt "}"%string)
  end.
