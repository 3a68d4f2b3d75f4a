(** Model of the message methods on arbitrary struct values: values made with a
    literal or decoded into repeatedly, whose Header may be nil
    (messages/*.go of /repo).  MessagesModel.v covers values with a header. *)
From Verif Require Import GoBase ParamsModel MessagesModel.
From Coq Require Import Arith.
Open Scope nat_scope.

(** A value of one of the 19 typed structs; [v_hdr = None] is a nil *Header
    (the struct's first field, e.g. data.go:18-24). *)
Record value := mkValue { v_kind : kind; v_hdr : option header; v_f : fields }.

(** &T{} — e.g. data.go:94 *)
Definition zero_value (k : kind) : value := mkValue k None no_fields.

(** the loop of UnmarshalBinary, e.g. data.go:113-126: the fields after it and
    what it returns; fields assigned before the return stay assigned *)
Fixpoint assign_loop (k : kind) (s : fields) (ps : list param) : fields * res unit :=
  match ps with
  | [] => (s, Ok tt)
  | p :: r =>
      match lookup_case (p_tag p) (unmarshal_cases k) with
      | Some f => assign_loop k (fset f (Some p) s) r
      | None => (s, Err EMsgInvalidParameter)
      end
  end.

(** UnmarshalBinary, e.g. data.go:102-128: the value afterwards and the result.
    "d.Header, err = ParseHeader(b)" stores a nil header on error. *)
Definition value_UnmarshalBinary (x : value) (b : list byte) : value * res unit :=
  match ParseHeader b with
  | Err e => (mkValue (v_kind x) None (v_f x), Err e)
  | Panic p => (x, Panic p)
  | Ok h =>
      let x := mkValue (v_kind x) (Some h) (v_f x) in
      match ParseMultiParams (h_payload h) with
      | Err e => (x, Err e)
      | Panic p => (x, Panic p)
      | Ok ps =>
          let (fs, r) := assign_loop (v_kind x) (v_f x) ps in
          (mkValue (v_kind x) (Some h) fs, r)
      end
  end.

(** ParseData, ParseAspUp, ... — e.g. data.go:93-99 *)
Definition value_Parse (k : kind) (b : list byte) : res value :=
  let (x, r) := value_UnmarshalBinary (zero_value k) b in
  match r with Ok _ => Ok x | Err e => Err e | Panic p => Panic p end.

(** Version() — e.g. data.go:178-180: dereferences the header *)
Definition value_Version (x : value) : res byte :=
  match v_hdr x with Some h => Ok (h_version h) | None => Panic PNil end.

(** MarshalLen() — e.g. data.go:149-164: does not look at the header *)
Definition value_MarshalLen (x : value) : nat :=
  fold_left (fun l f => l + opt_len (fget f (v_f x))) (len_fields (v_kind x)) 8.

(** MarshalTo — e.g. data.go:54-90: the length check comes first, then
    "d.Header.Payload = ..." *)
Definition value_MarshalTo (x : value) (b : list byte) : res (value * list byte) :=
  if length b <? value_MarshalLen x then Err EMsgTooShortMarshal else
  match v_hdr x with
  | None => Panic PNil
  | Some h =>
      let! (m, b) := msg_MarshalTo (mkMsg (v_kind x) h (v_f x)) b in
      Ok (mkValue (m_kind m) (Some (m_hdr m)) (m_f m), b)
  end.
Definition value_MarshalBinary (x : value) : res (value * list byte) :=
  value_MarshalTo x (zeros (value_MarshalLen x)).

(** SetLength() — e.g. data.go:131-146 *)
Definition value_SetLength (x : value) : res value :=
  match v_hdr x with
  | None => Panic PNil
  | Some h =>
      let m := msg_SetLength (mkMsg (v_kind x) h (v_f x)) in
      Ok (mkValue (m_kind m) (Some (m_hdr m)) (m_f m))
  end.

(** Generic values and UnmarshalBinary into one — generic.go:16-22, 77-90 *)
Record gvalue := mkGValue { gv_hdr : option header; gv_params : list param }.
Definition gvalue_UnmarshalBinary (x : gvalue) (b : list byte) : gvalue * res unit :=
  match ParseHeader b with
  | Err e => (mkGValue None (gv_params x), Err e)
  | Panic p => (x, Panic p)
  | Ok h =>
      match ParseMultiParams (h_payload h) with
      | Err e => (mkGValue (Some h) (gv_params x), Err e)
      | Panic p => (mkGValue (Some h) (gv_params x), Panic p)
      | Ok ps => (mkGValue (Some h) (gv_params x ++ ps), Ok tt)
      end
  end.

(** Param.UnmarshalBinary into a value that already holds something —
    params/params.go:216-231 *)
Definition param_UnmarshalBinary (p : param) (b : list byte) : param * res unit :=
  if length b <? 4 then (p, Err EParamTooShortParse) else
  match Uint16 b 0, Uint16 b 2 with
  | Ok t, Ok len =>
      if (length b <? N.to_nat len) || (len <? 4)%N
      then (mkParam t len (p_data p), Err EParamInvalidLength)
      else match slice b 4 (N.to_nat len) with
           | Ok d => (mkParam t len d, Ok tt)
           | Err e => (mkParam t len (p_data p), Err e)
           | Panic q => (mkParam t len (p_data p), Panic q)
           end
  | _, _ => (p, Panic PSlice)
  end.

(** The slices a decoder returns share the memory of the buffer it was given:
    p.Data = b[4:p.Length] (params.go:229), next parameter at the padded offset
    (params.go:264-280).  A [view] is a parameter whose Data is still a position
    in that buffer. *)
Record view := mkView { w_tag : N; w_length : N; w_off : nat; w_len : nat }.
(** the parameter one sees through a view when the buffer holds [b] *)
Definition see (b : list byte) (w : view) : param :=
  mkParam (w_tag w) (w_length w) (firstn (w_len w) (skipn (w_off w) b)).

(** ParseMultiParams with positions instead of copies — params.go:282-301;
    [off] is where the remaining slice starts *)
Fixpoint ParseViews_loop (fuel : nat) (b : list byte) (off : nat) (acc : list view) : res (list view) :=
  match fuel with
  | 0 => Err EFuel
  | S fuel' =>
      if length b - off =? 0 then Ok acc else
      let! p := ParseParam (skipn off b) in
      let acc := acc ++ [mkView (p_tag p) (p_length p) (off + 4) (length (p_data p))] in
      let adv := N.to_nat (p_length p) + Padding p in
      if length b - off <? adv then Ok acc else
      ParseViews_loop fuel' b (off + adv) acc
  end.
Definition ParseViews (b : list byte) : res (list view) := ParseViews_loop (S (length b)) b 0 [].
