(** Model of package pc (pc/pc.go of /repo) and of the parts of strings and
    strconv it uses.  A Go string is a list of bytes; a Variant is a string. *)
From Verif Require Import GoBase.
From Coq Require Import Arith.
Open Scope nat_scope.

Definition str := list byte.
Definition str_eqb (a b : str) : bool :=
  if list_eq_dec Byte.byte_eq_dec a b then true else false.

(** * Library functions *)

(** strings.Split(s, "-"): always at least one element *)
Fixpoint split_dash (s : str) : list str :=
  match s with
  | [] => [[]]
  | c :: r =>
      if Byte.eqb c x2d then [] :: split_dash r
      else match split_dash r with
           | w :: ws => (c :: w) :: ws
           | [] => [[c]]   (* unreachable: split_dash is never [] *)
           end
  end.

(** strings.Join(l, "-") *)
Fixpoint join_dash (l : list str) : str :=
  match l with
  | [] => []
  | [w] => w
  | w :: r => w ++ x2d :: join_dash r
  end.

(** strconv.Atoi on a 64-bit platform: optional sign, then decimal digits only,
    at least one, value within int64; None = error *)
Definition digit (c : byte) : option N :=
  let n := b2n c in if ((48 <=? n) && (n <=? 57))%N then Some (n - 48)%N else None.
Fixpoint digits (s : str) (acc : N) : option N :=
  match s with
  | [] => Some acc
  | c :: r => match digit c with Some d => digits r (acc * 10 + d)%N | None => None end
  end.
Definition atou (s : str) : option N :=
  match s with [] => None | _ => digits s 0 end.
Definition Atoi (s : str) : option Z :=
  match s with
  | x2d :: r => match atou r with          (* '-' *)
                | Some n => if (n <=? 9223372036854775808)%N then Some (- Z.of_N n)%Z else None
                | None => None end
  | x2b :: r => match atou r with          (* '+' *)
                | Some n => if (n <? 9223372036854775808)%N then Some (Z.of_N n) else None
                | None => None end
  | _ => match atou s with
         | Some n => if (n <? 9223372036854775808)%N then Some (Z.of_N n) else None
         | None => None end
  end.

(** strconv.Itoa of a non-negative int; 20 digits are enough for 64 bits *)
Fixpoint itoa_loop (fuel : nat) (n : N) (acc : str) : str :=
  match fuel with
  | 0 => acc
  | S fuel' =>
      let acc := n2b (48 + n mod 10) :: acc in
      if (n <? 10)%N then acc else itoa_loop fuel' (n / 10) acc
  end.
Definition Itoa (n : N) : str := itoa_loop 20 n [].

(** uint32(x) of an int *)
Definition u32z (x : Z) : N := Z.to_N (x mod 4294967296).
(** uint32 shifts and subtraction *)
Definition shl32 (x r : N) : N := if (32 <=? r)%N then 0%N else u32 (N.shiftl x r).
Definition shr32 (x r : N) : N := if (32 <=? r)%N then 0%N else N.shiftr x r.
Definition sub32 (a b : N) : N := Z.to_N ((Z.of_N a - Z.of_N b) mod 4294967296).

(** * Variants — pc.go:15-31 *)
Definition VariantNone : str := [].
Definition Variant383 : str := [x33; x2d; x38; x2d; x33].
Definition Variant437 : str := [x34; x2d; x33; x2d; x37].
Definition Variant4343 : str := [x34; x2d; x33; x2d; x34; x2d; x33].
Definition Variant446 : str := [x34; x2d; x34; x2d; x36].
Definition Variant545 : str := [x35; x2d; x34; x2d; x35].
Definition Variant662 : str := [x36; x2d; x36; x2d; x32].
Definition Variant68 : str := [x36; x2d; x38].
Definition Variant745 : str := [x37; x2d; x34; x2d; x35].
Definition Variant77 : str := [x37; x2d; x37].
Definition Variant888 : str := [x38; x2d; x38; x2d; x38].

(** Variant.BitLength — pc.go:34-45 *)
Definition BitLength (v : str) : N :=
  if existsb (str_eqb v)
       [Variant383; Variant437; Variant4343; Variant545; Variant662; Variant68; Variant77] then 14
  else if str_eqb v Variant745 then 16
  else if str_eqb v Variant888 then 24
  else 0.

(** Variant.slice — pc.go:47-62; None is a nil slice (length 0) *)
Fixpoint atois (l : list str) : option (list N) :=
  match l with
  | [] => Some []
  | w :: r =>
      match Atoi w with
      | None => None
      | Some d => match atois r with Some ds => Some (u32z d :: ds) | None => None end
      end
  end.
Definition variant_slice (v : str) : list N :=
  if str_eqb v VariantNone then []
  else match atois (split_dash v) with Some s => s | None => [] end.

(** type PointCode — pc.go:70-74 *)
Record pointcode := mkPC { pc_raw : N; pc_formatted : str; pc_form : str }.

(** the loop of convRawToStr — pc.go:140-144 *)
Fixpoint fmt_loop (s : list N) (n r : N) : list str :=
  match s with
  | [] => []
  | v :: s' =>
      let x := N.land n (sub32 (shl32 1 r) (shl32 1 (sub32 r v))) in
      let r := sub32 r v in
      Itoa (shr32 x r) :: fmt_loop s' n r
  end.

(** convRawToStr — pc.go:130-147; None is an error *)
Definition convRawToStr (n : N) (v : str) : option str :=
  if str_eqb v VariantNone then None else
  let s := variant_slice v in
  let r := BitLength v in
  let n := N.land n (sub32 (shl32 1 r) 1) in
  Some (join_dash (fmt_loop s n r)).

(** the loop of convStrToRaw — pc.go:165-172; ds and s have the same length *)
Fixpoint raw_loop (ds : list str) (s : list N) (r n : N) : option N :=
  match ds, s with
  | d :: ds', w :: s' =>
      match Atoi d with
      | None => None
      | Some x =>
          let r := sub32 r w in
          raw_loop ds' s' r (N.lor n (shl32 (u32z x) r))
      end
  | _, _ => Some n
  end.

(** convStrToRaw — pc.go:149-175 *)
Definition convStrToRaw (f v : str) : option N :=
  if str_eqb v VariantNone then None else
  let ds := split_dash f in
  if length ds =? 0 then None else
  let s := variant_slice v in
  if negb (length ds =? length s) then None else
  raw_loop ds s (BitLength v) 0.

(** PointCode.ConvertTo — pc.go:121-128; returns the result and the receiver *)
Definition ConvertTo (p : pointcode) (v : str) : option str * pointcode :=
  match convRawToStr (pc_raw p) v with
  | None => (None, p)
  | Some s => (Some s, mkPC (pc_raw p) s (pc_form p))
  end.

(** NewPointCode — pc.go:77-90 *)
Definition NewPointCode (raw : N) (v : str) : option pointcode :=
  let p := mkPC (N.land raw (sub32 (shl32 1 (BitLength v)) 1)) [] v in
  match ConvertTo p v with
  | (None, _) => None
  | (Some s, p) => Some (mkPC (pc_raw p) s (pc_form p))
  end.

(** NewPointCodeFrom — pc.go:93-105 *)
Definition NewPointCodeFrom (pc v : str) : option pointcode :=
  if str_eqb v VariantNone then None else
  match convStrToRaw pc v with
  | None => None
  | Some raw => Some (mkPC raw pc v)
  end.

(** Uint32, Variant, String — pc.go:108-115, 178-184 *)
Definition Uint32_ (p : pointcode) : N := pc_raw p.
Definition Variant (p : pointcode) : str := pc_form p.
Definition String_ (p : pointcode) : str :=
  if str_eqb (pc_form p) VariantNone then [] else pc_formatted p.
