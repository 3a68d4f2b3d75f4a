(** Model of the program examples/pc-conv/main.go. Not modelled: the parsing of the command line (an int is 64 bits wide) and the texts
    around the printed values. *)
From Verif Require Import GoBase PcModel.
From Coq Require Import Arith.
Open Scope nat_scope.

(** the values of a printed line — examples/pc-conv/main.go:25, 33 *)
Inductive convline := Conv (raw : N) (formatted variant : str).
(** how the program ends: main returns, log.Fatal for the flags or for the text, or a nil pointer is dereferenced *)
Inductive convend := CReturned | CFatalFlags | CFatalText | CNil.

(** p.Uint32(), p.String(), p.Variant() of a pointer that may be nil — examples/pc-conv/main.go:25, 33; pc.go:108-115, 178-184 *)
Definition show (p : option pointcode) : option convline :=
  match p with
  | None => None
  | Some p => Some (Conv (Uint32_ p) (String_ p) (Variant p))
  end.

(** main — examples/pc-conv/main.go:11-35 *)
Definition pc_conv (raw : Z) (text variant : str) : list convline * convend :=
  if (raw <? 0)%Z && str_eqb text [] then ([], CFatalFlags) else
  let second out :=
    if str_eqb text [] then (out, CReturned) else
    if length (split_dash text) <? 2 then (out, CFatalText) else
    match show (NewPointCodeFrom text variant) with
    | None => (out, CNil)
    | Some l => (out ++ [l], CReturned)
    end in
  if (0 <? raw)%Z then
    match show (NewPointCode (u32z raw) variant) with
    | None => ([], CNil)
    | Some l => second [l]
    end
  else second [].
