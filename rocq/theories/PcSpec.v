(** Specification of point code texts, independent of the model's functions. *)
From Verif Require Import GoBase.
From Coq Require Import Arith Strings.String.
Open Scope nat_scope.

(** the variants with a defined width, their names and field widths *)
Inductive pcvar := V383 | V437 | V4343 | V545 | V662 | V68 | V745 | V77 | V888.
Definition widths (v : pcvar) : list N :=
  match v with
  | V383 => [3; 8; 3] | V437 => [4; 3; 7] | V4343 => [4; 3; 4; 3] | V545 => [5; 4; 5]
  | V662 => [6; 6; 2] | V68 => [6; 8] | V745 => [7; 4; 5] | V77 => [7; 7] | V888 => [8; 8; 8]
  end%N.
Definition bits (v : pcvar) : N := fold_right N.add 0%N (widths v).

(** decimal notation: [s] is a non-empty string of digits with value [n] *)
Definition dec_val (s : list byte) : N := fold_left (fun a c => a * 10 + (b2n c - 48))%N s 0%N.
Definition is_digit (c : byte) : Prop := (48 <= b2n c <= 57)%N.
Definition decimal (s : list byte) (n : N) : Prop :=
  s <> [] /\ Forall is_digit s /\ dec_val s = n.
(** no superfluous leading zero *)
Definition canonical (s : list byte) : Prop := forall c r, s = c :: r -> c = x30 -> r = [].

(** [text ss s]: s is the components ss separated by dashes *)
Inductive text : list (list byte) -> list byte -> Prop :=
| text_one : forall w, text [w] w
| text_cons : forall w ws s, text ws s -> text (w :: ws) (w ++ x2d :: s).

(** the number whose fields, most significant first, are the components *)
Fixpoint compose (ws cs : list N) : N :=
  match ws, cs with
  | _ :: ws', c :: cs' => (c * 2 ^ fold_right N.add 0 ws' + compose ws' cs')%N
  | _, _ => 0%N
  end.

(** every component is within its field *)
Definition in_range (ws cs : list N) : Prop := Forall2 (fun w c => (c < 2 ^ w)%N) ws cs.

(** strings written as literals *)
Definition lit (s : string) : list byte := list_byte_of_string s.
Definition vname (v : pcvar) : list byte :=
  match v with
  | V383 => lit "3-8-3" | V437 => lit "4-3-7" | V4343 => lit "4-3-4-3" | V545 => lit "5-4-5"
  | V662 => lit "6-6-2" | V68 => lit "6-8" | V745 => lit "7-4-5" | V77 => lit "7-7"
  | V888 => lit "8-8-8"
  end.

(** the components of a text contain no dash *)
Definition no_dash (w : list byte) : Prop := Forall (fun c => c <> x2d) w.

(** a number as strconv.Atoi reads it (64-bit int; no minus sign possible here) *)
Definition numeric (s : list byte) : Prop :=
  exists n, (n < 9223372036854775808)%N /\ (decimal s n \/ exists r, s = x2b :: r /\ decimal r n).

(** [s] is the canonical text of the number [n] in variant [v] *)
Definition printed (v : pcvar) (n : N) (s : list byte) : Prop :=
  exists ds cs, text ds s /\ Forall2 (fun d c => decimal d c /\ canonical d) ds cs /\
    in_range (widths v) cs /\ compose (widths v) cs = n.
