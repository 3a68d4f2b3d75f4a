(** C109: which error a refused packet gives. *)
From Verif Require Import GoBase BaseProofs WireSpec ParamsModel ParamsSpec ParamsProofs MessagesModel MsgSpec MessagesProofs MessagesProofs2 RejectSpec FuzzModel RejectProofs.
From Coq Require Import Arith Lia.
Open Scope nat_scope.

(** messages.ErrTooShortToParse: exactly the packets shorter than a header *)
Theorem C109_too_short : forall b, Parse b = Err EMsgTooShortParse <-> length b < 8.
Proof. exact Parse_too_short. Qed.
(** params.ErrTooShortToParse: exactly the packets whose body ends with one to three octets after complete parameters *)
Theorem C109_cut : forall b, Parse b = Err EParamTooShortParse <->
  exists v r c ty len body, (len < 4294967296)%N /\ b = packet v r c ty len body /\ cut_off body.
Proof. exact Parse_cut. Qed.
(** params.ErrInvalidLength: exactly those whose first bad parameter has an impossible length *)
Theorem C109_length : forall b, Parse b = Err EParamInvalidLength <->
  exists v r c ty len body, (len < 4294967296)%N /\ b = packet v r c ty len body /\ wrong_length body.
Proof. exact Parse_length. Qed.
(** messages.ErrInvalidParameter: exactly those that are well-formed and contain a parameter that does not belong to the message (or to the message
    that the class and type are taken for, C18) *)
Theorem C109_parameter : forall b, Parse b = Err EMsgInvalidParameter <->
  exists v r c ty len body l mt x, (len < 4294967296)%N /\ b = packet v r c ty len body /\ TLVs body l /\
  N.lor ((16 * b2n c) mod 256) (b2n ty) = (16 * b2n (rfc_class mt) + b2n (rfc_type mt))%N /\ In x l /\ ~ In (fst x) (rfc_params mt).
Proof. exact Parse_parameter. Qed.
(** The same for lists of parameters. *)
Theorem C109_list : forall b, (ParseMultiParams b = Err EParamTooShortParse <-> cut_off b) /\ (ParseMultiParams b = Err EParamInvalidLength <-> wrong_length b).
Proof. intros b. split; [apply multi_cut|apply multi_length]. Qed.
(** No other error. *)
Theorem C109_no_other : forall b e, Parse b = Err e -> In e [EMsgTooShortParse; EMsgInvalidParameter; EParamTooShortParse; EParamInvalidLength].
Proof. intros b e H. destruct (Parse_outcome b) as [[m X]|(e' & X & I)]; [congruence|]. rewrite H in X. injection X as ->. exact I. Qed.
(** The fuzz entry points never panic and return 1 exactly on the packets (sequences of parameters) of the grammar. *)
Theorem C109_fuzz : forall b,
  ((FuzzMessage b = Ok 1 \/ FuzzMessage b = Ok 0) /\ (FuzzMessage b = Ok 1 <-> exists v r c ty len body l,
     (len < 4294967296)%N /\ b = packet v r c ty len body /\ TLVs body l /\
     forall mt, N.lor ((16 * b2n c) mod 256) (b2n ty) = (16 * b2n (rfc_class mt) + b2n (rfc_type mt))%N -> Forall (fun x => In (fst x) (rfc_params mt)) l)) /\
  ((FuzzParams b = Ok 1 \/ FuzzParams b = Ok 0) /\ (FuzzParams b = Ok 1 <-> exists l, TLVs b l /\ l <> [])).
Proof. intros b. split; [apply fuzz_message|apply fuzz_params]. Qed.
Print Assumptions C109_fuzz.
Print Assumptions C109_too_short.
Print Assumptions C109_cut.
Print Assumptions C109_length.
Print Assumptions C109_parameter.
Print Assumptions C109_list.
Print Assumptions C109_no_other.

Definition asp_up_with (body : list byte) : list byte := packet x01 x00 x03 x01 8 body.
Example C109_ex_cut : Parse (asp_up_with [x00; x11; x00; x08; x00; x00; x00; x07; x00; x04]) = Err EParamTooShortParse.
Proof. reflexivity. Qed.
(** the bad length comes first, although a foreign parameter precedes it *)
Example C109_ex_length : Parse (asp_up_with [x00; x06; x00; x08; x00; x00; x00; x07; x00; x04; x00; x03]) = Err EParamInvalidLength.
Proof. reflexivity. Qed.
Example C109_ex_parameter : Parse (asp_up_with [x00; x06; x00; x08; x00; x00; x00; x07]) = Err EMsgInvalidParameter.
Proof. reflexivity. Qed.
Example C109_ex_whole : wrong_length [x00; x06; x00; x08; x00; x00; x00; x07; x00; x04; x00; x03] /\ cut_off [x00; x11; x00; x08; x00; x00; x00; x07; x00; x04].
Proof. split; [apply multi_length|apply multi_cut]; reflexivity. Qed.
Example C109_ex_fuzz : FuzzParams [x00; x11; x00; x08; x00; x00; x00; x07; x00] = Ok 0 /\ FuzzParams [x00; x11; x00; x05; x00; x00] = Ok 1 /\
  FuzzMessage (asp_up_with [x00; x11; x00; x05; x00; x00]) = Ok 1.
Proof. repeat split. Qed.
