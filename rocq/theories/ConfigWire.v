(** What the configuration functions of config.go put into the messages. *)
From Verif Require Import GoBase BaseProofs ParamsModel MessagesModel WireSpec ParamsSpec MsgSpec ParamsProofs AccessorProofs
  MessagesProofs MessagesProofs2 ConfigModel ConfigProofs ConnModel CfgSpec ConnSpec.
From Coq Require Import Arith Lia.
Open Scope nat_scope.
Opaque max_value_len.

(** ** Specification *)
(** the argument of the last setter of a kind *)
Fixpoint last_of {A} (f : setter -> option A) (l : list setter) : option A :=
  match l with
  | [] => None
  | s :: r => match last_of f r with Some x => Some x | None => f s end
  end.
Definition of_asp (s : setter) := match s with SAsp x => Some x | _ => None end.
Definition of_traffic (s : setter) := match s with STraffic x => Some x | _ => None end.
Definition of_network (s : setter) := match s with SNetwork x => Some x | _ => None end.
Definition of_routing (s : setter) := match s with SRouting x => Some x | _ => None end.
Definition of_corr (s : setter) := match s with SCorr x => Some x | _ => None end.

(** the octets of the values *)
Definition v32 (o : option N) : option (list byte) := option_map (be 4) o.
Definition vlist (o : option (list N)) : option (list byte) := option_map (fun l => concat (map (be 4) l)) o.

(** the packet of a message with the given parameter values, in the order of the RFC *)
Definition message (t : mtype) (vs : list (option (list byte))) : list byte :=
  let body := body_of (zip_slots (rfc_params t) vs) in
  packet x01 x00 (rfc_class t) (rfc_type t) (N.of_nat (8 + length body)) body.

(** ASP Up, ASP Active and DATA of a configuration with these values *)
Definition puts (g : config) (asp tmt na corr : option N) (rcs : option (list N)) (opc dpc : N) (si ni mp sls : byte) : Prop :=
  (forall bs, encodes (asp_up g) bs <-> bs = message ASPUP [v32 asp; None]) /\
  (forall bs, encodes (asp_active g) bs <-> bs = message ASPAC [v32 tmt; vlist rcs; None]) /\
  (forall b bs, (N.of_nat (length b) <= 65519)%N ->
     encodes (data_msg g b) bs <->
     bs = message DATA [v32 na; vlist rcs; Some (be 4 opc ++ be 4 dpc ++ [si; ni; mp; sls] ++ b); v32 corr]).

(** ** Proofs *)
Definition p32 (tag : N) (o : option N) : option param := option_map (newUint32ValParam tag) o.
Definition plist (tag : N) (o : option (list N)) : option param := option_map (newMultiUint32ValParam tag) o.

Lemma built_fields l : forall c0, let c := fold_left (fun c s => apply_setter s c) l c0 in
  cf_aspid c = match last_of of_asp l with Some x => p32 17 (Some x) | None => cf_aspid c0 end /\
  cf_tmt c = match last_of of_traffic l with Some x => p32 11 (Some x) | None => cf_tmt c0 end /\
  cf_na c = match last_of of_network l with Some x => p32 0x200 (Some x) | None => cf_na c0 end /\
  cf_rc c = match last_of of_routing l with Some x => plist 6 (Some x) | None => cf_rc c0 end /\
  cf_corr c = match last_of of_corr l with Some x => p32 19 (Some x) | None => cf_corr c0 end /\
  cf_opc c = cf_opc c0 /\ cf_dpc c = cf_dpc c0 /\ cf_si c = cf_si c0 /\ cf_ni c = cf_ni c0 /\ cf_mp c = cf_mp c0 /\ cf_sls c = cf_sls c0.
Proof.
  induction l as [|s r IH]; intros c0; cbn [fold_left last_of]; [repeat split|].
  destruct (IH (apply_setter s c0)) as (A & B & C & D & E & F & G & H & I & J & K).
  cbv zeta in *. rewrite A, B, C, D, E, F, G, H, I, J, K.
  destruct s; cbn [apply_setter of_asp of_traffic of_network of_routing of_corr]; repeat split; try reflexivity;
    match goal with |- match ?x with _ => _ end = _ => destruct x; reflexivity end.
Qed.

Lemma slots_zip tags slots : Forall2 slot_ok tags slots -> map tv (present slots) = zip_slots tags (map (option_map p_data) slots).
Proof.
  induction 1 as [|t o ts os S F IH]; [reflexivity|]. destruct o as [p|]; cbn [present flat_map app map option_map zip_slots] in *.
  - destruct S as [<- _]. unfold tv at 1. f_equal. exact IH.
  - exact IH.
Qed.
Lemma rt_message t slots m : Forall2 slot_ok (rfc_params t) slots -> roundtrips t slots m ->
  forall bs, encodes (Typed m) bs <-> bs = message t (map (option_map p_data) slots).
Proof.
  intros F (m' & E & _) bs. unfold message. rewrite <- (slots_zip _ _ F). fold (body_for (present slots)). split.
  - intros [m2 H]. rewrite E in H. now injection H as _ <-.
  - intros ->. exists (Typed m'). exact E.
Qed.

Lemma p32_data t o : option_map p_data (p32 t o) = v32 o.
Proof. destruct o; [|reflexivity]. unfold p32, v32, newUint32ValParam. cbn [option_map p_data]. now rewrite put_u32_be. Qed.
Lemma plist_data t o : option_map p_data (plist t o) = vlist o.
Proof. destruct o; [|reflexivity]. cbn [plist option_map]. rewrite multi32_data. reflexivity. Qed.
Lemma p32_ok t o : slot_ok t (p32 t o).
Proof.
  destruct o; [|exact Logic.I]. unfold p32, newUint32ValParam. cbn [option_map slot_ok p_data p_tag]. split; auto.
  rewrite put_u32_be, be_length. apply max_value_len_spec. lia.
Qed.
Lemma plist_ok t o : (forall l, o = Some l -> (N.of_nat (length l) <= 16382)%N) -> slot_ok t (plist t o).
Proof.
  intros H. destruct o as [l|]; cbn [plist option_map slot_ok]; auto. rewrite multi32_data. cbn [SetLength p_tag p_data]. split; auto.
  rewrite concat_be4_length. apply max_value_len_spec. specialize (H l eq_refl). lia.
Qed.

Lemma puts_fields g asp tmt na corr rcs opc dpc si ni mp sls :
  cf_aspid g = p32 17 asp -> cf_tmt g = p32 11 tmt -> cf_na g = p32 0x200 na -> cf_rc g = plist 6 rcs -> cf_corr g = p32 19 corr ->
  cf_opc g = opc -> cf_dpc g = dpc -> cf_si g = si -> cf_ni g = ni -> cf_mp g = mp -> cf_sls g = sls ->
  (forall l, rcs = Some l -> (N.of_nat (length l) <= 16382)%N) ->
  puts g asp tmt na corr rcs opc dpc si ni mp sls.
Proof.
  intros A T Na R Co <- <- <- <- <- <- L. split; [|split].
  - intros bs. unfold asp_up. rewrite A. assert (F : Forall2 slot_ok (rfc_params ASPUP) [p32 17 asp; None]) by (repeat constructor; apply p32_ok).
    rewrite (rt_message _ _ _ F (NewAspUp_rt _ _ F)). cbn [map]. now rewrite p32_data.
  - intros bs. unfold asp_active. rewrite T, R.
    assert (F : Forall2 slot_ok (rfc_params ASPAC) [p32 11 tmt; plist 6 rcs; None]).
    { repeat (apply Forall2_cons || apply Forall2_nil); [apply p32_ok|now apply plist_ok|exact Logic.I]. }
    rewrite (rt_message _ _ _ F (NewAspActive_rt _ _ _ F)). cbn [map]. now rewrite p32_data, plist_data.
  - intros b bs Lb. unfold data_msg. rewrite Na, R, Co.
    set (pd := NewProtocolData (cf_opc g) (cf_dpc g) (cf_si g) (cf_ni g) (cf_mp g) (cf_sls g) b).
    assert (F : Forall2 slot_ok (rfc_params DATA) [p32 0x200 na; plist 6 rcs; Some pd; p32 19 corr]).
    { repeat (apply Forall2_cons || apply Forall2_nil); [apply p32_ok|now apply plist_ok| |apply p32_ok].
      unfold pd. split; [rewrite NewProtocolData_eq; reflexivity|rewrite NewProtocolData_data; apply max_value_len_spec; lia]. }
    rewrite (rt_message _ _ _ F (NewData_rt _ _ _ _ F)). cbn [map option_map]. rewrite !p32_data, plist_data.
    unfold pd. rewrite NewProtocolData_eq. reflexivity.
Qed.

Lemma built_puts opc dpc si ni mp sls l :
  (forall r, last_of of_routing l = Some r -> (N.of_nat (length r) <= 16382)%N) ->
  puts (built opc dpc si ni mp sls l) (last_of of_asp l) (last_of of_traffic l) (last_of of_network l) (last_of of_corr l)
    (last_of of_routing l) opc dpc si ni mp sls.
Proof.
  intros H. destruct (built_fields l (NewConfig opc dpc si ni mp sls)) as (A & B & C & D & E & F & G & I & J & K & L).
  apply puts_fields; auto.
Qed.
Lemma client_puts hb opc dpc asp tmt na corr rcs si ni mp sls : (N.of_nat (length rcs) <= 16382)%N ->
  puts (NewClientConfig hb opc dpc asp tmt na corr rcs si ni mp sls) (Some asp) (Some tmt) (Some na) (Some corr) (Some rcs) opc dpc si ni mp sls.
Proof. intros H. apply puts_fields; try reflexivity. intros l E. now injection E as <-. Qed.
(** Dial and Accept use these parameters unchanged *)
Lemma prologue_puts g g' asp tmt na corr rcs opc dpc si ni mp sls : puts g asp tmt na corr rcs opc dpc si ni mp sls ->
  accept_prologue (Some g) = Ok g' -> puts g' asp tmt na corr rcs opc dpc si ni mp sls.
Proof.
  intros P H. unfold accept_prologue, check_interval in H. destruct (cf_hb g) as [h|]; [|discriminate].
  destruct (hb_interval h =? 0)%Z; injection H as <-; exact P.
Qed.
