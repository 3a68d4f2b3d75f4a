(** Properties C95 and C96: goroutines that send at the same time. *)
From Verif Require Import GoBase ParamsModel MessagesModel ConfigModel ConnModel ConnExamples ShareModel ShareSpec ShareProofs.
From Coq Require Import Arith.
Open Scope nat_scope.

(** ** C95: sharing parameters *)
(** Goroutines that build or encode messages, each its own, from parameters they share get the packets they would get one after the other,
    in every interleaving and whatever the Length fields were before. *)
Theorem C95_packets : forall m ss y i s t r, fits_memory m ss -> consistent ss -> own_message ss i -> can_reach m ss y ->
  nth_error ss i = Some s -> nth_error (snd y) i = Some t -> t_end t = Some r ->
  exists m' b, m3_MarshalBinary (meant m s) = Ok (m', b) /\ r = Ok b.
Proof. exact share_packet. Qed.
(** None of them blocks or fails half-way. *)
Theorem C95_goes_on : forall m ss y i s t, fits_memory m ss -> consistent ss -> can_reach m ss y ->
  nth_error ss i = Some s -> nth_error (snd y) i = Some t -> t_end t = None -> exists y', sys_step ss y i = Some y'.
Proof. exact share_goes_on. Qed.
(** So all connections and all calls that use one Config at the same time send the messages of the model. *)
Theorem C95_library : forall m g a l y i x k t r,
  config_at m g a -> NoDup (map fst l) -> fresh_messages m l -> can_reach m (calls a l) y -> nth_error l i = Some (x, k) ->
  nth_error (snd y) i = Some t -> t_end t = Some r -> exists m' b, m3_MarshalBinary (call_msg m g k) = Ok (m', b) /\ r = Ok b.
Proof. exact library_packets. Qed.
(** But they write the Length fields of the shared parameters without synchronisation, exactly if they share one. *)
Theorem C95_race : forall m ss, (forall s, In s ss -> s_new s = true) -> ((exists y, can_reach m ss y /\ length_race y) <-> sharing ss).
Proof. exact race_iff. Qed.
(** Two Writes with one configuration: exactly if it has a parameter that DATA messages carry. *)
Theorem C95_two_writes : forall m a x x' p p', p <> p' ->
  ((exists y, can_reach m (calls a [(x, KWrite (Some p)); (x', KWrite (Some p'))]) y /\ length_race y) <->
   ~ (ca_na a = None /\ ca_rc a = None /\ ca_corr a = None)).
Proof. exact writes_race. Qed.
Print Assumptions C95_packets.
Print Assumptions C95_goes_on.
Print Assumptions C95_library.
Print Assumptions C95_race.
Print Assumptions C95_two_writes.

(** a memory with a configuration whose parameters have no Length yet, and the parameters and messages of three calls *)
Definition no_len (p : param) : param := mkParam (p_tag p) 0 (p_data p).
Definition x_cells (a : nat) : param :=
  match a with
  | 0 => no_len (NewNetworkAppearance 7) | 1 => no_len (NewRoutingContext [1; 2]%N) | 2 => no_len (NewCorrelationID 9)
  | 3 => NewProtocolData 1 2 x03 x00 x00 x01 [x61; x62] | 4 => NewProtocolData 1 2 x03 x00 x00 x01 [x63]
  | 5 => NewErrorCode 6 | _ => NewAffectedPointCode [1]%N
  end.
Definition x_msgs (x : nat) : header :=
  let k := match x with 2 => KError | 3 => KNotify | _ => KData end in mkHeader x01 x00 (kind_class k) (kind_type k) 0 [].
Definition x_mem := mkMem x_cells x_msgs.
Definition x_caddr := mkCaddr (Some 0) (Some 1) (Some 2) None None.
Definition x_gconf : config :=
  mkConfig None None (option_map x_cells (ca_tmt x_caddr)) (option_map x_cells (ca_na x_caddr)) (option_map x_cells (ca_rc x_caddr))
    (option_map x_cells (ca_corr x_caddr)) 1 2 x03 x00 x00 x01.
Lemma x_config_at : config_at x_mem x_gconf x_caddr. Proof. repeat split. Qed.
Definition x_calls := [(0, KWrite (Some 3)); (1, KWrite (Some 4)); (2, KUnexp 5 6)].
Lemma x_fresh : fresh_messages x_mem x_calls.
Proof. intros x k [E|[E|[E|[]]]]; injection E as <- <-; reflexivity. Qed.
(** all three take turns *)
Definition x_turns : list nat := concat (repeat [0; 1; 2] 12).
Definition x_end : option sys := sys_run (calls x_caddr x_calls) (sys0 x_mem (calls x_caddr x_calls)) x_turns.
Example C95_library_ex :
  NoDup (map fst x_calls) /\
  option_map (fun y => map t_end (snd y)) x_end =
  Some [Some (let! (_, b) := m3_MarshalBinary (pd_msg x_gconf (Some (x_cells 3))) in Ok b);
        Some (let! (_, b) := m3_MarshalBinary (pd_msg x_gconf (Some (x_cells 4))) in Ok b);
        Some (let! (_, b) := m3_MarshalBinary (Typed (NewError (Some (x_cells 5)) (cf_rc x_gconf) (cf_na x_gconf) (Some (x_cells 6)) None)) in Ok b)].
Proof. split; [repeat constructor; cbn; intuition discriminate|]. vm_compute. reflexivity. Qed.
(** the state in which two Writes are about to write the same Length *)
Example C95_two_writes_ex : sharing (calls x_caddr x_calls) /\ ~ (ca_na x_caddr = None /\ ca_rc x_caddr = None /\ ca_corr x_caddr = None).
Proof.
  split; [|intros (E & _); discriminate E].
  exists 0, 1. do 2 eexists. exists 0. split; [discriminate|]. split; [reflexivity|]. split; [reflexivity|]. split; now left.
Qed.
(** in ConnModel two Writes of an established connection can be at this point at once *)
Example C95_overlap_ex :
  option_map us (run x_server [LCall (OpWriteTo [x61] 1%N); LCall (OpWriteTo [x62] 1%N); LUser 0 true; LUser 1 true]) =
  Some [USend 1%N (data_msg (cfg x_server) [x61]); USend 1%N (data_msg (cfg x_server) [x62])] /\
  forall g b, data_msg g b = pd_msg g (Some (NewProtocolData (cf_opc g) (cf_dpc g) (cf_si g) (cf_ni g) (cf_mp g) (cf_sls g) b)).
Proof. split; [vm_compute; reflexivity|reflexivity]. Qed.

(** ** C96: sharing a message *)
(** Goroutines that send the same message value at the same time may send it with parameters overwritten by zeros; header and length
    are right, and every parameter is either complete or all zeros. *)
Theorem C96_gaps : forall m ss y i s t r, fits_memory m ss -> consistent ss -> can_reach m ss y ->
  nth_error ss i = Some s -> nth_error (snd y) i = Some t -> t_end t = Some r -> exists b, r = Ok b /\ gapped m s b.
Proof. exact share_gapped. Qed.
(** two WriteSignals of one NTFY with a Status and a Routing Context, e.g. on two connections *)
Definition x_ncells (a : nat) : param := match a with 0 => NewStatus 65538 | _ => NewRoutingContext [1; 2]%N end.
Definition x_nrefs (f : field) : option nat := match f with FStatus => Some 0 | FRoutingContext => Some 1 | _ => None end.
Definition x_nmsg : msg := NewNotify (Some (x_ncells 0)) None (Some (x_ncells 1)) None.
Definition x_nmem := mkMem x_ncells (fun _ => m_hdr x_nmsg).
Definition x_nsend := mkSend KNotify x_nrefs 0 false.
Lemma x_nfits : fits_memory x_nmem [x_nsend; x_nsend] /\ consistent [x_nsend; x_nsend].
Proof.
  split.
  - intros s [<-|[<-|[]]]; (split; [discriminate|]); intros _ a [<-|[<-|[]]]; reflexivity.
  - intros [|[|i]] [|[|j]] s s' Hi Hj N _; cbn in Hi, Hj; try (destruct i; discriminate); try (destruct j; discriminate); try (now contradiction N);
      injection Hi as <-; injection Hj as <-; auto.
Qed.
(** the first has written its parameters when the second starts: the first sends a body of zeros *)
Definition x_nend : option sys := sys_run [x_nsend; x_nsend] (sys0 x_nmem [x_nsend; x_nsend]) [0; 0; 0; 0; 1; 1; 0].
Definition x_npacket : list byte := Eval vm_compute in match option_map (fun y => option_map t_end (nth_error (snd y) 0)) x_nend with Some (Some (Some (Ok b))) => b | _ => [] end.
Lemma x_nresult : option_map (fun y => option_map t_end (nth_error (snd y) 0)) x_nend = Some (Some (Some (Ok x_npacket))).
Proof. vm_compute. reflexivity. Qed.
Definition x_nmeant : list byte := Eval vm_compute in match m3_MarshalBinary (meant x_nmem x_nsend) with Ok (_, b) => b | _ => [] end.
Lemma x_nmeant_ok : exists m', m3_MarshalBinary (meant x_nmem x_nsend) = Ok (m', x_nmeant).
Proof. eexists. vm_compute. reflexivity. Qed.
Lemma x_first (o : option sys) v : option_map (fun y => option_map t_end (nth_error (snd y) 0)) o = Some (Some v) ->
  exists y t, o = Some y /\ nth_error (snd y) 0 = Some t /\ t_end t = v.
Proof.
  destruct o as [y|]; cbn [option_map]; [|discriminate]. destruct (nth_error (snd y) 0) as [t|] eqn:T; cbn [option_map]; [|discriminate].
  intros E. exists y, t. repeat split; congruence.
Qed.
Theorem C96_same_message_refuted : exists m s y t b b' m',
  fits_memory m [s; s] /\ consistent [s; s] /\ can_reach m [s; s] y /\ nth_error (snd y) 0 = Some t /\ t_end t = Some (Ok b) /\
  m3_MarshalBinary (meant m s) = Ok (m', b') /\ length b = length b' /\ firstn 8 b = firstn 8 b' /\ skipn 8 b = zeros (length b' - 8) /\ b <> b'.
Proof.
  destruct (x_first _ _ x_nresult) as (y & t & E & T & R).
  destruct x_nmeant_ok as (m' & M). exists x_nmem, x_nsend, y, t, x_npacket, x_nmeant, m'.
  split; [apply x_nfits|]. split; [apply x_nfits|]. split; [exists [0; 0; 0; 0; 1; 1; 0]; exact E|].
  split; [exact T|]. split; [exact R|]. split; [exact M|]. split; [reflexivity|]. split; [reflexivity|]. split; [reflexivity|discriminate].
Qed.
Print Assumptions C96_gaps.
Print Assumptions C96_same_message_refuted.
(** the second then sends the message as it is *)
Example C96_gaps_ex :
  option_map (fun y => option_map t_end (nth_error (snd y) 1)) (sys_run [x_nsend; x_nsend] (sys0 x_nmem [x_nsend; x_nsend]) [0; 0; 0; 0; 1; 1; 0; 1; 1; 1]) =
  Some (Some (Some (let! (_, b) := m3_MarshalBinary (Typed x_nmsg) in Ok b))) /\ meant x_nmem x_nsend = Typed x_nmsg.
Proof. split; vm_compute; reflexivity. Qed.
