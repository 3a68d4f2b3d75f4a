(** Property C124: the memory of parameters that a program makes. *)
From Verif Require Import GoBase ParamsModel WireSpec MemModel AliasModel AliasSpec AliasProofs.
From Coq Require Import Arith Lia.
Open Scope nat_scope.

(** NewParam, NewHeartbeatData and NewDiagnosticInformation keep the slice: whatever the program does afterwards, the parameter is encoded with what
    the slice holds at that time. *)
Theorem C124_kept : forall l0 y k i y1 l y2 b, act_run prog0 l0 = Some y -> keeps k = true ->
  act_step y (ANew k i) = Some y1 -> act_run y1 l = Some y2 -> sees y2 i b ->
  encodes_to y2 (length (g_params y)) (octets_of k b).
Proof. intros l0 y k i y1 l y2 b R. intros. eapply kept_slice; eauto. exact (valid_run _ _ _ valid0 R). Qed.
Print Assumptions C124_kept.

(** NewProtocolData and NewServiceIndicators copy it: the parameter is encoded with what the slice held when it was made, unless the program takes a
    slice of the parameter's value. *)
Theorem C124_copied : forall l0 y k i y1 l y2 b, act_run prog0 l0 = Some y -> keeps k = false -> sees y i b ->
  act_step y (ANew k i) = Some y1 -> act_run y1 l = Some y2 -> (forall a, In a l -> ~ opens a (length (g_params y))) ->
  encodes_to y2 (length (g_params y)) (octets_of k b).
Proof. intros l0 y k i y1 l y2 b R. intros. eapply copied_slice; eauto. exact (valid_run _ _ _ valid0 R). Qed.
Print Assumptions C124_copied.

(** The octets returned by MarshalBinary change only when the program writes to them or hands them on. *)
Theorem C124_result : forall l0 y j y1 l y2 b, act_run prog0 l0 = Some y -> act_step y (AEncode j) = Some y1 -> sees y1 (length (g_slices y)) b ->
  act_run y1 l = Some y2 -> (forall a, In a l -> ~ uses_slice a (length (g_slices y))) -> sees y2 (length (g_slices y)) b.
Proof. intros l0 y j y1 l y2 b R. intros. eapply result_own; eauto. exact (valid_run _ _ _ valid0 R). Qed.
Print Assumptions C124_result.

(** Constructors and MarshalBinary change no octet that the program had before, and a program that writes only to what it got later (results of
    MarshalBinary, new slices, the values of new parameters) leaves all older slices and the encodings of all older parameters as they are. *)
Theorem C124_older : forall l0 y l y', act_run prog0 l0 = Some y ->
  (forall a, In a l -> (forall i, uses_slice a i -> length (g_slices y) <= i) /\ (forall j, opens a j -> length (g_params y) <= j)) ->
  act_run y l = Some y' -> (forall i b, sees y i b -> sees y' i b) /\ (forall j b, encodes_to y j b -> encodes_to y' j b).
Proof. intros l0 y l y' R N. apply older_same; [exact (valid_run _ _ _ valid0 R)|exact N]. Qed.
Print Assumptions C124_older.

(** Slicing gives exactly the octets asked for, or a panic; writing through a slice changes exactly the octets written to. *)
Theorem C124_slices : forall l0 y i b, act_run prog0 l0 = Some y -> sees y i b ->
  (forall lo hi, lo <= hi <= length b -> exists y', act_step y (ASub i lo hi) = Some y' /\ sees y' (length (g_slices y)) (firstn (hi - lo) (skipn lo b))) /\
  (forall lo hi, ~ (lo <= hi <= length b) -> act_step y (ASub i lo hi) = None) /\
  (forall o bs, o + length bs <= length b -> exists y', act_step y (AStore i o bs) = Some y' /\ sees y' i (firstn o b ++ bs ++ skipn (o + length bs) b)).
Proof.
  intros l0 y i b R Se. pose proof (sound_run _ _ _ sound0 R) as So. split; [|split].
  - intros lo hi. apply (sub_gives y i b lo hi So Se).
  - intros lo hi. apply (sub_gives y i b lo hi So Se).
  - intros o bs. now apply store_gives.
Qed.
Print Assumptions C124_slices.

(** A slice taken out of a parameter is the parameter's value, now and ever after: what the program writes to it is encoded, and nothing else. For
    ProtocolData().Data it is the value from octet 12 on. *)
Theorem C124_opened : forall l0 y j y1 l y2 v, act_run prog0 l0 = Some y -> act_run y1 l = Some y2 -> sees y2 (length (g_slices y)) v ->
  (act_step y (AData j) = Some y1 -> exists tag, (forall b, encodes_to y2 j b <-> b = tlv tag v) /\
     forall v0, sees y1 (length (g_slices y)) v0 -> encodes_to y j (tlv tag v0)) /\
  (act_step y (APayload j) = Some y1 -> exists hd, length hd = 12 /\ forall b, encodes_to y2 j b <-> b = tlv 0x210 (hd ++ v)).
Proof.
  intros l0 y j y1 l y2 v R R2 Se. pose proof (sound_run _ _ _ sound0 R) as So. split; intros S1; [eapply data_gives|eapply payload_gives]; eauto.
Qed.
Print Assumptions C124_opened.

(** From a parameter made by NewProtocolData the payload can always be taken; before anything was taken out of it, it is what the slice held. *)
Theorem C124_payload : forall l0 y opc dpc si ni mp sls i y1 l y2, act_run prog0 l0 = Some y ->
  act_step y (ANew (FromProtocol opc dpc si ni mp sls) i) = Some y1 -> act_run y1 l = Some y2 ->
  exists y3, act_step y2 (APayload (length (g_params y))) = Some y3 /\
    forall b, sees y i b -> (forall a, In a l -> ~ opens a (length (g_params y))) -> sees y3 (length (g_slices y2)) b.
Proof. intros l0 y opc dpc si ni mp sls i y1 l y2 R. apply payload_there. exact (sound_run _ _ _ sound0 R). Qed.
Print Assumptions C124_payload.

(** It is NOT the case that a parameter, once made, is encoded the same way as long as it is not touched; nor that the payload taken out of a
    NewProtocolData parameter is the program's own. *)
Theorem C124_unchanged_refuted : exists l y1 y2 b1 b2 i o x, act_run prog0 l = Some y1 /\ encodes_to y1 0 b1 /\
  act_step y1 (AStore i o x) = Some y2 /\ encodes_to y2 0 b2 /\ b1 <> b2 /\ l = [AMake [x01; x02; x03; x04]; ANew FromHeartbeat 0].
Proof.
  exists [AMake [x01; x02; x03; x04]; ANew FromHeartbeat 0]. do 2 eexists. exists (tlv 9 [x01; x02; x03; x04]), (tlv 9 [x01; x09; x03; x04]), 0, 1, [x09]. split; [vm_compute; reflexivity|].
  split; [eexists; split; [vm_compute; reflexivity|eexists; split; vm_compute; reflexivity]|]. split; [vm_compute; reflexivity|].
  split; [eexists; split; [vm_compute; reflexivity|eexists; split; vm_compute; reflexivity]|]. split; [discriminate|reflexivity].
Qed.
Print Assumptions C124_unchanged_refuted.
Theorem C124_payload_refuted : exists l y1 y2 b1 b2, act_run prog0 l = Some y1 /\ encodes_to y1 0 b1 /\
  act_step y1 (AStore 1 0 [x09]) = Some y2 /\ encodes_to y2 0 b2 /\ b1 <> b2 /\ l = [AMake [x01; x02]; ANew (FromProtocol 1 2 x03 x00 x00 x01) 0; APayload 0].
Proof.
  exists [AMake [x01; x02]; ANew (FromProtocol 1 2 x03 x00 x00 x01) 0; APayload 0]. do 2 eexists.
  exists (tlv 0x210 [x00; x00; x00; x01; x00; x00; x00; x02; x03; x00; x00; x01; x01; x02]), (tlv 0x210 [x00; x00; x00; x01; x00; x00; x00; x02; x03; x00; x00; x01; x09; x02]).
  split; [|split; [|split; [|split; [|split; [|reflexivity]]]]].
  - vm_compute. reflexivity.
  - eexists. split; [vm_compute; reflexivity|eexists; split; vm_compute; reflexivity].
  - vm_compute. reflexivity.
  - eexists. split; [vm_compute; reflexivity|eexists; split; vm_compute; reflexivity].
  - discriminate.
Qed.
Print Assumptions C124_payload_refuted.

(** a program: a slice, a parameter that keeps it and one that copies it, an encoding, then writes to the slice and to the encoding *)
Example C124_ex : exists y, act_run prog0 [AMake [x01; x02; x03; x04]; ANew FromDiagnostic 0; ANew (FromProtocol 1 2 x03 x00 x00 x01) 0; AEncode 0;
    AStore 0 0 [x63; x64]; AStore 1 4 [x00; x00; x00; x00]; ASub 0 1 3] = Some y /\
  sees y 0 [x63; x64; x03; x04] /\ sees y 2 [x64; x03] /\ sees y 1 [x00; x07; x00; x08; x00; x00; x00; x00] /\
  encodes_to y 0 (tlv 7 [x63; x64; x03; x04]) /\
  encodes_to y 1 (tlv 0x210 [x00; x00; x00; x01; x00; x00; x00; x02; x03; x00; x00; x01; x01; x02; x03; x04]).
Proof.
  eexists. split; [vm_compute; reflexivity|]. split; [eexists; split; vm_compute; reflexivity|]. split; [eexists; split; vm_compute; reflexivity|].
  split; [eexists; split; vm_compute; reflexivity|].
  split; (eexists; split; [vm_compute; reflexivity|eexists; split; vm_compute; reflexivity]).
Qed.

(** ... and one that writes through the payload of a parameter *)
Example C124_ex2 : exists y, act_run prog0 [AMake [x01; x02; x03]; ANew (FromProtocol 1 2 x03 x00 x00 x01) 0; APayload 0; AStore 1 1 [x0a]; AData 0; ASub 0 1 1] = Some y /\
  sees y 0 [x01; x02; x03] /\ sees y 1 [x01; x0a; x03] /\ sees y 3 [] /\
  encodes_to y 0 (tlv 0x210 [x00; x00; x00; x01; x00; x00; x00; x02; x03; x00; x00; x01; x01; x0a; x03]).
Proof.
  eexists. split; [vm_compute; reflexivity|]. split; [eexists; split; vm_compute; reflexivity|]. split; [eexists; split; vm_compute; reflexivity|].
  split; [eexists; split; vm_compute; reflexivity|]. eexists. split; [vm_compute; reflexivity|eexists; split; vm_compute; reflexivity].
Qed.
