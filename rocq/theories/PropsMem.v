(** C92: received payloads are the user's own memory. *)
From Verif Require Import GoBase ParamsModel MessagesModel ReuseModel MemModel MemSpec MemProofs.
Open Scope nat_scope.

(** Whatever is read later, in whatever order the goroutines run and whatever
    the user does to other payloads: a payload the user has not written into
    shows what its packet carried. *)
Theorem C92_stable : forall es m, mem_run mem_start es = Some m ->
  forall i r, In (i, r) (m_out m) -> untouched i es ->
  exists pkt, nth_error (packets es) i = Some pkt /\ carries (firstn 1500 pkt) (look (m_heap m) r).
Proof. exact payload_kept. Qed.
Print Assumptions C92_stable.

(** Decoding in place yields a payload exactly when decoding the packet as it
    was on the wire does, however many packets have been read in between. *)
Theorem C92_decoded : forall es m i m', mem_run mem_start es = Some m -> mem_step m (MDecode i) = Some m' ->
  exists pkt, nth_error (packets es) i = Some pkt /\
  ((exists r, m_out m' = m_out m ++ [(i, r)] /\ carries (firstn 1500 pkt) (look (m_heap m') r)) \/
   (m_out m' = m_out m /\ forall pd, ~ carries (firstn 1500 pkt) pd)).
Proof. exact payload_comes. Qed.
Print Assumptions C92_decoded.

(** No two payloads share memory, and none shares memory with the buffer the
    connection reads into. *)
Theorem C92_own : forall es m, mem_run mem_start es = Some m ->
  NoDup (map (fun x => s_blk (r_data (snd x))) (m_out m)) /\
  forall i r, In (i, r) (m_out m) -> s_blk (r_data r) <> 0.
Proof. exact payload_own. Qed.
Print Assumptions C92_own.

(** two DATA messages read before either is decoded, decoded in the opposite
    order; then the user overwrites and extends the second payload *)
Definition c92_pkt (x : byte) : list byte :=
  match m3_MarshalBinary (Typed (NewData None None (Some (NewProtocolData 1 2 x03 x02 x00 x05 [x; x; x])) None)) with
  | Ok (_, b) => b
  | _ => []
  end.
Definition c92_es : list mev :=
  [MRead (c92_pkt x61); MRead (c92_pkt x62); MDecode 1; MDecode 0; MScribble 1 24 [x7a; x7a; x7a; x7a]].
Definition c92_end : option mem := Eval vm_compute in mem_run mem_start c92_es.
Lemma c92_run : mem_run mem_start c92_es = c92_end.
Proof. vm_compute. reflexivity. Qed.
Example C92_example :
  match c92_end with
  | Some m => map fst (m_out m) = [1; 0] /\
      map (fun x => pd_data (look (m_heap m) (snd x))) (m_out m) = [[x7a; x7a; x7a]; [x61; x61; x61]] /\
      length (nth 0 (m_heap m) []) = 1500
  | None => False
  end.
Proof. vm_compute. repeat split; reflexivity. Qed.
(** the packet read last is what the shared buffer holds *)
Example C92_example_shared_buffer :
  match c92_end with Some m => firstn 28 (nth 0 (m_heap m) []) = c92_pkt x62 | None => False end.
Proof. vm_compute. reflexivity. Qed.
Example C92_example_stable : exists m r, mem_run mem_start c92_es = Some m /\ In (0, r) (m_out m) /\
  untouched 0 c92_es /\ carries (firstn 1500 (c92_pkt x61)) (look (m_heap m) r).
Proof.
  destruct c92_end as [m|] eqn:E; [|discriminate].
  assert (R : mem_run mem_start c92_es = Some m) by (rewrite c92_run; exact E).
  assert (I : exists r, In (0, r) (m_out m)).
  { injection E as <-. eexists. right. left. reflexivity. }
  destruct I as (r & I). exists m, r. split; [exact R|]. split; [exact I|].
  assert (U : untouched 0 c92_es).
  { intros o bs J. repeat (destruct J as [J|J]; [discriminate|]). exact J. }
  split; [exact U|]. destruct (C92_stable _ _ R 0 r I U) as (pkt & P & Q). injection P as <-. exact Q.
Qed.
