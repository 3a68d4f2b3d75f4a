(** Memory on the receive path of a connection (fsm.go:207-246,
    messages/params/protocol-data.go, data.go of /repo).

    The other models treat octets as values.  Here the buffers are explicit:
    the monitor reads every packet into the same buffer, and everything decoded
    from a packet is a slice of memory.

    The heap is a list of blocks; block 0 is "buf := make([]byte, 1500)"
    (fsm.go:207).  Blocks are never freed.  One connection, whose steps are
    taken in any order that the goroutines allow. *)
From Verif Require Import GoBase ParamsModel MessagesModel ReuseModel.
From Coq Require Import Arith.
Open Scope nat_scope.

Definition heap := list (list byte).
(** a slice: block, offset, length *)
Record slc := mkSlc { s_blk : nat; s_off : nat; s_len : nat }.
(** the octets one sees through a slice *)
Definition load (h : heap) (s : slc) : list byte :=
  firstn (s_len s) (skipn (s_off s) (nth (s_blk s) h [])).

(** a *ProtocolDataPayload in memory — params/protocol-data.go:32-40: the
    numbers are copied into the struct, Data is a slice *)
Record pdref := mkRef {
  r_opc : N; r_dpc : N; r_si : byte; r_ni : byte; r_mp : byte; r_sls : byte; r_data : slc }.
(** what one sees when looking at it *)
Definition look (h : heap) (r : pdref) : pdpayload :=
  mkPD (r_opc r) (r_dpc r) (r_si r) (r_ni r) (r_mp r) (r_sls r) (load h (r_data r)).

(** ParseProtocolDataPayload on the slice [s] — params/protocol-data.go:106-129:
    p.Data = b[12:] *)
Definition pd_ref (h : heap) (s : slc) : option pdref :=
  let b := load h s in
  if length b <? 12 then None else
  match Uint32 b 0, Uint32 b 4, index b 8, index b 9, index b 10, index b 11 with
  | Ok opc, Ok dpc, Ok si, Ok ni, Ok mp, Ok sls =>
      Some (mkRef opc dpc si ni mp sls (mkSlc (s_blk s) (s_off s + 12) (s_len s - 12)))
  | _, _, _, _, _, _ => None
  end.

(** the loop of Data.UnmarshalBinary, data.go:113-126, keeping the position of
    the ProtocolData parameter; [None] is the error *)
Fixpoint pd_view (cur : option view) (ws : list view) : option (option view) :=
  match ws with
  | [] => Some cur
  | w :: r =>
      match lookup_case (w_tag w) (unmarshal_cases KData) with
      | Some FProtocolData => pd_view (Some w) r
      | Some _ => pd_view cur r
      | None => None
      end
  end.

(** the goroutine of one packet up to ProtocolData(): Parse (message.go:114-177),
    ParseHeader (header.go:64-87: h.Payload = b[8:l]), ParseMultiParams
    (params.go:282-301) and handleData's data.ProtocolData.ProtocolData()
    (transfer.go:14-39, fsm.go:237-246); whether the state lets it get there is
    left open.  [None]: the packet yields no payload. *)
Definition decode_at (h : heap) (raw : slc) : option pdref :=
  let b := load h raw in
  if length b <? 8 then None else
  match index b 2, index b 3 with
  | Ok c, Ok t =>
      match dispatch c t with
      | Some KData =>
          match ParseViews (skipn 8 b) with
          | Ok ws =>
              match pd_view None ws with
              | Some (Some w) => pd_ref h (mkSlc (s_blk raw) (s_off raw + 8 + w_off w) (w_len w))
              | _ => None
              end
          | _ => None
          end
      | _ => None
      end
  | _, _ => None
  end.

(** The memory of a connection: the heap, the packets read (by number) whose
    goroutine has not decoded them yet, and the payloads handed to the user with
    the number of their packet. *)
Record mem := mkMem { m_heap : heap; m_raw : list (option slc); m_out : list (nat * pdref) }.

(** fsm.go:207 *)
Definition mem_start : mem := mkMem [zeros 1500] [] [].

(** overwrite a block of a heap *)
Definition set_blk (h : heap) (i : nat) (b : list byte) : heap :=
  firstn i h ++ b :: skipn (S i) h.

(** What happens to the memory: the monitor reads a packet (fsm.go:229-237);
    the goroutine of packet [i] decodes it; the user, who got the payload of
    packet [i] (ReadPD, conn.go:86-103), writes into it or appends to it: the
    capacity of Data reaches to the end of its block. *)
Inductive mev := MRead (pkt : list byte) | MDecode (i : nat) | MScribble (i at_ : nat) (bs : list byte).

Definition mem_step (m : mem) (e : mev) : option mem :=
  match e with
  | MRead pkt =>
      (* SCTPRead(buf): what is waiting, or as much of it as fits *)
      let old := nth 0 (m_heap m) [] in
      let n := Nat.min (length pkt) (length old) in
      let buf := firstn n pkt ++ skipn n old in
      (* raw := make([]byte, n); copy(raw, buf) *)
      let raw := firstn n buf in
      let h := set_blk (m_heap m) 0 buf ++ [raw] in
      Some (mkMem h (m_raw m ++ [Some (mkSlc (length (m_heap m)) 0 n)]) (m_out m))
  | MDecode i =>
      match nth_error (m_raw m) i with
      | Some (Some s) =>
          let raws := firstn i (m_raw m) ++ None :: skipn (S i) (m_raw m) in
          match decode_at (m_heap m) s with
          | Some r => Some (mkMem (m_heap m) raws (m_out m ++ [(i, r)]))
          | None => Some (mkMem (m_heap m) raws (m_out m))
          end
      | _ => None
      end
  | MScribble i at_ bs =>
      match find (fun x => fst x =? i) (m_out m) with
      | Some (_, r) =>
          let k := s_blk (r_data r) in
          let b := nth k (m_heap m) [] in
          if (s_off (r_data r) <=? at_) && (at_ + length bs <=? length b)
          then Some (mkMem (set_blk (m_heap m) k (firstn at_ b ++ bs ++ skipn (at_ + length bs) b))
                           (m_raw m) (m_out m))
          else None
      | None => None
      end
  end.

Fixpoint mem_run (m : mem) (es : list mev) : option mem :=
  match es with
  | [] => Some m
  | e :: r => match mem_step m e with Some m' => mem_run m' r | None => None end
  end.
