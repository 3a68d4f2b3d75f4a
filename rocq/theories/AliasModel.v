(** Memory on the sending side: which parameters keep the slice they are made from (messages/params of /repo).

    The heap, slices and [load] are those of MemModel.v.  The program holds slices and parameters, numbered in the order it got them.
    Simplification: a slice reaches to the end of its block (its capacity is never cut by a three-index expression). *)
From Verif Require Import GoBase ParamsModel MemModel.
From Coq Require Import Arith.
Open Scope nat_scope.

(** the constructors that take octets — params.go:181-188, heartbeat-data.go:9-11, diagnostic-information.go:9-11, protocol-data.go:60-69,
    service-indicators.go:9-11 *)
Inductive maker :=
| FromParam (tag : Z) | FromHeartbeat | FromDiagnostic
| FromProtocol (opc dpc : N) (si ni mp sls : byte) | FromIndicators.

(** a *Param in memory — params.go:71-75: Data is a slice *)
Record pref := mkPref { q_tag : N; q_len : N; q_data : slc }.
(** what one sees when looking at it *)
Definition pval (h : heap) (q : pref) : param := mkParam (q_tag q) (q_len q) (load h (q_data q)).

(** Data: b — params.go:134-141, 181-188: the parameter refers to the caller's slice *)
Definition over (p : param) (s : slc) : pref := mkPref (p_tag p) (p_length p) s.
(** Data in a block of its own — params.go:122-132 (make and copy), protocol-data.go:60-69, 81-103 (make and copy) *)
Definition aside (h : heap) (p : param) : heap * pref :=
  (h ++ [p_data p], mkPref (p_tag p) (p_length p) (mkSlc (length h) 0 (length (p_data p)))).
Definition make_param (h : heap) (k : maker) (s : slc) : heap * pref :=
  let b := load h s in
  match k with
  | FromParam tag => (h, over (NewParam tag b) s)
  | FromHeartbeat => (h, over (NewHeartbeatData b) s)
  | FromDiagnostic => (h, over (NewDiagnosticInformation b) s)
  | FromProtocol opc dpc si ni mp sls => aside h (NewProtocolData opc dpc si ni mp sls b)
  | FromIndicators => aside h (NewServiceIndicators b)
  end.

(** the program's memory: the heap, its slices, its parameters *)
Record prog := mkProg { g_heap : heap; g_slices : list slc; g_params : list pref }.
Definition prog0 : prog := mkProg [] [] [].

Inductive act :=
| AMake (bs : list byte)                 (* a new slice with these octets *)
| ASub (i lo hi : nat)                   (* slice i, [lo:hi] *)
| AStore (i o : nat) (bs : list byte)    (* write through slice i from its octet o on, or append to it: up to the end of the block *)
| ANew (k : maker) (i : nat)             (* a constructor, given slice i *)
| AData (j : nat)                        (* the Data of parameter j; HeartbeatData(), DiagnosticInformation(), ServiceIndicators() — heartbeat-data.go:14-19 *)
| APayload (j : nat)                     (* ProtocolData().Data of parameter j — protocol-data.go:72-78, 106-129: b[12:] *)
| AEncode (j : nat).                     (* MarshalBinary of parameter j — params.go:191-197 *)

Definition act_step (y : prog) (a : act) : option prog :=
  let h := g_heap y in
  match a with
  | AMake bs => Some (mkProg (h ++ [bs]) (g_slices y ++ [mkSlc (length h) 0 (length bs)]) (g_params y))
  | ASub i lo hi =>
      match nth_error (g_slices y) i with
      | Some s => if (lo <=? hi) && (hi <=? s_len s)
                  then Some (mkProg h (g_slices y ++ [mkSlc (s_blk s) (s_off s + lo) (hi - lo)]) (g_params y)) else None
      | None => None
      end
  | AStore i o bs =>
      match nth_error (g_slices y) i with
      | Some s =>
          let b := nth (s_blk s) h [] in
          let at_ := s_off s + o in
          if at_ + length bs <=? length b
          then Some (mkProg (set_blk h (s_blk s) (firstn at_ b ++ bs ++ skipn (at_ + length bs) b)) (g_slices y) (g_params y)) else None
      | None => None
      end
  | ANew k i =>
      match nth_error (g_slices y) i with
      | Some s => let (h, q) := make_param h k s in Some (mkProg h (g_slices y) (g_params y ++ [q]))
      | None => None
      end
  | AData j =>
      match nth_error (g_params y) j with
      | Some q => Some (mkProg h (g_slices y ++ [q_data q]) (g_params y))
      | None => None
      end
  | APayload j =>
      match nth_error (g_params y) j with
      | Some q =>
          match ProtocolData (pval h q) with
          | Ok _ => let s := q_data q in
                    Some (mkProg h (g_slices y ++ [mkSlc (s_blk s) (s_off s + 12) (s_len s - 12)]) (g_params y))
          | _ => None
          end
      | None => None
      end
  | AEncode j =>
      match nth_error (g_params y) j with
      | Some q =>
          match MarshalBinary (pval h q) with
          | Ok bs => Some (mkProg (h ++ [bs]) (g_slices y ++ [mkSlc (length h) 0 (length bs)]) (g_params y))
          | _ => None
          end
      | None => None
      end
  end.
Fixpoint act_run (y : prog) (l : list act) : option prog :=
  match l with [] => Some y | a :: r => match act_step y a with Some y => act_run y r | None => None end end.
