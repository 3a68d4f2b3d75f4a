(** C74: the octets of Error messages and their diagnostic information. *)
From Verif Require Import GoBase ParamsModel MessagesModel WireSpec ParamsSpec MsgSpec ConfigModel ConnModel ConnSpec ConnBase ConnInv ConnTrace CfgSpec ConnUser
  MessagesProofs ParamsProofs ConfigWire ConnExamples ConnErr PropsUser PropsFsm.
From Coq Require Import Arith Lia.
Open Scope nat_scope.
Opaque max_value_len.

(** C74: what the monitor sends after an error are exactly these octets, on stream 0. *)
Theorem C74_octets : forall c l1 o e q s r b l2, reachable c -> slot_ok 6 (cf_rc (cfg c)) -> slot_ok 0x200 (cf_na (cfg c)) ->
  log c = l1 ++ ERefused o e :: q ++ ESend OMon s r b :: l2 -> forallb quiet q = true ->
  s = 0%N /\
  match e with
  | EInvalidVersion _ => b = err_packet 1 None None None None
  | EUnsupportedMessage m => exists i raw d, o = OHand i /\ nth_error (reads l1) i = Some raw /\ valid raw m /\ supported m = false /\ encodes m d /\
      b = err_packet 4 None None None (Some (firstn 40 d))
  | EUnexpected _ => b = err_packet 6 (value (cf_rc (cfg c))) (value (cf_na (cfg c))) (Some (be 4 (cf_opc (cfg c)))) None
  | _ => False
  end.
Proof. exact error_sent. Qed.
(** The diagnostic information is the beginning of the offending packet if that is in canonical form. *)
Theorem C74_diagnostic : forall c l1 i m q s r b l2 raw, reachable c -> slot_ok 6 (cf_rc (cfg c)) -> slot_ok 0x200 (cf_na (cfg c)) ->
  log c = l1 ++ ERefused (OHand i) (EUnsupportedMessage m) :: q ++ ESend OMon s r b :: l2 -> forallb quiet q = true ->
  nth_error (reads l1) i = Some raw -> canonical raw -> b = err_packet 4 None None None (Some (firstn 40 raw)).
Proof. exact diag_of_packet. Qed.
(** Otherwise it need not be: a message of an unknown class whose padding is not zero. It is also not answered with
    the code for unsupported classes (3). *)
Definition pk_odd : list byte := [x01; x00; x09; x01; x00; x00; x00; x10; x01; x01; x00; x05; x61; xff; xff; xff].
Theorem C74_diagnostic_refuted : exists c m r, run x_server (refuse 2 pk_odd) = Some c /\ crash c = None /\ length pk_odd = 16 /\
  log c = log x_server ++ [ERead pk_odd; ERefused (OHand 2) (EUnsupportedMessage m);
    ESend OMon 0 r (err_packet 4 None None None (Some (firstn 13 pk_odd ++ [x00; x00; x00]))); EUpd Active].
Proof. eexists _, _, _. split; [vm_compute; reflexivity|]. split; [reflexivity|]. split; [reflexivity|]. vm_compute. reflexivity. Qed.
(** Every error value that is answered at all, also those that never occur, is answered with the code RFC 4666 3.8.1 gives to its cause. *)
Theorem C74_codes : forall g e m, error_reply g e = Ok (Some m) ->
  exists t p, m = Typed t /\ m_kind t = KError /\ fget FErrorCode (m_f t) = Some p /\
  ErrorCode p = match e with
                   | EInvalidVersion _ => 1 | EUnsupportedClass _ => 3 | EUnsupportedMessage _ => 4 | EUnexpected _ => 6
                   | EInvalidStream _ => 9 | EAspIDRequired => 14 | _ => 0
                   end%N.
Proof. exact error_codes. Qed.
Print Assumptions C74_codes.
Print Assumptions C74_octets.
Print Assumptions C74_diagnostic.
Print Assumptions C74_diagnostic_refuted.
(** the connection, the configuration and a DUNA with 48 octets in canonical form *)
Definition pk_long : list byte := packet x01 x00 x02 x01 48 (body_of (zip_slots (rfc_params DUNA) [None; None; Some (repeat x61 36); None])).
Definition x_long : conn := Eval vm_compute in after x_server (refuse 2 pk_long).
Example C74_ex : run x_server (refuse 2 pk_long) = Some x_long /\ reachable x_long /\ slot_ok 6 (cf_rc (cfg x_long)) /\ slot_ok 0x200 (cf_na (cfg x_long)) /\
  canonical pk_long /\ length pk_long = 48 /\
  exists l1 m r b, log x_long = l1 ++ ERefused (OHand 2) (EUnsupportedMessage m) :: [] ++ ESend OMon 0 r b :: [EUpd Active] /\ nth_error (reads l1) 2 = Some pk_long.
Proof.
  assert (R : run x_server (refuse 2 pk_long) = Some x_long) by (vm_compute; reflexivity).
  split; [exact R|]. split; [eapply reachable_run; [apply x_server_reachable|exact R]|].
  destruct C31_ex_cfg as [(_ & _ & Na & Rc & _) _] || destruct C31_ex_cfg as (_ & _ & Na & Rc & _). split; [exact Rc|]. split; [exact Na|].
  split.
  - left. exists DUNA, x01, x00, x02, x01, 48%N, [None; None; Some (repeat x61 36); None]. split; [reflexivity|]. split; [reflexivity|]. split; [|reflexivity].
    repeat (apply Forall_cons || apply Forall_nil); auto. apply max_value_len_spec. rewrite repeat_length. lia.
  - split; [vm_compute; reflexivity|]. exists (firstn (length (log x_long) - 3) (log x_long)). eexists _, _, _. split; [reflexivity|vm_compute; reflexivity].
Qed.
