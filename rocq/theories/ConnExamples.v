(** Concrete configurations, packets and schedules for the Examples of the Props files. *)
From Verif Require Import GoBase ParamsModel MessagesModel ConfigModel ConnModel.
From Coq Require Import Arith.
Open Scope nat_scope.

Definition x_cfg : config :=
  NewClientConfig (Some (mkHbInfo false 0 0 [])) 0x11111111 0x22222222 1 2 0 0 [1; 2]%N x03 x00 x00 x01.
Definition x_cfg_hb : config :=
  NewClientConfig (Some (mkHbInfo true 5 3 [])) 0x11111111 0x22222222 1 2 0 0 [1; 2]%N x03 x00 x00 x01.

Definition bytes_of (m : m3ua) : list byte := match m3_MarshalBinary m with Ok (_, b) => b | _ => [] end.
Definition pk_up := bytes_of (Typed (NewAspUp (Some (NewAspIdentifier 1)) None)).
Definition pk_up_ack := bytes_of (Typed (NewAspUpAck (Some (NewAspIdentifier 1)) None)).
Definition pk_down := bytes_of (Typed (NewAspDown None)).
Definition pk_down_ack := bytes_of (Typed (NewAspDownAck None)).
Definition pk_active := bytes_of (Typed (NewAspActive None None None)).
Definition pk_active_ack := bytes_of (Typed (NewAspActiveAck None None None)).
Definition pk_inactive := bytes_of (Typed (NewAspInactive None None)).
Definition pk_beat := bytes_of (Typed (NewHeartbeat (Some (NewHeartbeatData [x61; x62; x63])))).
Definition pk_beat_ack (d : list byte) := bytes_of (Typed (NewHeartbeatAck (Some (NewHeartbeatData d)))).
Definition pk_beat_ack_empty := bytes_of (Typed (NewHeartbeatAck None)).
Definition pk_data (d : list byte) := bytes_of (data_msg x_cfg d).
Definition pk_data_empty := bytes_of (pd_msg x_cfg None).
Definition pk_notify := bytes_of (Typed (NewNotify (Some (NewStatus 65538)) None None None)).
Definition pk_duna := bytes_of (Typed (NewDestinationUnavailable None None None None)).
(** an ASP Up of version 2, and a packet too short to decode *)
Definition pk_v2 := upd pk_up 0 x02.
Definition pk_junk := [x01; x00; x03].

(** the packet goroutine i runs for k steps *)
Definition hand (i k : nat) : list label := repeat (LHand i true) k.
(** receive a packet, accept it without / with a reply, refuse it *)
Definition take (i : nat) (raw : list byte) : list label := [LArrive raw; LMon true] ++ hand i 4 ++ [LMon true].
Definition reply (i : nat) (raw : list byte) : list label := [LArrive raw; LMon true] ++ hand i 5 ++ [LMon true].
(** ... a message that names no state: BEAT *)
Definition echo (i : nat) (raw : list byte) : list label := [LArrive raw; LMon true] ++ hand i 6 ++ [LMon true].
Definition refuse (i : nat) (raw : list byte) : list label :=
  [LArrive raw; LMon true] ++ hand i 4 ++ [LMon true] ++ hand i 1 ++ [LMon true].
(** start up *)
Definition boot_server : list label := [LInit; LMon true].
Definition boot_client : list label := [LInit; LMon true; LMon true].
(** a complete handshake *)
Definition server_up : list label := boot_server ++ reply 0 pk_up ++ reply 1 pk_active ++ [LMon true].
Definition client_up : list label := boot_client ++ take 0 pk_up_ack ++ [LMon true] ++ take 1 pk_active_ack ++ [LMon true].

Definition after (c : conn) (ls : list label) : conn := match run c ls with Some c' => c' | None => c end.
Definition x_server : conn := Eval vm_compute in after (start Server x_cfg 3) server_up.
Definition x_client : conn := Eval vm_compute in after (start Client x_cfg 3) client_up.
