(** Specification of the example client, and of the octets that the example programs send. *)
From Verif Require Import GoBase ParamsModel ConfigModel WireSpec ConnModel ConnSpec DemoModel.
From Coq Require Import Arith.
Open Scope nat_scope.

(** ** The octets, written out *)
(** ASP Up with ASP Identifier 1 *)
Definition w_up : list byte := [x01; x00; x03; x01; x00; x00; x00; x10; x00; x11; x00; x08; x00; x00; x00; x01].
(** ASP Active with Traffic Mode Type 2 (loadshare) and Routing Contexts 1 and 2 *)
Definition w_active : list byte :=
  [x01; x00; x04; x01; x00; x00; x00; x1c; x00; x0b; x00; x08; x00; x00; x00; x02; x00; x06; x00; x0c; x00; x00; x00; x01; x00; x00; x00; x02].
(** ASP Up Ack without a parameter, and with the ASP Identifier *)
Definition w_up_ack : list byte := [x01; x00; x03; x04; x00; x00; x00; x08].
Definition w_up_ack_id : list byte := [x01; x00; x03; x04; x00; x00; x00; x10; x00; x11; x00; x08; x00; x00; x00; x01].
Definition w_active_ack : list byte :=
  [x01; x00; x04; x03; x00; x00; x00; x1c; x00; x0b; x00; x08; x00; x00; x00; x02; x00; x06; x00; x0c; x00; x00; x00; x01; x00; x00; x00; x02].
Definition w_down_ack : list byte := [x01; x00; x03; x05; x00; x00; x00; x08].
(** ASP Inactive Ack with the Routing Contexts *)
Definition w_inactive_ack : list byte :=
  [x01; x00; x04; x04; x00; x00; x00; x14; x00; x06; x00; x0c; x00; x00; x00; x01; x00; x00; x00; x02].
(** Error 1, Invalid Version *)
Definition w_version : list byte := [x01; x00; x00; x00; x00; x00; x00; x10; x00; x0c; x00; x08; x00; x00; x00; x01].
(** Error 6, Unexpected Message, with the Routing Contexts, the Network Appearance 0 and the point code of the sender *)
Definition w_unexpected (pc : byte) : list byte :=
  [x01; x00; x00; x00; x00; x00; x00; x2c; x00; x0c; x00; x08; x00; x00; x00; x06; x00; x06; x00; x0c; x00; x00; x00; x01; x00; x00; x00; x02;
   x02; x00; x00; x08; x00; x00; x00; x00; x00; x12; x00; x08; pc; pc; pc; pc].
(** Error 4, Unsupported Message Type, with the beginning x of the message *)
Definition w_unsupported (x : list byte) : list byte :=
  [x01; x00; x00; x00] ++ be 4 (N.of_nat (20 + length x + pad_len (length x))) ++ [x00; x0c; x00; x08; x00; x00; x00; x04] ++
  [x00; x07] ++ be 2 (N.of_nat (4 + length x)) ++ x ++ repeat x00 (pad_len (length x)).
(** DATA with Network Appearance 0, Routing Contexts 1 and 2, and the octets d from 0x11111111 to 0x22222222, service indicator 3 (SCCP),
    network indicator 0, priority 0, SLS 1 *)
Definition w_data (d : list byte) : list byte :=
  [x01; x00; x01; x01] ++ be 4 (N.of_nat (44 + length d + pad_len (length d))) ++
  [x02; x00; x00; x08; x00; x00; x00; x00; x00; x06; x00; x0c; x00; x00; x00; x01; x00; x00; x00; x02] ++
  [x02; x10] ++ be 2 (N.of_nat (16 + length d)) ++ [x11; x11; x11; x11; x22; x22; x22; x22; x03; x00; x00; x01] ++ d ++ repeat x00 (pad_len (length d)).

(** ** Everything the programs send, by the class and type octets *)
Definition errors_said (pc : byte) (b : list byte) : Prop :=
  b = w_version \/ b = w_unexpected pc \/ exists x, length x <= 40 /\ b = w_unsupported x.
(** the client: its requests, its data, the replies to requests that a peer should not send to it, errors, and heartbeats *)
Definition client_says (d : list byte) (max : N) (o : origin) (s : N) (b : list byte) : Prop :=
  match o with
  | OUser _ => b = w_data d /\ (1 <= s <= max)%N
  | OMon => s = 0%N /\ (b = w_up \/ b = w_active \/ errors_said x11 b)
  | OHand _ => s = 0%N /\ (In b [w_up_ack_id; w_down_ack; w_active_ack; w_inactive_ack] \/ snd (octets b) = 6%N)
  | OHb => s = 0%N /\ octets b = (3, 3)%N
  | OData _ => False
  end.
(** the server: replies, errors and heartbeats; it writes no data *)
Definition server_says (o : origin) (s : N) (b : list byte) : Prop :=
  match o with
  | OUser _ | OData _ => False
  | OMon => s = 0%N /\ errors_said x22 b
  | OHand _ => s = 0%N /\ (In b [w_up_ack; w_down_ack; w_active_ack; w_inactive_ack] \/ snd (octets b) = 6%N)
  | OHb => s = 0%N /\ octets b = (3, 3)%N
  end.

(** ** What the client prints *)
(** the messages written by calls of the program: stream and octets *)
Definition writes (l : list event) : list (N * list byte) :=
  flat_map (fun e => match e with ESend (OUser _) s _ b => [(s, b)] | _ => [] end) l.
(** One line for each DATA message written, except for the last one when that Write has returned and its line is not yet printed. Every Write
    but the last has written one message; the first Write with an error ends the program. *)
Definition sent_right (d : list byte) (c : conn) (p : prog) : Prop :=
  let k := length (writes (log c)) in
  match g_at p with
  | AEstablish => g_out p = [] /\ k = 0 /\ us c = []
  | ACall => g_out p = repeat (PSent d) k /\ length (us c) = k
  | AReturn i => length (us c) = S i /\
      match nth_error (us c) i with
      | Some (UDone (RWrote _)) => k = S i /\ g_out p = repeat (PSent d) i
      | Some (UDone r) => (r = RNotEstablished \/ r = RWriteError) /\ k = i /\ g_out p = repeat (PSent d) i
      | _ => k = i /\ g_out p = repeat (PSent d) i
      end
  | AClosing _ => False
  | AEnd => (g_out p = repeat (PSent d) k ++ [PFatalWrite] /\ length (us c) = S k) \/ (g_out p = [PFatalEstablish] /\ k = 0 /\ us c = [])
  end.
