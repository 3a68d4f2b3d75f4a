(** Vocabulary for the streams of all packets an endpoint sends (C122). *)
From Verif Require Import GoBase ParamsModel MessagesModel ConfigModel ConnModel ConnSpec.
Open Scope nat_scope.

(** [carried g max op u xs]: with configuration g and largest stream max, the call op, which has got as far as u, has handed the packets xs (stream, message,
    octets) to the association: a write that has returned without error one DATA message on a stream it may use, a WriteSignal that has returned without error
    its message on stream 0, any other call none *)
Inductive carried (g : config) (max : N) : uop -> upc -> list (N * m3ua * list byte) -> Prop :=
| CR_write op s m b : stream_for max op s -> carries g op m -> encodes m b -> carried g max op (UDone (RWrote (2 * length b))) [(s, m, b)]
| CR_signal m b : encodes m b -> carried g max (OpWriteSignal m) (UDone (RWrote (2 * length b))) [(0%N, m, b)]
| CR_nothing op u : (forall n, u <> UDone (RWrote n)) -> carried g max op u [].
(** the DATA message *)
Definition data_octets : N * N := (1, 1)%N.
