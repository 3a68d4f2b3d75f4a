# Design: a Rocq model of go-m3ua

Source: `/repo` (wmnsk/go-m3ua). Nothing in `/repo` is built or run; the model is a hand translation, function by function,
and every definition in a model file cites the file and lines it translates.

## Layers and files (`rocq/theories`)

| layer | model | specification | lemmas | property theorems |
|---|---|---|---|---|
| Go run time | `GoBase.v` (bytes, `Ok/Err/Panic`, bounds-checked slices, `encoding/binary`) | | `BaseProofs.v` | |
| parameters | `ParamsModel.v` (`messages/params/*.go`), `CodePoints.v` (exported constants) | `WireSpec.v`, `ParamsSpec.v` | `ParamsProofs.v`, `AccessorProofs.v` | `PropsParams.v` C01-C12, `PropsCodes.v` C63 |
| messages | `MessagesModel.v` (header, 19 typed messages, generic, `Parse`), `ReuseModel.v` (values with nil header, decoding into used values, aliasing) | `WireSpec.v`, `MsgSpec.v`, `ReuseSpec.v` | `MessagesProofs.v`, `MessagesProofs2.v`, `TruncProofs.v`, `ReuseProofs.v` | `PropsMessages.v` C13-C23, `PropsPair.v` C60, `PropsReuse.v` C64-C67 |
| | `ReadModel.v` (accessors on fields that may be nil) | `NormSpec.v`, `ReadSpec.v` | `NormProofs.v`, `ReadProofs.v` | `PropsNorm.v` C104 C105 |
| | `NilModel.v` (parameter lists with nil elements), `FuzzModel.v` (fuzz entry points) | `RejectSpec.v` (why a packet is refused) | `NilProofs.v`, `RejectProofs.v` | `PropsNil.v` C108, `PropsReject.v` C109 |
| texts, deprecated names | `TextModel.v` (`String`, `MessageClassName`, `MessageTypeName`, `Serialize`..., `fmt` verbs used), `ErrTextModel.v` (`State.String`, `Error`), `ErrIsModel.v` (which errors are wrapped) | `TextSpec.v` | `TextProofs.v` | `PropsText.v` C76-C78, `PropsErrText.v` C91, `PropsErrIs.v` C123 |
| memory of the receive path | `MemModel.v` (blocks and slices: the monitor's buffer, the copy per packet, decoding in place, writes of the user) | `MemSpec.v` | `MemProofs.v` | `PropsMem.v` C92 |
| memory of the sending side | `AliasModel.v` (slices a program gives to the constructors, values taken out of parameters, results of `MarshalBinary`) | `AliasSpec.v` | `AliasProofs.v` | `PropsAlias.v` C124 |
| joined packets | (the codec) | `RejectSpec.v` | `JoinProofs.v` | `PropsJoin.v` C125 |
| changed octets | (the codec) | `ChangeSpec.v` | `ChangeProofs.v` | `PropsChange.v` C126 |
| packets with the same effect | (the endpoint of C98) | `EchoSpec.v` | `EchoProofs.v` | `PropsEcho.v` C127 |
| messages in a row | (the codec) | `RowSpec.v` | `RowProofs.v` | `PropsRow.v` C128 |
| deadlines | `DeadModel.v` | `DeadSpec.v` | `DeadProofs.v` | `PropsDead.v` C129 |
| memory of concurrent senders | `ShareModel.v` (parameters and headers by address, one access per step: constructors, `MarshalBinary`, the library's calls) | `ShareSpec.v` | `ShareProofs.v` | `PropsShare.v` C95 C96 |
| establishing | `EstModel.v` (Dial, Listen, Accept around the run of `ConnModel.v`) | `EstSpec.v` | `EstProofs.v` | `PropsEst.v` C97 |
| point codes | `PcModel.v` (`pc/pc.go`, `strings.Split/Join`, `strconv.Atoi/Itoa`) | `PcSpec.v` | `PcProofs.v` | `PropsPc.v` C24-C27 |
| configuration, logger | `ConfigModel.v`, `LoggerModel.v` | `CfgSpec.v`, head of `ConfigWire.v` and of `LoggerOrder.v` | `ConfigProofs.v`, `ConfigWire.v`, `LoggerProofs.v`, `LoggerOrder.v` | `PropsConfig.v` C51, C52, C55, C56, `PropsConfig2.v` C68, C69 |
| process | `ProcModel.v` (any number of connections with one `*Config`: `server.go`, `client.go`, `asptm.go`) | `ProcSpec.v` | `ProcProofs.v` | `PropsProc.v` C87 C88 |
| connection | `ConnModel.v` (`conn.go fsm.go aspsm.go asptm.go management.go transfer.go errors.go client.go server.go`) as a labelled transition system | `ConnSpec.v` (traces), `CfgSpec.v`, `DialogSpec.v` (two endpoints on the level of message kinds), `TalkSpec.v` (two endpoints and their users' calls), `PeerSpec.v` (an endpoint as a machine, the procedures of a gateway), `LifeSpec.v` (two endpoints from Dial and Accept on, heartbeats and calls) | `ConnBase.v` (the system as a relation), `ConnInv.v` (main invariant), `ConnTrace.v`, `ConnUser.v`, `ConnCodec.v`, `ConnMacro.v`, `ConnMore.v`, `ConnStable.v`, `ConnData.v`, `ConnLive.v`, `ConnCount.v`, `ConnPair.v`, `ConnBeat.v`, `ConnPieces.v`, `ConnPace.v`, `ConnEnd.v`, `ConnErr.v`, `ConnE2E.v`, `ConnDialog.v` and `ConnDuo.v` (refinement of `DialogSpec.v`), `ConnTalk.v`, `ConnPeer.v` (refinement of `PeerSpec.v`), `ConnLife.v`, `ConnLife2.v` and `ConnLife3.v` (C85) and the later `Conn*.v`; `ConnExamples.v` holds concrete schedules | `PropsUser.v` C28-C31, `PropsFsm.v` C32-C36 C39 C42 C43, `PropsClose.v` C38 C41 C44-C48 C50 C53, `PropsLive.v` C37 C40 C54 C57 C58, `PropsPair.v` C49 C59 C61 C62, `PropsBeat.v` C70-C73, `PropsErr.v` C74, `PropsE2E.v` C75, `PropsDuo.v` C79 C80, `PropsTalk.v` C81, `PropsPeer.v` C82-C84, `PropsLife.v` C85 C86, `PropsWork.v` C89 C90 (`WorkSpec.v`, `ConnWork.v`), `PropsRace.v` C93 (`RaceSpec.v`, `ConnRace.v`, `ConnRace2.v`), `PropsServe.v` C94 (`ServeSpec.v`, `ConnServe.v`), `PropsOrder.v` C115 (`OrderSpec.v`, `OrderProofs.v`), `PropsFlow.v` C116 (`FlowSpec.v`, `FlowProofs.v`), `PropsLoose.v` C117 (`LooseModel.v`: check and comparison of handleHeartbeatAck as two steps, `LooseSpec.v`, `LooseProofs.v`, `LooseSim.v`), `PropsHang.v` C118 (`HangSpec.v`, `HangProofs.v`), `PropsTimely.v` C119 (`TimelySpec.v`, `TimelyProofs.v`), `PropsGain.v` C120 C121 (`GainSpec.v`, `GainProofs.v`, `GainPair.v`), `PropsStream.v` C122 (`StreamSpec.v`, `StreamProofs.v`), `PropsExact.v` C98 (`ExactSpec.v`, `ConnExact.v`), `PropsFull.v` C99 (`FullSpec.v`, `ConnFull.v`), `PropsTime.v` C100 (`TimeModel.v`: the same system with a clock, `TimeSpec.v`, `TimeProofs.v`, `TimeTight.v`), `PropsLast.v` C106 (`LastSpec.v`, `ConnLast.v`), `PropsSize.v` C110 (`SizeSpec.v`, `ConnSize.v`), `PropsRole.v` C111 C112 (`ConnRole.v`) |
| example programs | `DemoModel.v` (`examples/client`, `examples/server` on top of `ConnModel.v`) | `DemoSpec.v`, `CliSpec.v` (the octets as literals) | `DemoProofs.v`, `DemoPair.v`, `CliProofs.v` | `PropsDemo.v` C101 C102, `PropsCli.v` C113 C114 |
| | `MainModel.v` (the example server with all its associations, on top of `ProcModel.v` and `DemoModel.v`) | `MainSpec.v` | `MainProofs.v` | `PropsMain.v` C107 |
| | `ConvModel.v` (`examples/pc-conv` on top of `PcModel.v`) | `PcSpec.v` | `ConvProofs.v` | `PropsConv.v` C103 |

Property theorems are proved by `exact lemma`, followed by `Print Assumptions` and by Examples that meet their hypotheses.
`properties.jsonl` states the properties in prose; `MANIFEST.json` maps them to theorem names. `_refuted` theorems are witnesses for the
"It is NOT the case that ..." part of a property. `seeded/LOG.jsonl` records the wrong programs the theorems were tested against.

## Modelling decisions

* Byte = `Coq.Init.Byte.byte`, so "every byte string" needs no side condition. 16/32-bit fields are `N`; wrap-around is written out
  (`mod 2^16`, `mod 2^32`), truncating conversions are explicit.
* Errors are values, nil pointers are `None`, a run-time panic is the third outcome `Panic` (out-of-range slice/index, nil dereference,
  send on/close of a closed channel, `rand.Intn(0)`).
* A slice is a list. Where Go's rule "slice expressions may go up to the capacity" matters (`Param.MarshalTo`) the buffer is modelled
  by its capacity region. nil and empty slices are identified. Sharing of memory between the input buffer and decoded parameters is
  modelled by positions (`view`, C67), that between a program's slices and its parameters in `AliasModel.v` (C124); everywhere else
  decoded values are copies, which is what a caller sees who leaves the
  buffer alone. The connection copies every packet into a fresh slice (fsm.go:235-236), so this is the case there (C92).
* A function that mutates through a pointer returns the new value. Sharing of `*Param` between `Config` and messages is harmless for
  the values computed, because the only mutation (`SetLength`) is idempotent; sharing of `HeartbeatInfo.Data` is modelled explicitly.
* The 19 typed messages have identical code up to four per-type tables (fields written, counted, length-set, decoded), which are
  transcribed separately and in the order of the code, so that a mismatch between them would show.
* Goroutines: `ConnModel.v` is a labelled transition system `step : conn -> label -> option conn`. A label names the goroutine that
  moves and resolves every choice not made by the program (select case, write outcome, timer firing, random bytes, packet arrival, user
  calls). Unbuffered channels are rendezvous between two goroutines, closed channels and the RW lock are explicit. Theorems
  quantify over all label sequences. `None` = the goroutine is blocked. A ghost field `log` records the observable events with the
  goroutine they originate from; it influences no step.
* SCTP is the environment: packets arrive in arbitrary order and content, `SCTPRead` returns at most 1500 octets of the next one and
  leaves the rest of it for the next read, writes succeed or fail arbitrarily while open and fail after `Close`.

## How the properties are proved

C01-C12, C63: algebraic laws over all values; C06 as equivalence with an inductive grammar (`TLVs` in `WireSpec.v`).
C13-C23, C60, C64-C67: round trip and wire format generically over the kind/field tables, then one theorem per message constructor;
dispatch by exhaustive evaluation over the 65536 class/type pairs.
C76-C78: the texts are related to values by a relation in `TextSpec.v`, which is shown to be injective.
C24-C27: generic field-list lemma (mixed radix) instantiated per variant.
C28-C48, C50, C53, C54, C57-C59, C61, C62 and the later connection properties: `ConnInv.v` proves that the log of every reachable
connection is a trace of `ConnSpec.v` (an independent description: what the connection may do on each packet, in each state); most safety
properties are consequences of that description. "Never again" claims are invariants over all continuations (`ConnStable.v`), "can
happen" claims are explicit schedules, negative properties additionally have a concrete label sequence evaluated by `vm_compute`.
C49: composition of two transition systems through two FIFO queues with an invariant of the pair.
C75: two executions related only by what the association carries, a permutation of the packets sent with losses.
C79, C80: the pair refines a dialogue of message kinds (`DialogSpec.v`), each packet taking at most 13 steps; the finite graph of that dialogue is explored
by evaluation (all ends, or a closed set without an end), the messages, configurations and schedules stay arbitrary.
C51, C55, C56, C68: `ConfigModel.v`. C52, C69: `LoggerModel.v` (mutex as explicit state, any number of goroutines).
C81: an invariant gives each endpoint a weight (what its goroutines, queues and calls still have to do); every step of the pair lowers the sum,
every call adds at most 13, and weight that is left means that some step is possible. What has arrived when none is follows from C75.
C82-C84: the refinement used for C79 holds for a single endpoint and any peer; C83 adds an invariant of the queues between client and gateway and
a value for each message in flight that pays for everything the message may cause.
C85: an endpoint is either at one of 17 places of the handshake (`ConnPair.v`) or established with a weight as in C81; each channel holds the rest of the
handshake followed by what the established sender sent, and each BEAT without an accepted ack is in exactly one place (on its way, being answered, its
ack on its way, or being checked), so that no ack arrives that is not awaited and none is missing at rest. C86: one execution with reordering.
C87, C88: each connection of the process of `ProcModel.v` is shown to be a run of `ConnModel.v` in which the stores of the others appear as the label
`LOtherBeat`, so every theorem on reachable connections holds for each of them; with heartbeats disabled nothing is ever stored (main invariant).
C92: invariant "packet n lives in block n+1, which nobody but the user writes"; decoding by positions is proved equal to decoding values.
C93: every function of the model but `handle` is shown to commute with changing the data.
C94: invariant that what was sent, followed by what the goroutines still have to send, is what the packets read so far call for; the end by the bound of C89.
C95, C96: each goroutine is in one of five phases with a closed form of its buffers; the accesses of the others keep it there (Length fields only ever become
right, and a shared payload stays a sequence of complete and zeroed parameters).
C97: case analysis of the calls around the run; the state of the run by the invariant of reachable connections.
C98: refinement like C82, on octets: the condition of the endpoint fixes what its goroutines still have to send and what becomes of it then, and every step is
silent, sends the next packet, or takes the next piece.
C100: an invariant relating the times of the BEATs to the place where the heartbeat goroutine is; tightness by induction with one round of ack and BEAT.

C99: from C94, as nothing is delivered without a call; Close by an invariant of all continuations.
C106: an invariant of an ended connection that counts the waiting calls against the queue.
C89, C90: two weights of the state, one for the steps and one for the messages still to come; every step is shown to keep the balance. That the bounds of C90 are attained: induction on the number of packets (`WorkTight.v`).

C110: the trace invariant, with the sizes of C104 for echoed messages, and C90 for their number.

C111, C112: the refinement of C79 for endpoints of any role, with a record of what each has said; the finite graph is explored level by level.

C113, C114: an invariant of the example client and its connection (`CliProofs.v`); the octets of every packet by the trace invariant, the encodings computed and compared with the literals of `CliSpec.v`.

C115: any order by processing the packets first and the data goroutines afterwards, in the order of the permutation; the order of arrival by an
invariant (what was delivered, what is queued and the at most one payload under way are a part of what arrived, in order).
C116: with one Write at a time the accepted payloads grow at the end only, so the permutation of C75 is an equality; composed with C62 and C115.
C117: the atomic execution compares at the moment of the check, after another connection's beat whose data are chosen by what the comparison is going to say (the outcome is read off the rest of the execution).
C118: case analysis on the call and the holder of the lock; that the lock is never held for sending while Active is an invariant.
C119: the weight of C85 bounds the time until rest; at rest it is at most 13 for each open call, so every time of work is bounded anew.
C120: an invariant pairs each finished call with the payload it took, and the log's deliveries with these pairs; at most one reader at a time gives the order. C121: conservation of payloads at rest
(C85) together with C120; `C121_ex` is the exchange of conn_test.go with its configurations.
C122: an invariant that gives for each call, from what it has become, the packets it has sent; the library's own packets by the trace invariant.
C123: the chain of each error value (`ErrIsModel.v`) against the outcomes of C109.
C124: invariant over all programs of slices and parameters: a block is reached only through the slices and parameters that refer to it. Not modelled: slices whose capacity is cut by a three-index expression.
C125: the grammar of C109: complete parameters followed by anything are refused as that is, and version 1 with reserved 0 is the tag 0x0100, which no message has.
C126: induction over the grammar of C06: changing one octet of a sequence of parameters gives one again, except in a length.
C127: the transcript of C98 reads a packet only through what `same_effect` preserves; then C98 and its determinism for both executions; for DATA the accounting of C57 and C115; that the list of types is exact (`C127_kinds`) by eight pairs of computed executions that have come to rest.
C128: the octets and the round trip of C14 for each New function; the first eight octets tell type and length.
C129: an execution with deadlines is one of `ConnModel.v` in which some system calls fail; the end of the connection is that of C106.

C107: an invariant that maps each association to an execution of `DemoModel.v`; a peer that sends nothing by C42.
C101: an invariant of the program's place, its buffer and what it printed. C102: the programs' calls are calls of C85, which gives the bound, the results
of the calls and what is left at rest; C75 gives the octets.

## What is modelled and what is not

Modelled: all functions of `messages/params/*.go`, `messages/*.go`, `pc/pc.go`, `config.go`, `logger.go`, `errors.go`, `conn.go`, `fsm.go`,
`aspsm.go`, `asptm.go`, `management.go`, `transfer.go`, and `Dial`, `Listen`, `Accept` up to and from the SCTP system calls, except:

* log texts, and the texts of error values that never reach the monitor: output only, they do not influence control flow;
* deprecated functions `Decode*`, and the deprecated methods of `Param`, `ProtocolDataPayload` and `Generic`: each calls the modelled
  function (those of the typed messages are modelled, because two types inherit others); that deprecated names log a line;
* `LocalAddr`, `RemoteAddr`, `StreamID`, `Listener.Close/Addr`: forwarders to the SCTP package or field reads; `SetDeadline`, `SetReadDeadline`, `SetWriteDeadline` are in `DeadModel.v`, which assumes that the SCTP package accepts a deadline and lets SCTPRead or SCTPWrite fail from then on (a package that refuses deadlines returns an error to the caller and C129 says nothing);
* the payload protocol identifier, the constant 3 in `SndRcvInfo` (client.go:26, server.go:49), and how the SCTP package puts it on the wire;
* of `examples/`: flags and addresses, the texts around the printed octets, the Sleep of the client (any time may pass);
* nil interface arguments passed by the caller to exported functions, and nil receivers (nil elements of parameter lists, nil struct fields,
  nil header and nil configuration are modelled);
* Go memory-model data races: `ConnModel.v` treats accesses to `HeartbeatInfo.Data` as atomic, and the state check and the comparison of
  `handleHeartbeatAck` (asptm.go:131-144) as one step; C93 says where these races are, and C117 proves that splitting the step and letting
  the comparison come out arbitrarily changes nothing that can be seen. `ConnModel.v` encodes a message in one step and has constant
  parameters: C95 proves this right for parameters shared by any number of goroutines (and says where the races on their Length are); a message value
  passed to two `WriteSignal`s at the same time is outside `ConnModel.v` and in C96. Values of one machine word are not torn in Go's memory model, so torn Length fields need no model; a torn slice header of
  `HeartbeatInfo.Data` (asptm.go:43 against 135), which could make the comparison read outside of the array, is not modelled. In `ConnModel.v` timers are events that may
  fire at any time, `TimeModel.v` (C100, C119) adds the configured durations as lower bounds; how late a timer fires is nowhere bounded; C119 assumes a bound on how late everything else happens; kernel SCTP behaviour beyond the assumptions above.

## Mutation testing

Each definition of the model files is edited in a scratch copy (boundary, missed case, swapped argument, dropped update), the copy is
built, and the theorems that no longer go through are noted. Edits nothing noticed led to stronger theorems (`theorems_tightened` in
`seeded/LOG.jsonl`). For the connection, where `ConnBase.v` restates each step, an edit is made in both places so that the property
theorems and not the restatement are tested.

In the log, `failed` names the lemmas at which the build of the edited copy stopped. `theorems_failed` is computed from it: the theorems of
`MANIFEST.json` whose proofs depend on one of these lemmas. They were not each tried separately against the edited copy, so an entry with a
failed helper lemma shows that the present proof of its theorems breaks, not by itself that every one of the statements became false.

## Trusted base

The Coq 8.16.1 kernel (and its `vm_compute`), the faithfulness of the hand translation, and the environment assumptions above.
As a check of the translation, `RepoTests.v` evaluates every case of the package's own tests (93 Examples: values, octets, lengths, names, errors) in
the model, and `C121_ex` runs the exchange of conn_test.go.
No axioms are stated and every theorem in `Props*.v` is "Closed under the global context" according to the `Print Assumptions` that
follows it. (A context dump of the loaded standard library lists `Coq.ssr.ssrunder.Under_rel.*`, opaque module fields of the ssreflect
plugin library loaded by `lia`'s dependencies; no theorem depends on them.)
