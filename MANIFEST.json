{
 "claims": [
  {
   "property": "C01",
   "status": "proved",
   "theorems": [
    "C01_param_roundtrip"
   ],
   "note": "for every tag (int) and every value of at most 65531 bytes, with any trailing bytes"
  },
  {
   "property": "C02",
   "status": "proved",
   "theorems": [
    "C02_param_wire_format"
   ],
   "note": "for every parameter, including inconsistent Length fields"
  },
  {
   "property": "C03",
   "status": "proved",
   "theorems": [
    "C03_oversize_silently_corrupt"
   ],
   "note": ""
  },
  {
   "property": "C04",
   "status": "proved",
   "theorems": [
    "C04_param_decoding_total"
   ],
   "note": "closed form of the decoder on every byte string"
  },
  {
   "property": "C05",
   "status": "proved",
   "theorems": [
    "C05_param_list_roundtrip",
    "C05_newparam_wf"
   ],
   "note": ""
  },
  {
   "property": "C06",
   "status": "proved",
   "theorems": [
    "C06_param_list_grammar"
   ],
   "note": "exactly the TLV grammar of WireSpec.v; fuel exhaustion excluded"
  },
  {
   "property": "C07",
   "status": "proved",
   "theorems": [
    "C07_uint32_accessors",
    "C07_small_accessors",
    "C07_accessors_on_any_param",
    "C07_list_accessors_on_any_param",
    "C07_string_accessors"
   ],
   "note": ""
  },
  {
   "property": "C08",
   "status": "proved",
   "theorems": [
    "C08_multi_values_roundtrip",
    "C08_first_value_or_panic"
   ],
   "note": "includes the exact panic condition of RoutingContext()/AffectedPointCode()"
  },
  {
   "property": "C09",
   "status": "proved",
   "theorems": [
    "C09_user_cause_halves",
    "C09_status_halves",
    "C09_halves_on_any_param"
   ],
   "note": ""
  },
  {
   "property": "C10",
   "status": "proved",
   "theorems": [
    "C10_service_indicators_overreturn"
   ],
   "note": "states the defect: the list given is never the list returned"
  },
  {
   "property": "C11",
   "status": "proved",
   "theorems": [
    "C11_protocol_data_roundtrip",
    "C11_protocol_data_any"
   ],
   "note": "survives the wire exactly when the user data has at most 65519 bytes"
  },
  {
   "property": "C12",
   "status": "proved",
   "theorems": [
    "C12_routing_key",
    "C12_registration_result",
    "C12_deregistration_result",
    "C12_nested_travel",
    "C12_decoders_exact",
    "C12_decoders_no_panic",
    "C12_errors",
    "C12_registration_result_untyped_refuted"
   ],
   "note": "the last one shows that RegistrationResult does not check sub-parameter kinds"
  },
  {
   "property": "C13",
   "status": "proved",
   "theorems": [
    "C13_header_format",
    "C13_header_decoding",
    "C13_new_header"
   ],
   "note": ""
  },
  {
   "property": "C14",
   "status": "proved",
   "theorems": [
    "C14_data",
    "C14_duna",
    "C14_dava",
    "C14_daud",
    "C14_drst",
    "C14_scon",
    "C14_dupu",
    "C14_asp_up",
    "C14_asp_up_ack",
    "C14_asp_down",
    "C14_asp_down_ack",
    "C14_heartbeat",
    "C14_heartbeat_ack",
    "C14_asp_active",
    "C14_asp_active_ack",
    "C14_asp_inactive",
    "C14_asp_inactive_ack",
    "C14_error",
    "C14_notify",
    "C14_setlength_identity"
   ],
   "note": "one theorem per message type; any subset of parameters, each value up to 65531 bytes"
  },
  {
   "property": "C15",
   "status": "proved",
   "theorems": [
    "C14_data",
    "C14_duna",
    "C14_dava",
    "C14_daud",
    "C14_drst",
    "C14_scon",
    "C14_dupu",
    "C14_asp_up",
    "C14_asp_up_ack",
    "C14_asp_down",
    "C14_asp_down_ack",
    "C14_heartbeat",
    "C14_heartbeat_ack",
    "C14_asp_active",
    "C14_asp_active_ack",
    "C14_asp_inactive",
    "C14_asp_inactive_ack",
    "C14_error",
    "C14_notify",
    "C15_length_multiple_of_4",
    "C15_marshal_len_exact"
   ],
   "note": "the roundtrips predicate of the C14 theorems contains the exact bytes, Length and MarshalLen"
  },
  {
   "property": "C16",
   "status": "proved",
   "theorems": [
    "C16_parse_total",
    "C16_parse_accepts_exactly"
   ],
   "note": ""
  },
  {
   "property": "C17",
   "status": "proved",
   "theorems": [
    "C17_dispatch_defined"
   ],
   "note": ""
  },
  {
   "property": "C18",
   "status": "proved",
   "theorems": [
    "C18_dispatch_exact",
    "C18_only_defined_pairs_refuted"
   ],
   "note": "exact dispatch condition, and the refutation of the one-to-one claim"
  },
  {
   "property": "C19",
   "status": "proved",
   "theorems": [
    "C19_last_wins_foreign_refused"
   ],
   "note": ""
  },
  {
   "property": "C20",
   "status": "proved",
   "theorems": [
    "C20_length_field_ignored"
   ],
   "note": ""
  },
  {
   "property": "C21",
   "status": "proved",
   "theorems": [
    "C21_message_marshal_to",
    "C21_param_marshal_to"
   ],
   "note": ""
  },
  {
   "property": "C22",
   "status": "proved",
   "theorems": [
    "C22_reencode_typed",
    "C22_reencode_generic"
   ],
   "note": ""
  },
  {
   "property": "C23",
   "status": "proved",
   "theorems": [
    "C23_generic_roundtrip"
   ],
   "note": ""
  },
  {
   "property": "C24",
   "status": "proved",
   "theorems": [
    "C24_number_text_number",
    "C24_text_unique"
   ],
   "note": "every uint32 and every variant of defined width"
  },
  {
   "property": "C25",
   "status": "proved",
   "theorems": [
    "C25_text_number",
    "C25_canonical",
    "C25_nil"
   ],
   "note": ""
  },
  {
   "property": "C26",
   "status": "proved",
   "theorems": [
    "C26_width_refuted",
    "C26_text_refuted",
    "C26_alias_refuted",
    "C26_446_numbers",
    "C26_446_texts"
   ],
   "note": "the property is a negative one; witnesses, and universal statements for 4-4-6"
  },
  {
   "property": "C27",
   "status": "proved",
   "theorems": [
    "C27_convert",
    "C27_back"
   ],
   "note": ""
  },
  {
   "property": "C51",
   "status": "proved",
   "theorems": [
    "C51_no_heartbeat_info",
    "C51_new_config",
    "C51_with_heartbeat_info"
   ],
   "note": ""
  },
  {
   "property": "C52",
   "status": "proved",
   "theorems": [
    "C52_enable_never_returns",
    "C52_everything_blocks",
    "C52_others_return",
    "C52_others_can_return"
   ],
   "note": ""
  },
  {
   "property": "C55",
   "status": "proved",
   "theorems": [
    "C55_disabled_forever",
    "C55_set_again_refuted"
   ],
   "note": "SetOutput calls by the user on their own logger are not modelled"
  },
  {
   "property": "C56",
   "status": "proved",
   "theorems": [
    "C56_networks"
   ],
   "note": ""
  },
  {
   "property": "C28",
   "status": "proved",
   "theorems": [
    "C28_stream",
    "C28_max",
    "C28_all_streams",
    "C28_single_stream"
   ],
   "note": ""
  },
  {
   "property": "C29",
   "status": "proved",
   "theorems": [
    "C29_outcome",
    "C29_count"
   ],
   "note": "what the call returns, for every interleaving; the count is twice the encoded length, which exceeds len(b)"
  },
  {
   "property": "C30",
   "status": "proved",
   "theorems": [
    "C30_outcome",
    "C30_next",
    "C30_short",
    "C30_long"
   ],
   "note": ""
  },
  {
   "property": "C31",
   "status": "proved",
   "theorems": [
    "C31_decodes",
    "C31_sent",
    "C31_fits"
   ],
   "note": ""
  },
  {
   "property": "C32",
   "status": "proved",
   "theorems": [
    "C32_only_table",
    "C32_deterministic",
    "C32_total",
    "C32_errors_answered",
    "C32_processed"
   ],
   "note": "universal over executions, plus existence of the complete processing from every waiting state"
  },
  {
   "property": "C33",
   "status": "proved",
   "theorems": [
    "C33_echo",
    "C33_is_beat"
   ],
   "note": ""
  },
  {
   "property": "C34",
   "status": "proved",
   "theorems": [
    "C34_always_named",
    "C34_refused",
    "C34_refuted",
    "C34_refuted_up",
    "C34_refuted_down"
   ],
   "note": "negative property: universal statement and witnesses"
  },
  {
   "property": "C35",
   "status": "proved",
   "theorems": [
    "C35_one_packet",
    "C35_between_reads",
    "C35_in_order"
   ],
   "note": ""
  },
  {
   "property": "C36",
   "status": "proved",
   "theorems": [
    "C36_range",
    "C36_updates",
    "C36_errors"
   ],
   "note": ""
  },
  {
   "property": "C39",
   "status": "proved",
   "theorems": [
    "C39_last",
    "C39_refuted"
   ],
   "note": ""
  },
  {
   "property": "C42",
   "status": "proved",
   "theorems": [
    "C42_received",
    "C42_without_asp_up_refuted"
   ],
   "note": ""
  },
  {
   "property": "C43",
   "status": "proved",
   "theorems": [
    "C43_handshake",
    "C43_replies",
    "C43_once"
   ],
   "note": "messages the user sends through WriteSignal are excluded"
  },
  {
   "property": "C38",
   "status": "proved",
   "theorems": [
    "C38_refuted"
   ],
   "note": "negative property: a witness execution"
  },
  {
   "property": "C41",
   "status": "proved",
   "theorems": [
    "C41_reactivated",
    "C41_stuck",
    "C41_calls",
    "C41_refuted"
   ],
   "note": "every continuation; WriteSignal, which takes no lock, is excluded"
  },
  {
   "property": "C44",
   "status": "proved",
   "theorems": [
    "C44_results",
    "C44_returns"
   ],
   "note": ""
  },
  {
   "property": "C45",
   "status": "proved",
   "theorems": [
    "C45_send_refuted",
    "C45_close_refuted",
    "C45_calm"
   ],
   "note": "negative property: witnesses, and the universal positive half for connections waiting for a packet with all data goroutines finished and more than one outbound stream"
  },
  {
   "property": "C46",
   "status": "proved",
   "theorems": [
    "C46_sources",
    "C46_beat_ack_panics",
    "C46_data_panics",
    "C46_beat_ack_crashes",
    "C46_data_crashes",
    "C46_refuted"
   ],
   "note": ""
  },
  {
   "property": "C47",
   "status": "proved",
   "theorems": [
    "C47_idle",
    "C47_refuted"
   ],
   "note": ""
  },
  {
   "property": "C48",
   "status": "proved",
   "theorems": [
    "C48_any_ack",
    "C48_refuted",
    "C48_blocks"
   ],
   "note": ""
  },
  {
   "property": "C50",
   "status": "proved",
   "theorems": [
    "C50_down",
    "C50_inactive",
    "C50_refuted"
   ],
   "note": ""
  },
  {
   "property": "C53",
   "status": "proved",
   "theorems": [
    "C53_refuted",
    "C53_alone"
   ],
   "note": ""
  },
  {
   "property": "C37",
   "status": "proved",
   "theorems": [
    "C37_no_invention"
   ],
   "note": "every execution, also those with panics and cancellation"
  },
  {
   "property": "C40",
   "status": "proved",
   "theorems": [
    "C40_reception_lives",
    "C40_next_read",
    "C40_no_panic"
   ],
   "note": "possibility of progress from every reachable state; fairness is not modelled"
  },
  {
   "property": "C54",
   "status": "proved",
   "theorems": [
    "C54_resend",
    "C54_count",
    "C54_server"
   ],
   "note": ""
  },
  {
   "property": "C57",
   "status": "proved",
   "theorems": [
    "C57_accounting",
    "C57_nothing_lost"
   ],
   "note": ""
  },
  {
   "property": "C58",
   "status": "proved",
   "theorems": [
    "C58_write",
    "C58_delivered"
   ],
   "note": "existence of the schedule that delivers; that all schedules account for the payload is C57"
  },
  {
   "property": "C49",
   "status": "proved",
   "theorems": [
    "C49_establishes"
   ],
   "note": "heartbeat disabled; the transport delivers in order without loss; no user calls, no timeouts"
  },
  {
   "property": "C59",
   "status": "proved",
   "theorems": [
    "C59_never",
    "C59_refuted",
    "C59_in_time"
   ],
   "note": "negative property: witness and universal statement"
  },
  {
   "property": "C60",
   "status": "proved",
   "theorems": [
    "C60_accepted_cuts",
    "C60_silent"
   ],
   "note": ""
  },
  {
   "property": "C61",
   "status": "proved",
   "theorems": [
    "C61_broken",
    "C61_last"
   ],
   "note": "a partial SCTP read leaves the rest of the message for the next read (recvmsg without MSG_EOR)"
  },
  {
   "property": "C62",
   "status": "proved",
   "theorems": [
    "C62_fifo",
    "C62_whole"
   ],
   "note": ""
  },
  {
   "property": "C63",
   "status": "proved",
   "theorems": [
    "C63_code_points",
    "C63_on_the_wire",
    "C63_users_refuted",
    "C63_service_indicators_refuted"
   ],
   "note": "the RFC numbers are written out as literals in PropsCodes.v"
  },
  {
   "property": "C64",
   "status": "proved",
   "theorems": [
    "C64_typed_keeps_old",
    "C64_typed_bad_body",
    "C64_typed_short",
    "C64_generic_appends",
    "C64_generic_short",
    "C64_param",
    "C64_fresh_result_refuted"
   ],
   "note": "negative property: exact description and witness"
  },
  {
   "property": "C65",
   "status": "proved",
   "theorems": [
    "C65_bytes_as_stored",
    "C65_setlength_repairs",
    "C65_lengths_computed_refuted",
    "C65_type_on_wire_refuted"
   ],
   "note": "negative property: exact description and witnesses"
  },
  {
   "property": "C66",
   "status": "proved",
   "theorems": [
    "C66_typed_decoders",
    "C66_other_types_refused_refuted"
   ],
   "note": "negative property: exact description and witness"
  },
  {
   "property": "C67",
   "status": "proved",
   "theorems": [
    "C67_views",
    "C67_overwritten",
    "C67_independent_copy_refuted"
   ],
   "note": "slices are modelled as positions in the buffer (type view)"
  },
  {
   "property": "C68",
   "status": "proved",
   "theorems": [
    "C68_new_config",
    "C68_client_config",
    "C68_server_config",
    "C68_dial_accept",
    "C68_heartbeat"
   ],
   "note": "octets given by a separate description of the messages (ConfigWire.message)"
  },
  {
   "property": "C69",
   "status": "proved",
   "theorems": [
    "C69_linearizable"
   ],
   "note": ""
  },
  {
   "property": "C70",
   "status": "proved",
   "theorems": [
    "C70_form",
    "C70_paced",
    "C70_active_refuted"
   ],
   "note": "negative part by witness"
  },
  {
   "property": "C71",
   "status": "proved",
   "theorems": [
    "C71_accepted",
    "C71_first_refuted"
   ],
   "note": "negative part by witness"
  },
  {
   "property": "C72",
   "status": "proved",
   "theorems": [
    "C72_silent",
    "C72_closed_ended",
    "C72_reading_ends",
    "C72_ends_refuted"
   ],
   "note": "negative part by witness"
  },
  {
   "property": "C73",
   "status": "proved",
   "theorems": [
    "C73_stuck",
    "C73_heartbeat_stays",
    "C73_ends",
    "C73_all_end_refuted"
   ],
   "note": "C73_ends: existence of the ending schedule; a heartbeat waiting for its ack may expire instead"
  },
  {
   "property": "C74",
   "status": "proved",
   "theorems": [
    "C74_octets",
    "C74_codes",
    "C74_diagnostic",
    "C74_diagnostic_refuted"
   ],
   "note": "negative part by witness"
  },
  {
   "property": "C75",
   "status": "proved",
   "theorems": [
    "C75_authentic",
    "C75_complete",
    "C75_delivered_refuted"
   ],
   "note": "calls of WritePD, WritePDToStream and WriteSignal at the sender are excluded; negative part by witness"
  },
  {
   "property": "C76",
   "status": "proved",
   "theorems": [
    "C76_message",
    "C76_generic",
    "C76_param",
    "C76_payload",
    "C76_header_only",
    "C76_message_unique",
    "C76_generic_unique",
    "C76_payload_unique",
    "C76_packets",
    "C76_distinct_refuted"
   ],
   "note": "negative part by witness"
  },
  {
   "property": "C77",
   "status": "proved",
   "theorems": [
    "C77_type",
    "C77_class",
    "C77_received",
    "C77_unknown_class_refuted"
   ],
   "note": "negative part by witness"
  },
  {
   "property": "C78",
   "status": "proved",
   "theorems": [
    "C78_roundtrip",
    "C78_header_only",
    "C78_zero_panics",
    "C78_all_refuted"
   ],
   "note": "negative part by general theorems and a witness"
  },
  {
   "property": "C79",
   "status": "proved",
   "theorems": [
    "C79_ends",
    "C79_hang"
   ],
   "note": "fate_of in DialogSpec gives the outcome for each side and message type; endpoints refine a dialogue of message kinds (ConnDialog, ConnDuo). Transport: each packet delivered once and in order."
  },
  {
   "property": "C80",
   "status": "proved",
   "theorems": [
    "C80_endless"
   ],
   "note": "The negative claim: n steps exist for every n and none of them ends in rest."
  },
  {
   "property": "C81",
   "status": "proved",
   "theorems": [
    "C81_carries",
    "C81_settles"
   ],
   "note": "TalkSpec gives the users' calls and the transport (any order, no loss); safety and a bound on the number of steps for every execution, absence of deadlock, and the result when no step is left."
  },
  {
   "property": "C82",
   "status": "proved",
   "theorems": [
    "C82_machine",
    "C82_confluent"
   ],
   "note": "PeerSpec.utter is the machine; an endpoint refines it, with a bound on its steps."
  },
  {
   "property": "C83",
   "status": "proved",
   "theorems": [
    "C83_dial"
   ],
   "note": "PeerSpec.sgp is the gateway (RFC 4666 4.3.4.1, 4.3.4.3), a relation, so that every conforming behaviour is covered; packets in order, none lost."
  },
  {
   "property": "C84",
   "status": "proved",
   "theorems": [
    "C84_accept"
   ],
   "note": "Consequence of the machine of C82 for any number of repetitions."
  },
  {
   "property": "C85",
   "status": "proved",
   "theorems": [
    "C85_alive",
    "C85_settles"
   ],
   "note": "LifeSpec gives the steps; the invariant of the pair (ConnLife3) counts the BEATs on their way. The transport loses nothing."
  },
  {
   "property": "C86",
   "status": "proved",
   "theorems": [
    "C86_overtaken_refuted"
   ],
   "note": "The negative claim, by an execution of the pair; the positive part is C85_alive."
  },
  {
   "property": "C87",
   "status": "proved",
   "theorems": [
    "C87_refines",
    "C87_alone",
    "C87_apart",
    "C87_combines",
    "C87_one_ack",
    "C87_heartbeat_refuted"
   ],
   "note": "the positive part for every process without heartbeats; C87_refines and C87_one_ack with heartbeats; the claim for heartbeats is false, as stated"
  },
  {
   "property": "C88",
   "status": "proved",
   "theorems": [
    "C88_ends_all",
    "C88_refuted"
   ],
   "note": "C88_ends_all for every reachable process; witness in C88_refuted"
  },
  {
   "property": "C89",
   "status": "proved",
   "theorems": [
    "C89_bounded",
    "C89_rests"
   ],
   "note": "a weight of the state that every step of a goroutine lowers (ConnWork.work)"
  },
  {
   "property": "C90",
   "status": "proved",
   "theorems": [
    "C90_server",
    "C90_client",
    "C90_attained_server",
    "C90_attained_client",
    "C90_one_refuted"
   ],
   "note": "counted in the record of reads and writes; BEATs of the heartbeat goroutine (C70) and messages written by calls are not counted"
  },
  {
   "property": "C91",
   "status": "proved",
   "theorems": [
    "C91_states",
    "C91_unknown",
    "C91_errors",
    "C91_message_refuted"
   ],
   "note": "stream ids are 16 bits (small)"
  },
  {
   "property": "C92",
   "status": "proved",
   "theorems": [
    "C92_stable",
    "C92_decoded",
    "C92_own"
   ],
   "note": "memory model of the receive path (MemModel.v): blocks, slices, the buffer of the monitor"
  },
  {
   "property": "C93",
   "status": "proved",
   "theorems": [
    "C93_only",
    "C93_disabled",
    "C93_every_early_ack",
    "C93_refuted"
   ],
   "note": "reading and writing are defined by the effect of a step, not by annotation; C93_refuted is the witness"
  },
  {
   "property": "C94",
   "status": "proved",
   "theorems": [
    "C94_stays_up",
    "C94_no_panic",
    "C94_at_rest",
    "C94_gets_there"
   ],
   "note": "`serving` describes the state after Dial/Accept, `peaceful` the events, `all_done` the result (ServeSpec.v)"
  },
  {
   "property": "C95",
   "status": "proved",
   "theorems": [
    "C95_packets",
    "C95_goes_on",
    "C95_library",
    "C95_race",
    "C95_two_writes"
   ],
   "note": "Memory model of concurrent constructors and MarshalBinary (ShareModel); the positive part in C95_packets, C95_goes_on and C95_library, the races exactly in C95_race and C95_two_writes."
  },
  {
   "property": "C96",
   "status": "proved",
   "theorems": [
    "C96_gaps",
    "C96_same_message_refuted",
    "C95_packets"
   ],
   "note": "The bad packet in C96_same_message_refuted (two goroutines, one NTFY); what can be relied on in C96_gaps."
  },
  {
   "property": "C97",
   "status": "proved",
   "theorems": [
    "C97_dial",
    "C97_accept",
    "C97_listen",
    "C97_calls",
    "C97_errors",
    "C97_panics",
    "C97_early",
    "C97_config",
    "C97_leak",
    "C97_leak_refuted"
   ],
   "note": "results of the SCTP package are inputs; the wait is a run of ConnModel; the negative part by witness, its exact condition in C97_leak"
  },
  {
   "property": "C98",
   "status": "proved",
   "theorems": [
    "C98_exact",
    "C98_function",
    "C98_confluent",
    "C98_deaf"
   ],
   "note": "the function is the relation `transcript` of ExactSpec.v, shown total and deterministic in C98_function; DATA is excluded because its answer depends on whether the queue of received payloads is full"
  },
  {
   "property": "C99",
   "status": "proved",
   "theorems": [
    "C99_queue",
    "C99_held",
    "C99_pile",
    "C99_unbounded_refuted",
    "C99_close"
   ],
   "note": "the negative parts: C99_unbounded_refuted (for every n a reachable connection with n waiting goroutines) and C99_close; C99_held and C99_pile are for every established connection"
  },
  {
   "property": "C100",
   "status": "proved",
   "theorems": [
    "C100_timed",
    "C100_spacing",
    "C100_rate",
    "C100_expiry",
    "C100_on_time",
    "C100_tight",
    "C100_limit_refuted",
    "C100_patient",
    "C100_gives_up",
    "C100_silence",
    "C100_queue",
    "C100_queue_tight"
   ],
   "note": "TimeModel.v adds times to the runs of ConnModel.v; timers fire no earlier than set, arbitrarily late; the missing bound for negative intervals in C100_limit_refuted"
  },
  {
   "property": "C101",
   "status": "proved",
   "theorems": [
    "C101_size",
    "C101_serve",
    "C101_short_refuted"
   ],
   "note": "DemoModel.v models serve on top of ConnModel.v; the negative part for every smaller size in C101_short_refuted, the failing Accept in Example C101_ex_silent"
  },
  {
   "property": "C102",
   "status": "proved",
   "theorems": [
    "C102_demo",
    "C102_settles",
    "C102_goes_on",
    "C102_long",
    "C102_one_stream_refuted"
   ],
   "note": "the two programs on the two endpoints of LifeSpec.v (no loss, any order, Timer not expiring); negative parts in C102_long (for all longer data, with Example C102_ex_long) and C102_one_stream_refuted"
  },
  {
   "property": "C103",
   "status": "proved",
   "theorems": [
    "C103_number",
    "C103_back",
    "C103_text",
    "C103_ends",
    "C103_unknown_refuted",
    "C103_zero_refuted"
   ],
   "note": "main of examples/pc-conv on top of PcModel.v; the negative parts for every unknown variant and every variant"
  },
  {
   "property": "C104",
   "status": "proved",
   "theorems": [
    "C104_normal_form",
    "C104_projection",
    "C104_same_octets",
    "C104_size",
    "C104_length_refuted"
   ],
   "note": "the negative part by witness in C104_length_refuted; that the Length is kept is part of C104_normal_form"
  },
  {
   "property": "C105",
   "status": "proved",
   "theorems": [
    "C105_reads",
    "C105_nothing_required",
    "C105_mandatory_refuted"
   ],
   "note": "the negative part for every message and mandatory parameter in C105_mandatory_refuted"
  },
  {
   "property": "C106",
   "status": "proved",
   "theorems": [
    "C106_peer_ends",
    "C106_user_ends",
    "C106_after",
    "C106_rest",
    "C106_returns",
    "C106_drains",
    "C106_late",
    "C106_in_flight",
    "C106_lost_refuted"
   ],
   "note": "the negative parts: C106_rest (for all queues and calls) with the witness C106_lost_refuted, and C106_in_flight"
  },
  {
   "property": "C107",
   "status": "proved",
   "theorems": [
    "C107_refines",
    "C107_prints",
    "C107_no_panic",
    "C107_one_handshake",
    "C107_apart",
    "C107_silent",
    "C107_fails",
    "C107_ends",
    "C107_survives_refuted"
   ],
   "note": "the negative part for all states of the server: C107_silent, C107_fails, C107_ends; witness C107_survives_refuted"
  },
  {
   "property": "C108",
   "status": "proved",
   "theorems": [
    "C108_new",
    "C108_generic",
    "C108_multi",
    "C108_string",
    "C108_typed",
    "C108_nested",
    "C108_no_header"
   ],
   "note": "NilModel.v: the codec with pointers that may be nil"
  },
  {
   "property": "C109",
   "status": "proved",
   "theorems": [
    "C109_too_short",
    "C109_cut",
    "C109_length",
    "C109_parameter",
    "C109_list",
    "C109_no_other",
    "C109_fuzz"
   ],
   "note": "each error characterised by an equivalence"
  },
  {
   "property": "C110",
   "status": "proved",
   "theorems": [
    "C110_each",
    "C110_server",
    "C110_client",
    "C110_no_longer_refuted"
   ],
   "note": "sizes by the trace invariant and C104, numbers by C90; the negative part by witness"
  },
  {
   "property": "C111",
   "status": "proved",
   "theorems": [
    "C111_dial",
    "C111_mixed",
    "C111_accept"
   ],
   "note": "refinement of the dialogue of message kinds with a record of what has been said; its finite graph is explored"
  },
  {
   "property": "C112",
   "status": "proved",
   "theorems": [
    "C112_ends",
    "C112_hang",
    "C112_endless"
   ],
   "note": "the same graph after one more signal; blocking by C41"
  },
  {
   "property": "C113",
   "status": "proved",
   "theorems": [
    "C113_prints"
   ],
   "note": "the program on top of ConnModel.v; the cases in sent_right (CliSpec.v), with an Example for each"
  },
  {
   "property": "C114",
   "status": "proved",
   "theorems": [
    "C114_client",
    "C114_server",
    "C114_mirror",
    "C114_heartbeats"
   ],
   "note": "the octets are literals of CliSpec.v"
  },
  {
   "property": "C115",
   "status": "proved",
   "theorems": [
    "C115_any",
    "C115_packets",
    "C115_kept",
    "C115_exact"
   ],
   "note": "any permutation by induction on it; the order of arrival by an invariant of at most one payload under way"
  },
  {
   "property": "C116",
   "status": "proved",
   "theorems": [
    "C116_order",
    "C116_all",
    "C116_wire",
    "C116_hurried_refuted"
   ],
   "note": "The order of the calls holds on the wire, and end to end under the stated conditions; that an order-preserving network suffices is refuted by C116_hurried_refuted."
  },
  {
   "property": "C117",
   "status": "proved",
   "theorems": [
    "C117_same",
    "C117_rest",
    "C117_panic",
    "C117_covers"
   ],
   "note": "simulation with prophecy: the atomic execution makes the comparison at the moment of the check, with another connection's beat data chosen such that it comes out alike"
  },
  {
   "property": "C118",
   "status": "proved",
   "theorems": [
    "C118_calls",
    "C118_under_way",
    "C118_rest",
    "C118_never",
    "C118_wait",
    "C118_inactive_refuted"
   ],
   "note": "the part with NOT is C118_inactive_refuted"
  },
  {
   "property": "C119",
   "status": "proved",
   "theorems": [
    "C119_timely",
    "C119_calm",
    "C119_hasty_refuted"
   ],
   "note": "the part with NOT is C119_hasty_refuted"
  },
  {
   "property": "C120",
   "status": "proved",
   "theorems": [
    "C120_returned",
    "C120_in_turn",
    "C120_authentic",
    "C120_ordered",
    "C120_overlapping_refuted"
   ],
   "note": "the part with NOT is C120_overlapping_refuted; `gains` relates calls, results and payloads (GainSpec.v)"
  },
  {
   "property": "C121",
   "status": "proved",
   "theorems": [
    "C121_exchange",
    "C121_round_trip"
   ],
   "note": "the two endpoints of C85 (LifeSpec.v); C121_ex runs the case of conn_test.go"
  },
  {
   "property": "C122",
   "status": "proved",
   "theorems": [
    "C122_calls",
    "C122_own",
    "C122_other_streams",
    "C122_chosen",
    "C122_range_refuted",
    "C122_class_refuted"
   ],
   "note": "the parts with NOT are C122_range_refuted and C122_class_refuted"
  },
  {
   "property": "C123",
   "status": "proved",
   "theorems": [
    "C123_parse",
    "C123_compare",
    "C123_write",
    "C123_establish",
    "C123_compare_refuted"
   ],
   "note": "the part with NOT is C123_compare_refuted; the grammar of C109"
  },
  {
   "property": "C124",
   "status": "proved",
   "theorems": [
    "C124_kept",
    "C124_copied",
    "C124_result",
    "C124_older",
    "C124_slices",
    "C124_opened",
    "C124_payload",
    "C124_unchanged_refuted",
    "C124_payload_refuted"
   ],
   "note": "the parts with NOT are the two refuted witnesses"
  },
  {
   "property": "C125",
   "status": "proved",
   "theorems": [
    "C125_joined",
    "C125_messages",
    "C125_connection",
    "C125_generic_refuted",
    "C125_unpadded_refuted"
   ],
   "note": "the parts with NOT are the two refuted witnesses; the grammar of C109"
  },
  {
   "property": "C126",
   "status": "proved",
   "theorems": [
    "C126_value",
    "C126_padding",
    "C126_header",
    "C126_tag",
    "C126_everywhere",
    "C126_type_refuted",
    "C126_tag_refuted",
    "C126_length_refuted"
   ],
   "note": "the parts with NOT are the three refuted witnesses"
  },
  {
   "property": "C127",
   "status": "proved",
   "theorems": [
    "C127_octets",
    "C127_runs",
    "C127_padding",
    "C127_order",
    "C127_parameters",
    "C127_kinds",
    "C127_data",
    "C127_length_refuted"
   ],
   "note": "the part with NOT is C127_length_refuted; the transcripts of C98"
  },
  {
   "property": "C128",
   "status": "proved",
   "theorems": [
    "C128_prefix",
    "C128_row",
    "C128_cut",
    "C128_misplaced_refuted",
    "C128_decoded_refuted"
   ],
   "note": "the parts with NOT are the two refuted witnesses"
  },
  {
   "property": "C129",
   "status": "proved",
   "theorems": [
    "C129_last",
    "C129_before",
    "C129_only",
    "C129_rest",
    "C129_read",
    "C129_closes",
    "C129_for_good",
    "C129_silent",
    "C129_write",
    "C129_answer",
    "C129_beat",
    "C129_usable_refuted",
    "C129_write_refuted"
   ],
   "note": "the parts with NOT are the two refuted witnesses; the effect of a deadline on SCTPRead and SCTPWrite is an assumption about the SCTP package"
  }
 ]
}