{
 "claims": [
  {
   "property": "C01",
   "status": "proved",
   "theorems": [
    "C01_pack_layout",
    "C01_pack",
    "C01_pack_with_body_layout",
    "C01_pack_succeeds_iff",
    "C01_packx_layout"
   ],
   "note": "Every pack entry point, all sizes below 2^32."
  },
  {
   "property": "C02",
   "status": "proved",
   "theorems": [
    "C02_unpack_inverts_pack",
    "C02_unpack_inverts_pack_json_header"
   ],
   "note": "Round-trip laws of the header codec and body marshaller are hypotheses; the JSON header law is discharged for the concrete codec JsonModel.json_hdr."
  },
  {
   "property": "C03",
   "status": "proved",
   "theorems": [
    "C03_raw_stream",
    "C03_bad_header",
    "C03_accessors_agree",
    "C03_of_packed",
    "C03_unpack_from_reader"
   ],
   "note": ""
  },
  {
   "property": "C04",
   "status": "partial",
   "theorems": [
    "C04_accessors_never_panic_refuted",
    "C04_accessors_panic_iff_partial",
    "C04_derived_panic_iff_partial"
   ],
   "note": "The four fixed-offset accessors and FirstBlockOfBytes never panic; the exact condition for each of the six others (HeaderBytesOf, BodyBytesOf, HeaderOf, URLPatternOf, RouteTypeOf, PackType.Bind) is proved. Full claim refuted: those conditions are reachable."
  },
  {
   "property": "C05",
   "status": "partial",
   "theorems": [
    "C05_body_region_refuted",
    "C05_body_region_partial"
   ],
   "note": "False of the code for a negative header length. HeaderBytesOf proved in full, BodyBytesOf proved when the header length is not negative."
  },
  {
   "property": "C06",
   "status": "proved",
   "theorems": [
    "C06_first_block_of_bytes"
   ],
   "note": ""
  },
  {
   "property": "C07",
   "status": "partial",
   "theorems": [
    "C07_unpack_total_refuted",
    "C07_unpack_frame_partial",
    "C07_unpack_panic_iff_partial",
    "C07_unpack_confined_partial"
   ],
   "note": "False of the code: short streams, nil dest and hostile lengths panic, and bytes between len and cap are decoded. Exact panic condition and confinement for full slices proved."
  },
  {
   "property": "C08",
   "status": "partial",
   "theorems": [
    "C08_receivable_iff_partial",
    "C08_oversize_pack_refuted"
   ],
   "note": "Receivable iff content < 2^31 is proved; that packing fails above is false (refuted)."
  },
  {
   "property": "C09",
   "status": "proved",
   "theorems": [
    "C09_injective_and_prefix_free"
   ],
   "note": ""
  },
  {
   "property": "C10",
   "status": "proved",
   "theorems": [
    "C10_header_merge_last_wins"
   ],
   "note": ""
  },
  {
   "property": "C11",
   "status": "proved",
   "theorems": [
    "C11_marshaller_names"
   ],
   "note": ""
  },
  {
   "property": "C12",
   "status": "proved",
   "theorems": [
    "C12_segmentation_independent"
   ],
   "note": ""
  },
  {
   "property": "C13",
   "status": "proved",
   "theorems": [
    "C13_sequence_received",
    "C13_blocks_received"
   ],
   "note": ""
  },
  {
   "property": "C14",
   "status": "proved",
   "theorems": [
    "C14_truncation",
    "C14_silence",
    "C14_unpack_truncated"
   ],
   "note": ""
  },
  {
   "property": "C15",
   "status": "partial",
   "theorems": [
    "C15_limit_partial",
    "C15_limit_refuted"
   ],
   "note": "False for length fields >= 2^31 (panic) and for limits >= 2^31 (wraps). Proved otherwise."
  },
  {
   "property": "C16",
   "status": "partial",
   "theorems": [
    "C16_data_with_eof_refuted",
    "C16_data_then_eof_partial"
   ],
   "note": "False of the code: data returned together with an error is dropped. Proved for readers that return them separately."
  },
  {
   "property": "C17",
   "status": "partial",
   "theorems": [
    "C17_pipejson_all_or_nothing_partial",
    "C17_pipejson_writes",
    "C17_pipejson_nil_id_refuted"
   ],
   "note": "Proved for every argument list except that a nil interface in an id position panics (refuted) instead of returning an error; nothing is written in that case either."
  },
  {
   "property": "C18",
   "status": "proved",
   "theorems": [
    "C18_bad_marker",
    "C18_batch_received",
    "C18_piped_arrives",
    "C18_handled_in_order"
   ],
   "note": "the batch PipeJSON writes is handed on as one SPipe event with all n blocks and no nil contexts, for every segmentation and continuation, given the marker header survives the header codec and the blocks are within the limit; handlePipe runs them in order"
  },
  {
   "property": "C19",
   "status": "partial",
   "theorems": [
    "C19_writeconn_once_partial",
    "C19_writeconn_short_write_refuted",
    "C19_writeconn_exact",
    "C19_write_exact",
    "C19_error_reported"
   ],
   "note": "Proved under the io.Writer contract (short count only with an error); refuted for a connection that reports short writes without error, because the loop re-sends from the first byte."
  },
  {
   "property": "C20",
   "status": "proved",
   "theorems": [
    "C20_replies_never_mixed"
   ],
   "note": "every successful reply is one Write of one block; any interleaving of the handlers' writes is received block for block in that order. Atomicity of one net.Conn.Write is trusted; raw writes by user code are outside"
  },
  {
   "property": "C21",
   "status": "partial",
   "theorems": [
    "C21_chain_is_gin_partial",
    "C21_long_chain_refuted"
   ],
   "note": "Proved for chains of at most 2019 handlers (the code's ABORT offset), any handlers including panicking and recovering ones. False beyond."
  },
  {
   "property": "C22",
   "status": "partial",
   "theorems": [
    "C22_all_in_order_partial",
    "C22_well_behaved_partial",
    "C22_long_chain_refuted"
   ],
   "note": "Proved for chains of at most 2019 handlers; false for longer ones (the 2020th handler never runs)."
  },
  {
   "property": "C23",
   "status": "proved",
   "theorems": [
    "C23_abort_stops"
   ],
   "note": ""
  },
  {
   "property": "C24",
   "status": "partial",
   "theorems": [
    "C24_api_reduces_to_single_calls",
    "C24_chain_exact",
    "C24_chain_partial",
    "C24_stale_own_middleware_refuted",
    "C24_refused_call_leaks_middleware_refuted"
   ],
   "note": "The exact chain is proved for every history. The claim itself is false after RewriteHeartBeatHandler (stale own middlewares) and after a recovered duplicate registration; proved otherwise."
  },
  {
   "property": "C25",
   "status": "partial",
   "theorems": [
    "C25_coverage_exact",
    "C25_coverage_partial",
    "C25_reuse_refuted"
   ],
   "note": "Exact coverage rule proved for every history; the claim is false when a key is Use'd again after UnUse, proved otherwise."
  },
  {
   "property": "C26",
   "status": "partial",
   "theorems": [
    "C26_given_function_partial",
    "C26_later_function_dropped_refuted"
   ],
   "note": "False when a key is Use'd again (the first function is kept); proved otherwise."
  },
  {
   "property": "C27",
   "status": "proved",
   "theorems": [
    "C27_one_handler_per_id"
   ],
   "note": ""
  },
  {
   "property": "C28",
   "status": "proved",
   "theorems": [
    "C28_no_missing_anchor"
   ],
   "note": ""
  },
  {
   "property": "C29",
   "status": "partial",
   "theorems": [
    "C29_globals_first_partial",
    "C29_id_zero_refuted"
   ],
   "note": "False for id 0 when heartbeat or auth is not configured; proved for every other id."
  },
  {
   "property": "C30",
   "status": "partial",
   "theorems": [
    "C30_any_exact",
    "C30_any_once_partial",
    "C30_twice_refuted"
   ],
   "note": "Exact behaviour proved: with two or more handlers each runs twice (claim refuted); proved for one handler."
  },
  {
   "property": "C31",
   "status": "proved",
   "theorems": [
    "C31_onmessage_replaces_routing"
   ],
   "note": ""
  },
  {
   "property": "C32",
   "status": "proved",
   "theorems": [
    "C32_misuse_rejected",
    "C32_bad_arguments_rejected",
    "C32_windows_well_formed"
   ],
   "note": ""
  },
  {
   "property": "C33",
   "status": "proved",
   "theorems": [
    "C33_rewrite_moves_heartbeat",
    "C33_refused_rewrite_is_half_done"
   ],
   "note": "Proved for calls that return; C33_refused_rewrite_is_half_done describes the panicking case."
  },
  {
   "property": "C34",
   "status": "partial",
   "theorems": [
    "C34_router_type_exact",
    "C34_own_type_partial",
    "C34_datagram_own_type",
    "C34_sticky_refuted"
   ],
   "note": "Exact router type for every history; own header decides for the first message of a TCP connection and for every datagram; refuted for later TCP messages (the first routed message decides for the whole connection)."
  },
  {
   "property": "C35",
   "status": "partial",
   "theorems": [
    "C35_pattern_exact",
    "C35_reply_carries_reported_pattern",
    "C35_own_pattern_partial",
    "C35_datagram_own_pattern",
    "C35_sticky_refuted"
   ],
   "note": "The reply carries the pattern GetURLPattern reports; that is the request's own for datagrams and first requests; refuted for later TCP requests (sticky)."
  },
  {
   "property": "C36",
   "status": "partial",
   "theorems": [
    "C36_private_isolated_partial",
    "C36_datagram_private",
    "C36_cross_connection",
    "C36_tcp_shared_refuted"
   ],
   "note": "Holds for datagrams, Reset contexts and across connections; refuted within a TCP connection (copyContext shares the connection's map)."
  },
  {
   "property": "C37",
   "status": "partial",
   "theorems": [
    "C37_last_write_partial",
    "C37_read_own_write",
    "C37_no_leak",
    "C37_overwritten_refuted"
   ],
   "note": "Last write by the per-connection setters is read back through every context, no leak across connections on any history; refuted when the key is also used with SetCtxPerRequest or is one of the two cache keys."
  },
  {
   "property": "C38",
   "status": "proved",
   "theorems": [
    "C38_reserved_keys",
    "C38_per_request_setter_overwrites"
   ],
   "note": "Exact for every key; extra theorem: SetCtxPerRequest bypasses the guard on TCP."
  },
  {
   "property": "C39",
   "status": "partial",
   "theorems": [
    "C39_send_latest_only",
    "C39_nonstring_name_refuted"
   ],
   "note": "proved under the hypothesis that only strings are stored as user names; without it a refutation is given (PerConnectionContext is exported, a number under the reserved key makes CloseConn panic half-way)"
  },
  {
   "property": "C40",
   "status": "partial",
   "theorems": [
    "C40_pool_content",
    "C40_online_reachable_partial",
    "C40_online_reachable_refuted"
   ],
   "note": "false as stated: an older connection that still carries the name deletes the newer owner's pool entry when it closes or goes offline (C40_online_reachable_refuted, for every such history). Partial: reached when no call of that kind happened since. C40_pool_content gives the pool's exact content after any history."
  },
  {
   "property": "C41",
   "status": "partial",
   "theorems": [
    "C41_closeconn",
    "C41_idempotent",
    "C41_nonstring_name_refuted"
   ],
   "note": "proved under the hypothesis that only strings are stored as user names, plus idempotence; refuted without the hypothesis"
  },
  {
   "property": "C42",
   "status": "proved",
   "theorems": [
    "C42_online_empty",
    "C42_never_pooled"
   ],
   "note": "full"
  },
  {
   "property": "C43",
   "status": "partial",
   "theorems": [
    "C43_stop_true_refuted",
    "C43_empty_pool_partial"
   ],
   "note": "false as stated: the closing goroutine deadlocks on the pool's own lock for every non-empty pool, in every continuation (C43_stop_true_refuted); it works for the empty pool"
  },
  {
   "property": "C44",
   "status": "proved",
   "theorems": [
    "C44_timed_described",
    "C44_timed_agrees",
    "C44_three_intervals",
    "C44_beat_resets",
    "C44_off"
   ],
   "note": "full (for a loss handler that does not panic; see C46) The timed watcher of C46 and the event loop agree step by step (`SpecAgree.saw`)."
  },
  {
   "property": "C45",
   "status": "proved",
   "theorems": [
    "C45_loss_time",
    "C45_exact",
    "C45_alive",
    "C45_noticed",
    "C45_progress"
   ],
   "note": "full: never earlier than 3I after the last heartbeat, never later than 3I+4D when the goroutine's busy periods are bounded by D, exactly 3I for D=0"
  },
  {
   "property": "C46",
   "status": "partial",
   "theorems": [
    "C46_loss_handler",
    "C46_loss_handler_panic_refuted"
   ],
   "note": "proved for a handler that returns; refuted for one that panics (the connection is then never closed by the watcher)"
  },
  {
   "property": "C47",
   "status": "partial",
   "theorems": [
    "C47_stored_agrees",
    "C47_one_channel_partial",
    "C47_channels_apart_partial",
    "C47_channel_replaced_refuted",
    "C47_lost_forever_refuted",
    "C47_lost_refuted",
    "C47_one_each",
    "C47_not_lost_partial"
   ],
   "note": "false as stated: the get-or-create of the channel races and a heartbeat can end in a channel nobody reads (C47_lost_refuted, C47_lost_forever_refuted), and SetCtxPerRequest on the library's own key replaces the channel (C47_channel_replaced_refuted); partial: no loss once the watcher's channel exists before the handlers start, and on every history of context calls each connection keeps one channel, its own, as long as nobody stores under that key with SetCtxPerRequest Once the channel is stored, every send and take of the two-step machine is one of `ChanModel` (`C47_stored_agrees`)."
  },
  {
   "property": "C48",
   "status": "proved",
   "theorems": [
    "C48_auth",
    "C48_pass_deny_silence",
    "C48_off"
   ],
   "note": "full"
  },
  {
   "property": "C49",
   "status": "partial",
   "theorems": [
    "C49_auth_not_consulted_refuted"
   ],
   "note": "refuted: handling a message never consults the authentication state; the Example runs a handler for the first message of a connection with authentication on"
  },
  {
   "property": "C50",
   "status": "partial",
   "theorems": [
    "C50_watch_agrees",
    "C50_broadcast_partial",
    "C50_repeat_refuted",
    "C50_no_signals",
    "C50_watcher"
   ],
   "note": "With WithBroadCastSignal(true) called once before everything, for every history: before a Stop(true) the broadcast watchers close nothing, from it on each closes its connection when it next runs. Refuted on repetition: after one Stop(true) a later one panics and new connections are closed at once. The history's heartbeat and broadcast events do exactly what one round of the two watch loops does (`C50_watch_agrees`). Without the signals Stop never panics and nothing waits for the broadcast (`C50_no_signals`)."
  },
  {
   "property": "C51",
   "status": "partial",
   "theorems": [
    "C51_stop_false_refuted",
    "C51_stop_false_partial"
   ],
   "note": "Refuted with HeartBeatOn: after Stop(false) each open connection is closed when its heartbeat watcher next runs. Holds (partial) with heartbeats off and no Stop(true)."
  },
  {
   "property": "C52",
   "status": "partial",
   "theorems": [
    "C52_stop_agrees",
    "C52_stop_exact",
    "C52_other_networks_refuted",
    "C52_stop_closes_partial"
   ],
   "note": "Exact characterisation of the listeners Stop closes (network written tcp, udp or kcp, and latest on its address); refuted for every other network. The Stop of the serving loop machine and the Stop of the call machine are the same steps (`C52_stop_agrees`)."
  },
  {
   "property": "C53",
   "status": "partial",
   "theorems": [
    "C53_start_refuted",
    "C53_torn_refuted",
    "C53_start_partial"
   ],
   "note": "Refuted: with two or more records all goroutines of Start may see the last one (shared loop variable, go 1.12), or even a torn pair. Partial: one record is served, and the last record always is."
  },
  {
   "property": "C54",
   "status": "proved",
   "theorems": [
    "C54_one_record"
   ],
   "note": "For every history: one record per address, present iff listened on, holding the latest listener."
  },
  {
   "property": "C55",
   "status": "proved",
   "theorems": [
    "C55_stop_start",
    "C55_restart",
    "C55_interleaved"
   ],
   "note": "Stop and Start refuse exactly by the running state after every history; Restart runs its hooks in order on the stopped server. A repeated Stop(true) may panic instead (C50)."
  },
  {
   "property": "C56",
   "status": "proved",
   "theorems": [
    "C56_every_message_once"
   ],
   "note": "all sequences, all segmentations"
  },
  {
   "property": "C57",
   "status": "partial",
   "theorems": [
    "C57_contained_partial",
    "C57_every_stream",
    "C57_exact",
    "C57_segmentation_free",
    "C57_malformed_in_batch_refuted"
   ],
   "note": "Exact for every stream and segmentation (C57_exact, C57_segmentation_free). As claimed (C57_contained_partial) when no batch is cut short or holds an unacceptable frame; false for a malformed frame inside a batch, where reading resumes mid-frame."
  },
  {
   "property": "C58",
   "status": "partial",
   "theorems": [
    "C58_empty_header_refuted",
    "C58_empty_header_partial",
    "C58_datagram"
   ],
   "note": "refuted for TCP with JSON headers, proved for UDP and for codecs that accept the empty text"
  },
  {
   "property": "C59",
   "status": "partial",
   "theorems": [
    "C59_survives_partial",
    "C59_truncated_batch_refuted",
    "C59_datagram_refuted"
   ],
   "note": "ordinary TCP messages never crash; refuted by a truncated batch and by one datagram with a negative header length"
  },
  {
   "property": "C60",
   "status": "partial",
   "theorems": [
    "C60_datagrams_exact",
    "C60_datagrams_partial",
    "C60_large_datagram_refuted"
   ],
   "note": "exact statement proved (truncation to the buffer); as claimed for datagrams that fit; refuted for larger ones"
  },
  {
   "property": "C61",
   "status": "proved",
   "theorems": [
    "C61_callbacks",
    "C61_close_on_fault",
    "C61_onconnect_panic"
   ],
   "note": "all connections and byte streams; a panicking OnConnect is a separate theorem"
  },
  {
   "property": "C62",
   "status": "partial",
   "theorems": [
    "C62_udp_heartbeat_refuted",
    "C62_udp_no_heartbeat_partial",
    "C62_udp_exact",
    "C62_udp_spins_refuted"
   ],
   "note": "Refuted for every datagram: three intervals without a beat for that datagram close the shared socket for every peer for good. Partial: heartbeats off."
  },
  {
   "property": "C63",
   "status": "proved",
   "theorems": [
    "C63_networks"
   ],
   "note": "Complete: exact choice for every byte string."
  },
  {
   "property": "C64",
   "status": "partial",
   "theorems": [
    "C64_in_matches_partial",
    "C64_in_panics_refuted",
    "C64_in_exact",
    "C64_middle_percent_never_matches"
   ],
   "note": "Exact for every list: panics exactly when an entry equal to \"%\" is reached; otherwise the documented meaning."
  },
  {
   "property": "C65",
   "status": "partial",
   "theorems": [
    "C65_clientip_ipv4_partial",
    "C65_clientip_ipv6_always_localhost",
    "C65_clientip_ipv6_refuted",
    "C65_clientip_other"
   ],
   "note": "IPv4 holds; every IPv6 peer is reported as 127.0.0.1 (refuted)."
  },
  {
   "property": "C66",
   "status": "partial",
   "theorems": [
    "C66_python_pack_partial",
    "C66_python_unpack_partial",
    "C66_python_negative_ids_refuted"
   ],
   "note": "Holds for ids 0..2^31-1; negative ids cannot be packed and are misread (refuted)."
  },
  {
   "property": "C67",
   "status": "partial",
   "theorems": [
    "C67_get_set_partial",
    "C67_set_nil_header_refuted",
    "C67_request_set"
   ],
   "note": "Holds for messages with a header map; Set on a nil header panics (refuted)."
  },
  {
   "property": "C68",
   "status": "proved",
   "theorems": [
    "C68_reply_helpers",
    "C68_reply",
    "C68_wraps",
    "C68_send_to_conn"
   ],
   "note": "One block with the announced marshaller (the context's own if it has that name), nothing written on encoding failure; the error of a failed encoding or write comes back wrapped (C68_wraps)."
  },
  {
   "property": "C69",
   "status": "proved",
   "theorems": [
    "C69_delivered_as_sent"
   ],
   "note": "composition of the pack layout, segmentation, receive loop and unpack theorems"
  },
  {
   "property": "C70",
   "status": "proved",
   "theorems": [
    "C70_routed_by_own_header",
    "C70_handled_as_planned",
    "C70_sent_and_handled"
   ],
   "note": "composition of the context-store, configuration and chain theorems; stated on decoded messages and on sent ones"
  },
  {
   "property": "C71",
   "status": "proved",
   "theorems": [
    "C71_datagram_handled_as_sent"
   ],
   "note": "UDP analogue of C69 and C70; no uniformity needed"
  },
  {
   "property": "C72",
   "status": "partial",
   "theorems": [
    "C72_connect_untouched_partial",
    "C72_next_in_onconnect_refuted",
    "C72_abort_in_onconnect_refuted"
   ],
   "note": "holds if OnConnect calls neither Next nor Abort; refuted otherwise: requests skip the first k handlers, or all"
  },
  {
   "property": "C73",
   "status": "partial",
   "theorems": [
    "C73_after_stop",
    "C73_recorded_partial",
    "C73_other_network_refuted"
   ],
   "note": "C73_after_stop holds on every network: after the state is STOP a loop takes at most the one connection it is already waiting for and at most three more steps of its own; C73_recorded_partial: on \"tcp\", \"kcp\" and \"udp\" a recorded loop takes none after Stop closed the listeners. Missing: C73_other_network_refuted - on any other network name (tcp4, tcp6, udp4, ...) Stop closes nothing and the waiting loop accepts and serves one more connection."
  },
  {
   "property": "C74",
   "status": "partial",
   "theorems": [
    "C74_returned_closed",
    "C74_udp_refuted"
   ],
   "note": "Proved for TCP and raw (deferred Close). C74_udp_refuted: when the UDP receive loop ends, ListenAndServeUDP itself still waits in select{} and never runs its deferred Close, so on a network Stop does not close (udp4, ...) the socket stays open and the address taken for ever."
  },
  {
   "property": "C75",
   "status": "partial",
   "theorems": [
    "C75_keeps_accepting_partial",
    "C75_one_error_refuted"
   ],
   "note": "Holds while no Accept fails and OnConnect does not panic (both for the loop in question). C75_one_error_refuted: a single failing Accept (EMFILE, say) or one panicking OnConnect ends the loop and closes the listener while the server still reports it is running, and Start refuses to help."
  },
  {
   "property": "C76",
   "status": "partial",
   "theorems": [
    "C76_kind_lost_refuted",
    "C76_not_resumed_refuted",
    "C76_start_kind",
    "C76_resumes_partial"
   ],
   "note": "C76_resumes_partial: on \"tcp\", \"kcp\", \"udp\" an execution after Start exists in which the address is served by a loop of the kind Start picks. Missing: Start never restarts a raw server nor a UDP buffer size (C76_kind_lost_refuted); on other networks the old listener still holds the address, so Start's call fails (C76_not_resumed_refuted)."
  },
  {
   "property": "C77",
   "status": "partial",
   "theorems": [
    "C77_udp_spins_refuted",
    "C77_udp_closed_refuted",
    "C77_tcp_ends_partial"
   ],
   "note": "C77_tcp_ends_partial: TCP and raw loops with a closed listener take at most four more steps and are never stuck before they return. Missing: C77_udp_spins_refuted - a UDP loop whose socket was closed by Stop and which reads its state after the next Start reads \"use of closed\" errors for ever without returning."
  },
  {
   "property": "C78",
   "status": "proved",
   "theorems": [
    "C78_closed_always",
    "C78_chain"
   ],
   "note": ""
  },
  {
   "property": "C79",
   "status": "partial",
   "theorems": [
    "C79_unused_runs_refuted",
    "C79_in_use_partial"
   ],
   "note": "C79_in_use_partial: when UnUse was never called the chain is exactly the middlewares in use. C79_unused_runs_refuted: handleRaw takes every anchor, whatever its expiry, so any middleware ever used runs, UnUse'd or not."
  },
  {
   "property": "C80",
   "status": "proved",
   "theorems": [
    "C80_no_race"
   ],
   "note": ""
  },
  {
   "property": "C81",
   "status": "proved",
   "theorems": [
    "C81_no_race",
    "C81_reads",
    "C81_no_deadlock",
    "C81_accounts"
   ],
   "note": "Any number of goroutines; no race, every read returns whether a close came before it, every call makes exactly its accesses (C81_accounts), no deadlock."
  },
  {
   "property": "C82",
   "status": "partial",
   "theorems": [
    "C82_take_agrees",
    "C82_leave_agrees",
    "C82_at_most_refuted",
    "C82_blocked_refuted",
    "C82_first_returns_partial",
    "C82_beat_returns_partial",
    "C82_beats_all_partial",
    "C82_taken"
   ],
   "note": "False: at most two auth signals of a connection (one without a watcher) and one RecvHeartBeat without HeartBeatOn ever return, all further calls block for ever (C82_at_most_refuted, C82_blocked_refuted). What holds: the first call always returns, and RecvHeartBeat returns while the heartbeat watcher is at work. `ChanModel`'s watchers take and leave exactly when the loops of `WatchModel` do (`C82_take_agrees`, `C82_leave_agrees`)."
  },
  {
   "property": "C83",
   "status": "partial",
   "theorems": [
    "C83_deny_first_partial",
    "C83_ignored_refuted",
    "C83_closed"
   ],
   "note": "Holds when WithAuth is on and the denial is the first signal. C83_ignored_refuted: without a watcher (no WithAuth, raw, UDP) or after a first pass no denial ever closes the connection."
  },
  {
   "property": "C84",
   "status": "partial",
   "theorems": [
    "C84_new_socket_partial",
    "C84_without_both_partial",
    "C84_ignored_refuted",
    "C84_passed_closes",
    "C84_not_before",
    "C84_closed_by_late_read"
   ],
   "note": "False: accept calls SetDeadline and then SetReadDeadline and SetWriteDeadline with fields that are zero unless set, which cancels it; SetDeadline never has any effect (C84_ignored_refuted). Exact: a socket gets the newest SetReadDeadline and SetWriteDeadline (C84_new_socket_partial), so it holds for programs not using SetDeadline (C84_without_both_partial). C84_passed_closes: the TCP reader closes at the first read at or after its deadline."
  },
  {
   "property": "C85",
   "status": "partial",
   "theorems": [
    "C85_tcp_own_partial",
    "C85_tcp_distinct_partial",
    "C85_sets_partial",
    "C85_udp_shared_refuted",
    "C85_udp_deaf_refuted"
   ],
   "note": "Holds for TCP. False for UDP: all datagrams share the socket, so the deadline is everybody's (C85_udp_shared_refuted), and after a handler has set a read deadline the server never receives a datagram again once it has passed (C85_udp_deaf_refuted)."
  },
  {
   "property": "C86",
   "status": "partial",
   "theorems": [
    "C86_unlocked_refuted"
   ],
   "note": "False: nothing sets the lock; every call after the start takes effect (C86_unlocked_refuted, for every configuration and every call)."
  },
  {
   "property": "C87",
   "status": "partial",
   "theorems": [
    "C87_before_serve_partial",
    "C87_progress_partial",
    "C87_anchor_maps_partial",
    "C87_no_deadlock_partial",
    "C87_race_refuted",
    "C87_crash_refuted",
    "C87_footprint",
    "C87_reads",
    "C87_writes"
   ],
   "note": "Holds when all registration precedes the start (C87_before_serve_partial, with progress in C87_progress_partial); with calls at any time the URL anchor map is never raced and nobody waits for ever (C87_anchor_maps_partial, C87_no_deadlock_partial). False during registration: data race on the handler map (C87_race_refuted); a request finds the handler without its anchor and panics on a goroutine without recover (C87_crash_refuted). The accesses the statements speak of are exact: a registering step changes only what it is said to write, depends only on what it is said to access, and can change each location it is said to write (C87_footprint, C87_writes); a request's step depends on the locations it is said to read and on each of them (C87_reads)."
  },
  {
   "property": "C88",
   "status": "proved",
   "theorems": [
    "C88_reply",
    "C88_push"
   ],
   "note": "Exact results of both calls after every history."
  },
  {
   "property": "C89",
   "status": "partial",
   "theorems": [
    "C89_same_datagram_partial",
    "C89_never_offline_refuted"
   ],
   "note": "Holds inside the handling of the datagram that went online (C89_same_datagram_partial). False afterwards: the name is kept in the request's context, which is reset when the chain is through; nothing but a new Online of that name ever changes the pool entry (C89_never_offline_refuted)."
  },
  {
   "property": "C90",
   "status": "partial",
   "theorems": [
    "C90_beat_agrees",
    "C90_auth_agrees",
    "C90_broadcast_agrees",
    "C90_connection_partial",
    "C90_datagram_refuted",
    "C90_not_early",
    "C90_handlers",
    "C90_closing",
    "C90_stop_seen",
    "C90_started"
   ],
   "note": "Holds for TCP and raw connections (C90_connection_partial). False for datagrams when WithBroadCastSignal is used: one goroutine per datagram that nothing but closing the server ends (C90_datagram_refuted). A watcher of `GorModel` may end exactly when a round of its loop can end (`C90_beat_agrees`, `C90_auth_agrees`, `C90_broadcast_agrees`). The watchers see a Stop exactly while the server is stopped and the broadcast exactly from a Stop(true) with signals on (`C90_stop_seen`)."
  },
  {
   "property": "C91",
   "status": "partial",
   "theorems": [
    "C91_reaches_handler_partial",
    "C91_onmessage_refuted",
    "C91_after_url_refuted"
   ],
   "note": "Holds with OnMessage unset, on TCP connections all of whose messages ask for MESSAGE_ID routing, for functions that neither abort nor panic and plans of at most 2019 functions. False when OnMessage is set (no routing at all), and after a URL-routed message on the same connection (the router type is remembered)."
  },
  {
   "property": "C92",
   "status": "partial",
   "theorems": [
    "C92_call_once_partial",
    "C92_write_json",
    "C92_server_dispatches_one",
    "C92_wide_id_refuted"
   ],
   "note": "Proved for ids in int32 range. False for other ints given to TCPCallOnceJSON: the low 32 bits are sent. A failed encoding gives the encoder's error, wrapped, and nothing is written. A short write without an error (which net.Conn does not do) would go unnoticed."
  },
  {
   "property": "C93",
   "status": "partial",
   "theorems": [
    "C93_replies_read_back_partial",
    "C93_no_value_refuted",
    "C93_pattern_replies"
   ],
   "note": "Proved for replies with a value, given that encoder and decoder round-trip on it and that a context marshaller using a built-in name is the built-in one. False for replies without a value: the empty body is handed to the decoder."
  },
  {
   "property": "C94",
   "status": "partial",
   "theorems": [
    "C94_buffers_bounded_partial",
    "C94_plain_messages_partial",
    "C94_batch_refuted",
    "C94_without_limit",
    "C94_exact",
    "C94_total_partial",
    "C94_few_batches"
   ],
   "note": "Bounds proved for byte buffers (any stream), for all buffers of a connection together (at most twice what was received, the limit and eight bytes) and for streams of ordinary messages; false for batches: the announced number alone sizes a slice of pointers (tcpx.go:585), at most one slice for every four bytes. Without a limit any length below 2^31 is allocated on four bytes. What the header decoder and copyContext allocate is not counted."
  },
  {
   "property": "C95",
   "status": "partial",
   "theorems": [
    "C95_each_once",
    "C95_batch_partial",
    "C95_lockstep_partial",
    "C95_any_order_refuted"
   ],
   "note": "False: ordinary messages may be handled in any order and at the same time (every permutation occurs, C95_any_order_refuted). Holds within a batch, and for clients that wait for each message to be handled; each message is handled exactly once in any case."
  },
  {
   "property": "C96",
   "status": "partial",
   "theorems": [
    "C96_others_proceed_partial",
    "C96_batch_refuted",
    "C96_onconnect_refuted",
    "C96_short_batch_refuted"
   ],
   "note": "Holds but for the rest of a batch (C96_batch_refuted), for batches that announce more messages than follow, which can end the process (C96_short_batch_refuted) and for OnConnect, which runs in the accept loop: while it blocks no further connection is served (C96_onconnect_refuted). TCP server; locks taken inside handlers are the program's own."
  },
  {
   "property": "C97",
   "status": "partial",
   "theorems": [
    "C97_one_call_partial",
    "C97_signal_exits",
    "C97_panic_refuted",
    "C97_too_early_refuted",
    "C97_dropped_refuted",
    "C97_two_calls_refuted",
    "C97_sigkill_refuted"
   ],
   "note": "Partial: holds for one call whose functions do not panic. Refuted: a panicking function leaves the process unable to be ended by signals, a signal between Notify and receive is dropped, a signal before Notify ends the process at once, two calls race for os.Exit, SIGKILL runs nothing."
  },
  {
   "property": "C98",
   "status": "partial",
   "theorems": [
    "C98_defer_partial",
    "C98_handler_panics_refuted",
    "C98_nil_panic_refuted",
    "C98_closechanel"
   ],
   "note": "Partial: holds when the handlers do not panic. Refuted for a panicking handler and for panic(nil)."
  },
  {
   "property": "C99",
   "status": "partial",
   "theorems": [
    "C99_tcp_encrypted_partial",
    "C99_raw_udp_clear_refuted",
    "C99_new_listener",
    "C99_load"
   ],
   "note": "Partial: holds for the stream server. Refuted for the raw and packet servers, which ignore TLSConfig."
  },
  {
   "property": "C100",
   "status": "partial",
   "theorems": [
    "C100_stream_error_partial",
    "C100_unsupported",
    "C100_udp_refuted",
    "C100_nil_refuted",
    "C100_waits"
   ],
   "note": "Partial: stream servers report every failure to listen and do not return while the accept loop runs. Refuted: packets panic or never return; nil is also returned after a failed Accept."
  },
  {
   "property": "C101",
   "status": "partial",
   "theorems": [
    "C101_alone_partial",
    "C101_later_refused_partial",
    "C101_never_blocks",
    "C101_serial_partial",
    "C101_state",
    "C101_two_stops_refuted",
    "C101_double_close_refuted",
    "C101_two_starts_refuted"
   ],
   "note": "What holds: a call nobody interrupts and any number of calls that do not overlap act as in sequence; after a Stop has set the state every later Stop is refused; only a started server and a Stop that saw the server running change the state; no call waits for another. False for overlapping calls: two Stops both succeed, two Stop(true) panic on the channel, two Restarts start every listener twice."
  },
  {
   "property": "C102",
   "status": "partial",
   "theorems": [
    "C102_ids",
    "C102_literal_partial",
    "C102_append_refuted",
    "C102_write_refuted"
   ],
   "note": "Partial: AddHandler, UseGlobal and Any with listed handlers take snapshots (C102_ids, C102_literal_partial). Refuted for Any with a slice: the route keeps the program's own array, so a later append or assignment changes it."
  },
  {
   "property": "C103",
   "status": "proved",
   "theorems": [
    "C103_routes",
    "C103_places",
    "C103_locked",
    "C103_conflict"
   ],
   "note": "Proved for a URLMux used on its own; the server never calls LockWrite or PanicOnExistRouter (see C86)."
  },
  {
   "property": "C104",
   "status": "partial",
   "theorems": [
    "C104_locked_partial",
    "C104_properties_partial",
    "C104_conf",
    "C104_setup_partial",
    "C104_pool_refuted",
    "C104_properties_refuted",
    "C104_start_refuted",
    "C104_late_setup_refuted"
   ],
   "note": "Proved for every program: state and the listeners are never raced; the record list is not raced without Start; what is configured before anything is started and never afterwards is not raced, except the pool when Stop(true) replaces it. Refuted: Stop(true) replaces tcpx.pool while an accept loop reads it; Start reads tcpx.properties without the lock fillProperty holds; Start's loop variable is shared with the goroutines it starts; every configuring call on a running server, for each field it sets (C104_late_setup_refuted)."
  },
  {
   "property": "C105",
   "status": "partial",
   "theorems": [
    "C105_state_partial",
    "C105_tcp_partial",
    "C105_raw_partial",
    "C105_udp_partial",
    "C105_loss_refuted",
    "C105_raw_refuted",
    "C105_background_refuted",
    "C105_udp_pool_refuted",
    "C105_udp_reset_refuted"
   ],
   "note": "Proved: the user state is never raced; on TCP and raw connections no context field is raced without OnHeartbeatLoss and without goroutines of the handlers' own; on datagrams without watchers and Online neither. Refuted: OnHeartbeatLoss copies the context the reader is writing to (TCP and raw); a handler's goroutine that asks for ClientIP; the UDP loop sets poolRef after starting the watchers; Reset replaces PerRequestContext while the UDP heartbeat watcher reads it."
  },
  {
   "property": "C106",
   "status": "partial",
   "theorems": [
    "C106_reset_refuted",
    "C106_after_next_refuted",
    "C106_offset_forever_refuted",
    "C106_offset_twice_refuted",
    "C106_then_abort_partial",
    "C106_direct_partial",
    "C106_same_chain"
   ],
   "note": "refuted: Reset makes the running chain panic with an index out of range once the handler returns (the goroutine does not recover, so the process ends), ResetOffset runs the chain again from its beginning, for ever if it is called each time. Holds if the handler calls Abort after it, and for the heartbeat and auth handlers, which are called without a chain."
  },
  {
   "property": "C107",
   "status": "partial",
   "theorems": [
    "C107_crash_iff_refuted",
    "C107_raw_partial",
    "C107_closed_partial",
    "C107_tcp_refuted",
    "C107_udp_refuted",
    "C107_connect_refuted",
    "C107_loss_refuted"
   ],
   "note": "refuted for handlers, middleware and OnMessage on TCP and UDP (the process ends exactly when one of them panics), for OnConnect (the server stops listening and the connection is never closed) and for OnHeartbeatLoss (the watcher is gone without closing). Holds for raw servers, and for OnClose: the reading goroutine always closes its connection."
  },
  {
   "property": "C108",
   "status": "partial",
   "theorems": [
    "C108_logger_partial",
    "C108_release_refuted",
    "C108_flags_refuted",
    "C108_verb_refuted",
    "C108_texts"
   ],
   "note": "holds for Logger.Println itself. Refuted for the library: every datagram received, accept errors, Stop, Start, BeforeExit, Defer and Debug print in release mode too; SetLogFlags changes nothing; two lines show an unformatted verb."
  },
  {
   "property": "C109",
   "status": "partial",
   "theorems": [
    "C109_packed_passes_partial",
    "C109_wellformed_passes_partial",
    "C109_passes_iff_partial",
    "C109_no_answer_iff_partial",
    "C109_rejects",
    "C109_checks_refuted"
   ],
   "note": "Well-formed and packed streams pass; acceptance and no-answer are characterised exactly. False as stated: trailing bytes, a length field that is too small and bytes missing at the end (when the decoded slice has spare capacity) are accepted, and short streams panic the handler so that no answer is sent."
  },
  {
   "property": "C110",
   "status": "partial",
   "theorems": [
    "C110_encode_is_pack",
    "C110_decode_inverts_partial",
    "C110_documented_bytes",
    "C110_decode_refuted"
   ],
   "note": "Encoders are equal to the library's for all inputs. False of the decoders: negative ids are printed as unsigned numbers and decoding errors are dropped."
  },
  {
   "property": "C111",
   "status": "partial",
   "theorems": [
    "C111_login_guarded",
    "C111_login_answered_partial",
    "C111_same_servers",
    "C111_every_login_answered_refuted"
   ],
   "note": "The guard holds for all bytes and states, and a login request routed by id gets exactly one reply. False in one respect: after a URL-routed message on the same connection login requests are silently dropped (C34)."
  },
  {
   "property": "C112",
   "status": "partial",
   "theorems": [
    "C112_count_partial",
    "C112_count_refuted"
   ],
   "note": "Bounds, monotonicity and the final total hold under every schedule below 2^31 requests. False as stated: unrouted requests are not counted, two requests may be told the same number, and the int32 counter goes negative."
  },
  {
   "property": "C113",
   "status": "partial",
   "theorems": [
    "C113_send_partial",
    "C113_writes_partial",
    "C113_sender_refuted",
    "C113_malformed_refuted",
    "C113_lost_refuted",
    "C113_online_refuted"
   ],
   "note": "One write per request holds when nothing happens between looking up and sending, and every write is explained under every interleaving. False as stated: the sender's name in a delivered message is the receiver's, a request may be lost silently when the user leaves in between, a user still online is reported offline once another connection of that name leaves, and one undecodable request ends the process."
  },
  {
   "property": "C114",
   "status": "proved",
   "theorems": [
    "C114_received",
    "C114_agree",
    "C114_server",
    "C114_packs",
    "C114_not_bytes"
   ],
   "note": "For streams shorter than 2^31 bytes. Packing anything but bytes panics (C114_not_bytes)."
  },
  {
   "property": "C115",
   "status": "proved",
   "theorems": [
    "C115_format",
    "C115_tells_sums_apart"
   ],
   "note": ""
  },
  {
   "property": "C116",
   "status": "partial",
   "theorems": [
    "C116_kept_only_if_signed",
    "C116_signed_first_partial",
    "C116_wrong_first",
    "C116_fields_refuted",
    "C116_undecodable_refuted",
    "C116_deny_after_pass_refuted",
    "C116_valid_client_refuted"
   ],
   "note": "The first claim holds under every interleaving, the others for the message that signals first. False as stated: an undecodable message neither passes nor denies, a wrong message after a right one closes nothing, the signature does not separate the two fields, and the example's ValidClient signs with the wrong secret."
  },
  {
   "property": "C117",
   "status": "partial",
   "theorems": [
    "C117_reads_partial",
    "C117_blocks",
    "C117_stream_ends",
    "C117_short_block",
    "C117_chat_panel",
    "C117_chat_stops",
    "C117_long_refuted",
    "C117_together_refuted",
    "C117_split_refuted",
    "C117_crash_refuted"
   ],
   "note": "holds in full for the FirstBlockOf clients; for the conn.Read clients only when every read starts with a whole message. Refuted otherwise: bodies over 500 bytes are never shown, the second of two joined messages is lost, a cut message shows an empty line and can end the client."
  },
  {
   "property": "C118",
   "status": "partial",
   "theorems": [
    "C118_answers_partial",
    "C118_malformed_refuted",
    "C118_kcp_refuted",
    "C118_heartbeat_refuted"
   ],
   "note": "the replies and middlewares are as documented. Refuted: the kcp goroutine ends the process, an undecodable body panics, and no message resets the heartbeat count."
  },
  {
   "property": "C119",
   "status": "partial",
   "theorems": [
    "C119_linearizable_partial",
    "C119_final_partial",
    "C119_own_connections",
    "C119_overlap_refuted",
    "C119_no_call_is_lost"
   ],
   "note": "Proved under the condition that no connection is given a name while another call on it is going on (in particular when a connection that gets a name from one goroutine is used by no other); without it false: CloseConn overlapping Online of a second name leaves a closed connection registered under both names (C119_overlap_refuted)."
  },
  {
   "property": "C120",
   "status": "partial",
   "theorems": [
    "C120_sent",
    "C120_refused_partial",
    "C120_two_names_refuted",
    "C120_overlap_refuted",
    "C120_closing_refuted"
   ],
   "note": "Sending: proved without condition (C120_sent). Refusing: proved when no connection is given a name while another call on it is going on, the connection found uses one name only, and its socket is not closed meanwhile; each of the three is needed (C120_two_names_refuted, C120_overlap_refuted, C120_closing_refuted)."
  },
  {
   "property": "C121",
   "status": "partial",
   "theorems": [
    "C121_prints_what_came",
    "C121_one_answer_partial",
    "C121_one_answer_refuted",
    "C121_client_prints"
   ],
   "note": "Proved for every segmentation: exactly the bytes sent are printed, in order; one answer for each piece read; the close. \"One answer per message\" is false because Read knows no messages (refuted: joined, long and split messages); it holds when each message arrives in a Read of its own."
  },
  {
   "property": "C122",
   "status": "partial",
   "theorems": [
    "C122_last_handled_partial",
    "C122_presence_partial",
    "C122_lines",
    "C122_order_refuted",
    "C122_empty_name_refuted",
    "C122_shared_name_refuted",
    "C122_new_name_refuted"
   ],
   "note": "The last login or logout to be handled decides (proved for every schedule, when the name is the client's alone), so what was sent decides when goroutines run in order. Refuted otherwise: handlers run out of order; an empty name prints success; a name shared by two clients; a client that changes its name."
  },
  {
   "property": "C123",
   "status": "partial",
   "theorems": [
    "C123_answers",
    "C123_logins_answered_partial",
    "C123_one_token_each",
    "C123_client_shows",
    "C123_token",
    "C123_decodes",
    "C123_mixed_refuted"
   ],
   "note": "Proved: only logins are answered, at most once, with the token; on connections whose messages all ask for patterns exactly the handled logins are answered; one token per message; the client prints each. Refuted: on a connection that also carries a message routed by number the cached router type can leave a login unanswered."
  },
  {
   "property": "C124",
   "status": "proved",
   "theorems": [
    "C124_base64",
    "C124_prints",
    "C124_packs",
    "C124_always_a_line",
    "C124_piped",
    "C124_line_ends"
   ],
   "note": "All of it, with encoding/base64 and the JSON of byte slices modelled concretely; a slice whose packed message reaches 2^31 bytes is outside (C08)."
  },
  {
   "property": "C125",
   "status": "partial",
   "theorems": [
    "C125_beats",
    "C125_kept_partial",
    "C125_noticed",
    "C125_late_refuted"
   ],
   "note": "Kept only while sleep + lateness + latency stay below three intervals; C125_late_refuted shows that at three intervals a client that never misses a heartbeat can be dropped."
  },
  {
   "property": "C126",
   "status": "partial",
   "theorems": [
    "C126_kept",
    "C126_ended",
    "C126_stop_works",
    "C126_stopped",
    "C126_restarted",
    "C126_waiting_served_partial",
    "C126_cut_refuted",
    "C126_too_early_refuted"
   ],
   "note": "Proved for every client the server has accepted, for all dials between Stop and Start, and (with a network that does its part) after Start. Refuted: a client connected but not yet accepted when Stop closes the listener is cut off; a Stop called before the server runs stops nothing. Waiting clients: that one can still be served is proved as the existence of such a run, without fairness."
  },
  {
   "property": "C127",
   "status": "partial",
   "theorems": [
    "C127_use_text_partial",
    "C127_unuse_text_partial",
    "C127_earlier_named",
    "C127_same_effect",
    "C127_offender_refuted"
   ],
   "note": "Proved for every history of registration calls, with panics recovered: a Use (UnUse) panics in callUse (callUnUse) exactly when it meets a key in use (a known key not in use), and the text is, character for character, the two headings with the places of the earlier calls that took effect, oldest first; every such place occurs in the text. Refuted: the misusing call's own place is not in the text (it is recorded after the test). The texts of the other panics come from errorx and are not modelled."
  },
  {
   "property": "C128",
   "status": "proved",
   "theorems": [
    "C128_never_clear",
    "C128_one_message_each",
    "C128_one_login"
   ],
   "note": "Proved for the listening, the reading and the handling; cryptography is not modelled (what one end writes is what the other reads), and the header JSON is that of JsonModel."
  },
  {
   "property": "C129",
   "status": "partial",
   "theorems": [
    "C129_one_record",
    "C129_interchangeable_partial",
    "C129_request_store_refuted"
   ],
   "note": "Proved for all histories: the model with structs and shared pointers is simulated by the model with one record per connection (C129_one_record), so that histories differing only in the context a call is made on cannot be told apart (C129_interchangeable_partial). False for SetCtxPerRequest: on a message's context it stores for the whole connection and can rename the user, on the connection's first context it does not (C129_request_store_refuted)."
  },
  {
   "property": "C130",
   "status": "partial",
   "theorems": [
    "C130_uniform_partial",
    "C130_settled_partial",
    "C130_sources",
    "C130_two_types_refuted",
    "C130_first_decides_partial",
    "C130_alone_scheduled",
    "C130_alone_route"
   ],
   "note": "False: handleMiddleware calls RouterType up to three times and the cache is shared by all messages of the connection, so two first messages of different (known) types can race and one is dropped as of unexpected type (C130_two_types_refuted, for every such pair of messages). Proved: if all messages ask for the same type and the application leaves the key alone, every interleaving routes every message by its own header; once a type is stored it decides for all later messages; without overlap the first message decides; and in general where every value comes from. The one-step view of CtxModel is proved to be the schedule without interference."
  },
  {
   "property": "C131",
   "status": "partial",
   "theorems": [
    "C131_content",
    "C131_lookup",
    "C131_send",
    "C131_close_partial",
    "C131_stale_refuted",
    "C131_nil_refuted",
    "C131_offline",
    "C131_empty",
    "C131_conservative"
   ],
   "note": "Proved: what a pool holds after any history is exactly what the history says (C131_content, C131_lookup), a send by name never reaches a closed connection even through entries the application made itself (C131_send), closing a connection leaves no context under its own name in its own pool (C131_close_partial), Offline through the pool (C131_offline), and without direct calls this is PoolModel (C131_conservative). Refuted: closing leaves entries the application made under another name (C131_stale_refuted), and Offline does not remove a nil entry (C131_nil_refuted). The empty name can be pooled directly (C131_empty)."
  },
  {
   "property": "C132",
   "status": "partial",
   "theorems": [
    "C132_conservative",
    "C132_wrap",
    "C132_wrap_refuted",
    "C132_panics",
    "C132_unchecked_refuted",
    "C132_bare_refuted",
    "C132_by_hand",
    "C132_url_once",
    "C132_locked_partial",
    "C132_locked_any_refuted",
    "C132_leftover_refuted",
    "C132_nil",
    "C132_assign",
    "C132_self",
    "C132_nil_requests"
   ],
   "note": "Proved: in any configuration that passes ListenAndServe's check, a request panics exactly when its id or pattern has handlers but no index (C132_panics; not so for anchors added after the check, C132_unchecked_refuted); AddHandleFunc with CurrentAnchorIndex and AddMessageIDAnchor is AddHandler (C132_by_hand); a pattern registered through the mux runs its handlers once (C132_url_once); while AllowAdd is false no id gets a handler (C132_locked_partial); what each call does with a nil Mux (C132_nil); what AddMessageIDSelfMiddleware does, and that followed by AddHandler it is AddHandler with middlewares (C132_self); below 2^31 - 2 calls this is MuxModel (C132_conservative). Refuted: handlers registered with AddHandleFunc or Mux.Any alone make requests panic (C132_bare_refuted); after 2^31 indices a middleware in use is skipped (C132_wrap, C132_wrap_refuted); with AllowAdd false Any registers two or more handlers and silently drops one (C132_locked_any_refuted), and a refused AddHandler leaves its middlewares behind (C132_leftover_refuted). While a server has no mux every routable request panics (C132_nil_requests)."
  },
  {
   "property": "C133",
   "status": "partial",
   "theorems": [
    "C133_pack",
    "C133_received_partial",
    "C133_high_id_refuted",
    "C133_negative_refuted",
    "C133_unpack",
    "C133_negative_back_refuted",
    "C133_roundtrip",
    "C133_cut",
    "C133_cut_refuted",
    "C133_exchange_partial",
    "C133_recv",
    "C133_reply_refuted",
    "C133_closed_refuted",
    "C133_nil_body_refuted",
    "C133_short_send_refuted",
    "C133_extends"
   ],
   "note": "packing (C133_pack), reading on the Go side for ids below 2^31 (C133_received_partial), unpacking of every frame with anything behind it (C133_unpack), the round trip (C133_roundtrip), what unpack makes of a cut frame (C133_cut) and an exchange with a reply of at most 1024 bytes in one segment (C133_exchange_partial) hold. False: ids from 2^31 on arrive as negative ones; negative ids cannot be sent and come back with 2^32 added; cut data is taken for another message where the Go side reports an error; replies over 1024 bytes or in two segments are cut, of two replies the second is lost; a closed connection is a message with id 0 to the protobuf client; a reply without a body makes the json client raise; what send does not take is never sent. The packing and unpacking agree with the functions of C66 (C133_extends)."
  },
  {
   "property": "C134",
   "status": "partial",
   "theorems": [
    "C134_utf8",
    "C134_reads",
    "C134_one_reading",
    "C134_writes",
    "C134_handed_on",
    "C134_roundtrip",
    "C134_any_text_refuted",
    "C134_together"
   ],
   "note": "Reading and writing are characterised exactly (C134_reads, C134_writes) with UTF-8 as Unicode defines it (C134_utf8); a reading is unique (C134_one_reading), a message read can be handed on (C134_handed_on), UTF-8 text survives the round trip (C134_roundtrip), concatenated messages merge (C134_together). False: a Go string that is not UTF-8 cannot be packed (C134_any_text_refuted)."
  },
  {
   "property": "C135",
   "status": "partial",
   "theorems": [
    "C135_answered",
    "C135_received",
    "C135_outlives_refuted",
    "C135_sent",
    "C135_exchange",
    "C135_python_json_partial",
    "C135_python_protobuf_partial",
    "C135_text"
   ],
   "note": "The server's answers are exact: one frame per accepted message, none for refused or unknown ones (C135_answered); the Go client's block is accepted and handled once per copy (C135_sent), what it shows for any cut of the answers is exact (C135_received), and so is the whole exchange (C135_exchange). For the Python client with a reply in one piece: C135_python_json_partial, C135_python_protobuf_partial (replies in two pieces are cut, C133). False: the Go client ends in a panic when the connection ends (C135_outlives_refuted; after about 15 s without heartbeats the server closes it, C118_heartbeat_refuted). Which bodies are accepted is said without the decoder in C135_text."
  },
  {
   "property": "C136",
   "status": "partial",
   "theorems": [
    "C136_any_client",
    "C136_posted",
    "C136_passes_partial",
    "C136_protobuf",
    "C136_last_counts",
    "C136_rejects",
    "C136_no_object",
    "C136_keys"
   ],
   "note": "Proved for the Go client and for any client whose JSON members are written as JsonModel writes them (ASCII keys, integers); the body formats are parameters with a round-trip hypothesis except protobuf, which is ProtoModel. A []byte written as an array of numbers is not modelled. A name given twice is no error, the last counts (C136_last_counts). Which keys count, for keys of any bytes: C136_keys. No theorem says that bytes after the object are refused (only the Example C136_case does), nor what a null stream does to a stream read before it: mutants PO15 and PO18 survive."
  },
  {
   "property": "C137",
   "status": "partial",
   "theorems": [
    "C137_same_routes",
    "C137_never_refused",
    "C137_handlers",
    "C137_recorded_partial",
    "C137_places_refuted"
   ],
   "note": "Routes, handlers and that nothing is refused are proved for all histories. That the record names the application's place is false: runtime.Caller(1) in AddURLPatternHandler is the library's own tcpx.go:351 or mux.go:74 (C137_recorded_partial, C137_places_refuted)."
  },
  {
   "property": "C138",
   "status": "partial",
   "theorems": [
    "C138_jobs_partial",
    "C138_exits",
    "C138_port_refuted",
    "C138_accept_refuted"
   ],
   "note": "Order, completeness at os.Exit and that signals can still end it are proved for all interleavings without SIGKILL. False when main returns: a failed Listen (C138_port_refuted) or a single failed Accept (C138_accept_refuted) ends the process without the jobs, since main drops the result of ListenAndServe; before the goroutine has begun a signal ends it too (C97)."
  },
  {
   "property": "C139",
   "status": "partial",
   "theorems": [
    "C139_each_answer",
    "C139_batch",
    "C139_waiting",
    "C139_read",
    "C139_ends",
    "C139_any_order_refuted"
   ],
   "note": "Proved in every interleaving: each message is answered by exactly its own blocks in their order (C139_each_answer), and no schedule goes on for ever: each can be carried on until everything is answered (C139_ends). The order of messages is kept within a batch (C139_batch) and for a client that waits for the answers to each message before sending the next (C139_waiting, at the client's reader C139_read). False otherwise: without waiting every interleaving of the answers can occur (C139_any_order_refuted). Writes that fail are not in the model."
  },
  {
   "property": "C140",
   "status": "partial",
   "theorems": [
    "C140_each",
    "C140_all",
    "C140_ends",
    "C140_order",
    "C140_read",
    "C140_order_refuted"
   ],
   "note": "Proved in every interleaving: each receiver gets, for each message, exactly the blocks its handlers have for it, in their order (C140_each), in the end everything and nothing else, each once (C140_all, C140_ends); a peer reading block by block gets exactly what was written to it (C140_read). The order between messages is kept within a batch and for a sender that waits (C140_order). False otherwise: of two messages sent without waiting the second may arrive first (C140_order_refuted). Writes are taken to succeed."
  }
 ]
}