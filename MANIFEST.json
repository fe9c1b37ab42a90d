{
 "claims": [
  {
   "property": "C01",
   "status": "proved",
   "theorems": [
    "C01_is_set",
    "C01_set",
    "C01_clear",
    "C01_from_indices",
    "C01_to_indices",
    "C01_constants",
    "C01_contains_total_refuted"
   ],
   "note": "All clauses for every 64-bit mask and every index. Finding: ModuleId::contains does not check its index; for 64 and above the shift overflows (panic in checked builds)."
  },
  {
   "property": "C02",
   "status": "proved",
   "theorems": [
    "C02_set_algebra",
    "C02_extensional"
   ],
   "note": ""
  },
  {
   "property": "C03",
   "status": "proved",
   "theorems": [
    "C03_filter",
    "C03_remove",
    "C03_keep"
   ],
   "note": ""
  },
  {
   "property": "C04",
   "status": "proved",
   "theorems": [
    "C04_merge"
   ],
   "note": ""
  },
  {
   "property": "C05",
   "status": "proved",
   "theorems": [
    "C05_header_roundtrip",
    "C05_message_roundtrip"
   ],
   "note": "The hubpack format itself (external crate) is modelled, see DESIGN.md."
  },
  {
   "property": "C06",
   "status": "proved",
   "theorems": [
    "C06_header_canonical",
    "C06_message_canonical",
    "C06_message_prefix_free",
    "C06_header_prefix_free"
   ],
   "note": ""
  },
  {
   "property": "C07",
   "status": "proved",
   "theorems": [
    "C07_packet_fits",
    "C07_sizes"
   ],
   "note": "The bound is attained: C07_witness_attained."
  },
  {
   "property": "C08",
   "status": "proved",
   "theorems": [
    "C08_read",
    "C08_write"
   ],
   "note": ""
  },
  {
   "property": "C09",
   "status": "partial",
   "theorems": [
    "C09_sff",
    "C09_cmis_banked",
    "C09_tell",
    "C09_cmis_unbanked_refuted",
    "C09_cmis_unbanked_partial"
   ],
   "note": "Finding: cmis UpperPage::new_unbanked never checks is_valid_page, so undefined page numbers are accepted. The other two constructors are exact."
  },
  {
   "property": "C10",
   "status": "partial",
   "theorems": [
    "C10_constructors_partial",
    "C10_wire_refuted"
   ],
   "note": "Finding: the derived Deserialize of MemoryRead/MemoryWrite/UpperPage performs no validation, so a peer can make the host hold an invalid operation. Constructed values are valid."
  },
  {
   "property": "C11",
   "status": "proved",
   "theorems": [
    "C11_mac_range"
   ],
   "note": ""
  },
  {
   "property": "C12",
   "status": "partial",
   "theorems": [
    "C12_reasons",
    "C12_span_refuted",
    "C12_span_partial"
   ],
   "note": "Finding: MacAddrs::new tests base+count*stride (one past the last address), so a range ending exactly at the end of its OUI is rejected."
  },
  {
   "property": "C13",
   "status": "partial",
   "theorems": [
    "C13_hw_errors_partial",
    "C13_known_codes",
    "C13_count_refuted"
   ],
   "note": "Finding: DeserializedErrors::new decodes every byte of the buffer, not one per failed module; exact when the buffer has the announced size (which the I/O loop guarantees)."
  },
  {
   "property": "C54",
   "status": "proved",
   "theorems": [
    "C54_conversion",
    "C54_status_text",
    "C54_ext_status_text"
   ],
   "note": "The bitflags crate's text format is modelled, see DESIGN.md."
  },
  {
   "property": "C55",
   "status": "partial",
   "theorems": [
    "C55_response_sizes",
    "C55_write_request_refuted",
    "C55_write_request_partial"
   ],
   "note": "Finding: HostRequest::expected_data_len multiplies the write length by the number of modules although the host sends the data once."
  },
  {
   "property": "C14",
   "status": "proved",
   "theorems": [
    "C14_reads_tile",
    "C14_writes_tile",
    "C14_rejects",
    "C14_no_panic"
   ],
   "note": ""
  },
  {
   "property": "C15",
   "status": "partial",
   "theorems": [
    "C15_reads",
    "C15_writes_refuted",
    "C15_writes_partial",
    "C15_sff_writes_fail"
   ],
   "note": "Finding: the split size for SFF-8636 writes is 64 but one SFF-8636 write may move at most 4 bytes, so build_many fails for every SFF write longer than 4 bytes."
  },
  {
   "property": "C16",
   "status": "proved",
   "theorems": [
    "C16_merge"
   ],
   "note": ""
  },
  {
   "property": "C17",
   "status": "proved",
   "theorems": [
    "C17_append"
   ],
   "note": ""
  },
  {
   "property": "C18",
   "status": "proved",
   "theorems": [
    "C18_merge",
    "C18_nth",
    "C18_success"
   ],
   "note": ""
  },
  {
   "property": "C44",
   "status": "partial",
   "theorems": [
    "C44_tables",
    "C44_datapath_states",
    "C44_ethernet_refuted",
    "C44_ethernet_partial",
    "C44_ethernet_exact"
   ],
   "note": "Finding: the text of an unnamed EthernetComplianceCode does not parse back. All other tables are lossless."
  },
  {
   "property": "C45",
   "status": "partial",
   "theorems": [
    "C45_roundtrip",
    "C45_rejects_refuted",
    "C45_rejects_partial"
   ],
   "note": "Finding: a plus sign is accepted in front of each octet."
  },
  {
   "property": "C19",
   "status": "proved",
   "theorems": [
    "C19_answers",
    "C19_once"
   ],
   "note": "Over every event history of the loop model; a crashed loop (C25) may leave its one request unanswered."
  },
  {
   "property": "C20",
   "status": "proved",
   "theorems": [
    "C20_sound",
    "C20_complete"
   ],
   "note": ""
  },
  {
   "property": "C21",
   "status": "partial",
   "theorems": [
    "C21_partial",
    "C21_refuted"
   ],
   "note": "Finding: a foreign SP-response header without a body stops the loop (see C25). Everything else in the claim is proved for every datagram with another id."
  },
  {
   "property": "C22",
   "status": "proved",
   "theorems": [
    "C22_transmissions",
    "C22_packet"
   ],
   "note": ""
  },
  {
   "property": "C23",
   "status": "proved",
   "theorems": [
    "C23_answered",
    "C23_silence"
   ],
   "note": ""
  },
  {
   "property": "C24",
   "status": "proved",
   "theorems": [
    "C24_faults"
   ],
   "note": ""
  },
  {
   "property": "C25",
   "status": "partial",
   "theorems": [
    "C25_refuted",
    "C25_partial",
    "C25_exact",
    "C25_handler",
    "C25_orphan"
   ],
   "note": "Finding: handle_sp_response indexes rx_buf[0] when the message does not decode; an SP-response header followed by nothing panics the I/O task while a request is in flight. All other datagrams are survived (with a live handler and a waiting caller); C25_exact gives the three ways a datagram can stop the loop."
  },
  {
   "property": "C26",
   "status": "proved",
   "theorems": [
    "C26_ids",
    "C26_own_response"
   ],
   "note": ""
  },
  {
   "property": "C27",
   "status": "partial",
   "theorems": [
    "C27_kind_refuted",
    "C27_response_refuted",
    "C27_partial",
    "C27_response_partial"
   ],
   "note": "Findings: the error sent for a HostRequest/HostResponse datagram reuses the received header, so its kind is not Error; send_outgoing_response writes no header at all."
  },
  {
   "property": "C28",
   "status": "proved",
   "theorems": [
    "C28_split"
   ],
   "note": ""
  },
  {
   "property": "C29",
   "status": "proved",
   "theorems": [
    "C29_read"
   ],
   "note": "over every SP given by per-module verdicts and state changes"
  },
  {
   "property": "C30",
   "status": "partial",
   "theorems": [
    "C30_partial",
    "C30_refuted"
   ],
   "note": "all but one clause proved; data of the wrong length is rejected only after the identifier read was sent, so that clause is refuted"
  },
  {
   "property": "C31",
   "status": "proved",
   "theorems": [
    "C31_check",
    "C31_gate",
    "C29_read",
    "C30_partial"
   ],
   "note": "C31_gate is the gating of reads and writes for any SP; C29_read and C30_partial have, for an honest one, that the port named is the lowest"
  },
  {
   "property": "C32",
   "status": "proved",
   "theorems": [
    "C32_status",
    "C32_extended_status",
    "C32_leds",
    "C32_identifier",
    "C32_ack",
    "C32_macs"
   ],
   "note": ""
  },
  {
   "property": "C33",
   "status": "partial",
   "theorems": [
    "C33_crashes",
    "C33_wrong_kind_partial",
    "C33_no_crash_partial",
    "C33_leds_refuted",
    "C33_extended_status_refuted",
    "C33_read_refuted"
   ],
   "note": "wrong kinds of response give an error and sane replies never crash; out-of-range LED and extended-status values and read answers of another length panic (refuted); C33_crashes says for every request exactly which passed-on answers crash it"
  },
  {
   "property": "C34",
   "status": "proved",
   "theorems": [
    "C34_reset"
   ],
   "note": ""
  },
  {
   "property": "C35",
   "status": "partial",
   "theorems": [
    "C35_partial",
    "C35_errors",
    "C40_unsupported_refuted",
    "C40_swapped_refuted"
   ],
   "note": "modes, the failed set and the error each failed module is given are exact when all readable modules are of supported kinds (C35_errors: it is its own error if and only if failing modules are met in port order); false otherwise"
  },
  {
   "property": "C36",
   "status": "proved",
   "theorems": [
    "C36_power_off"
   ],
   "note": ""
  },
  {
   "property": "C37",
   "status": "proved",
   "theorems": [
    "C37_high_refused",
    "C37_only_off"
   ],
   "note": ""
  },
  {
   "property": "C38",
   "status": "partial",
   "theorems": [
    "C38_exact",
    "C38_reports",
    "C38_kinds",
    "C38_on_partial",
    "C38_raise_partial",
    "C38_override_refuted",
    "C38_mixed_refuted",
    "C38_kinds_refuted",
    "C38_both_refuted"
   ],
   "note": "false as stated (override, mixed on/off, mixed kinds, refused power-up). For modules of one kind in any mixture of states: the requests sent, the modules reported as done and as failed, and exactly which modules are reported twice or not at all. Several kinds at once without override: only the kind with the lowest code is written to and nothing is reported as done (C38_kinds)"
  },
  {
   "property": "C39",
   "status": "proved",
   "theorems": [
    "C39_words",
    "C39_written"
   ],
   "note": "the CMIS word goes to an SFF-8636 page value (same bytes on the lower page)"
  },
  {
   "property": "C40",
   "status": "partial",
   "theorems": [
    "C40_partial",
    "C40_errors",
    "C40_unsupported_refuted",
    "C40_swapped_refuted"
   ],
   "note": "false as stated: an unsupported kind fails the call, and errors are given to other modules. Values, failed set and the error each failed module is given are exact (C40_errors: its own if and only if failing modules are met in port order, for errors that name the module)"
  },
  {
   "property": "C41",
   "status": "proved",
   "theorems": [
    "C41_reads",
    "C41_unsupported"
   ],
   "note": "All five decoders, all identifiers."
  },
  {
   "property": "C42",
   "status": "partial",
   "theorems": [
    "C42_panics_partial",
    "C42_memory_refuted",
    "C42_monitors_refuted",
    "C42_datapath_refuted",
    "C42_unlisted_refuted"
   ],
   "note": "False as stated. Exact set of memories on which each decoder panics: CMIS reserved bank code, reserved bias scale, media type outside 1-5, lane assigned to an unlisted application."
  },
  {
   "property": "C43",
   "status": "proved",
   "theorems": [
    "C43_vendor",
    "C43_vendor_unique",
    "C43_ascii",
    "C43_blanks"
   ],
   "note": "Non-ASCII bytes: longest valid UTF-8 prefix."
  },
  {
   "property": "C46",
   "status": "partial",
   "theorems": [
    "C46_memory_partial",
    "C46_memory_refuted",
    "C46_pages_defined"
   ],
   "note": "All memories except paged CMIS modules with the reserved bank code, which panic."
  },
  {
   "property": "C47",
   "status": "partial",
   "theorems": [
    "C47_temperature",
    "C47_voltage_partial",
    "C47_power_partial",
    "C47_bias_partial",
    "C47_bias_scaled_partial",
    "C47_tec_partial",
    "C47_rounding_refuted",
    "C47_tec_refuted",
    "C47_tec_never_negative",
    "C47_temperature_monotone",
    "C47_voltage_monotone",
    "C47_power_monotone",
    "C47_bias_monotone",
    "C47_bias_scaled_monotone"
   ],
   "note": "Temperature exact; others within 2^-22 relative, strictly monotone. Correct rounding is false (several roundings), and cooler current is decoded unsigned."
  },
  {
   "property": "C48",
   "status": "partial",
   "theorems": [
    "C48_sff",
    "C48_cmis_partial",
    "C48_custom_refuted",
    "C48_empty_refuted"
   ],
   "note": "SFF-8636 full. CMIS: every monitor exact, but the auxiliary group is gated by bits 0-4 instead of 2-5, and reserved bias scale panics."
  },
  {
   "property": "C49",
   "status": "partial",
   "theorems": [
    "C49_sff",
    "C49_cmis_partial",
    "C49_state_refuted",
    "C49_supported_refuted",
    "C49_reserved_refuted",
    "C49_fails_refuted"
   ],
   "note": "SFF-8636 full. CMIS: all flags and lanes exact, but the datapath state comes from the neighbouring lane's nibble, and the supported lanes are read from page 00h byte 209 instead of 210, and reserved state codes 8-15 are reported as defined states."
  },
  {
   "property": "C50",
   "status": "partial",
   "theorems": [
    "C50_default",
    "C50_explicit_partial",
    "C50_one_address",
    "C50_explicit_refuted",
    "C50_tool",
    "C50_settings"
   ],
   "note": "Default address, defaults and errors full. Finding: an explicit address is compared only with the first IPv6 address of the interface."
  },
  {
   "property": "C51",
   "status": "proved",
   "theorems": [
    "C51_ports",
    "C51_words",
    "C51_never_panics"
   ],
   "note": "Unicode lower-casing outside ASCII is a parameter with stated assumptions."
  },
  {
   "property": "C52",
   "status": "partial",
   "theorems": [
    "C52_number",
    "C52_load",
    "C52_no_panic",
    "C52_autodetect_partial",
    "C52_autodetect_refuted",
    "C52_autodetect_panics",
    "C52_decimal",
    "C52_round_trip_partial",
    "C52_cut_refuted",
    "C52_hex_refuted",
    "C52_raw",
    "C52_source"
   ],
   "note": "Loading is characterised exactly. Findings: autodetection slices the first two bytes and panics on one-byte input; text is cut at 512 bytes, silently changing long binary data and rejecting or cutting more than 102 hexadecimal bytes."
  },
  {
   "property": "C53",
   "status": "partial",
   "theorems": [
    "C53_partial",
    "C53_nothing",
    "C53_table",
    "C53_failures",
    "C53_page",
    "C53_refuted"
   ],
   "note": "Exact in every case. Finding: a module failing in an operation before the last panics the tool (append(..).unwrap())."
  },
  {
   "property": "C56",
   "status": "partial",
   "theorems": [
    "C56_all",
    "C56_ports",
    "C56_present",
    "C56_kind",
    "C56_power_partial",
    "C56_power_refuted"
   ],
   "note": "All words full except power states, which fail when any readable module is of an unsupported kind."
  },
  {
   "property": "C57",
   "status": "partial",
   "theorems": [
    "C57_status",
    "C57_fallback",
    "C57_normal",
    "C57_flags",
    "C57_test_partial",
    "C57_test",
    "C57_test_refuted",
    "C57_empty_refuted",
    "C57_all_lines",
    "C57_all_head"
   ],
   "note": "Findings: --without with several flags means not all of them; an empty --with/--without panics."
  },
  {
   "property": "C58",
   "status": "proved",
   "theorems": [
    "C58_write",
    "C58_refused",
    "C58_nothing",
    "C58_page",
    "C53_page",
    "C52_source"
   ],
   "note": ""
  },
  {
   "property": "C59",
   "status": "proved",
   "theorems": [
    "C59_delivery",
    "C59_progress"
   ],
   "note": "Ids pairwise distinct (C26); answers fit one datagram and are SP responses (polite)."
  },
  {
   "property": "C60",
   "status": "proved",
   "theorems": [
    "C60_lossy"
   ],
   "note": ""
  },
  {
   "property": "C61",
   "status": "proved",
   "theorems": [
    "C61_wired",
    "C61_read"
   ],
   "note": "SP whose answer does not depend on its state nor on request data bytes (data_blind), fewer than 2^64 requests."
  },
  {
   "property": "C62",
   "status": "proved",
   "theorems": [
    "C62_queries",
    "C62_write",
    "C62_power",
    "C62_reset",
    "C62_pins",
    "C62_asks"
   ],
   "note": ""
  },
  {
   "property": "C63",
   "status": "proved",
   "theorems": [
    "C63_confined",
    "C63_scoped",
    "C63_unchecked"
   ],
   "note": "The condition on the SP is needed: the code does not compare the answer's modules with the request's."
  },
  {
   "property": "C64",
   "status": "partial",
   "theorems": [
    "C64_vendor",
    "C64_memory_partial",
    "C64_monitors_partial",
    "C64_datapath_partial",
    "C64_crash_refuted"
   ],
   "note": "Vendor information full. False for the others as stated: one module with undecodable memory (reserved bank code, reserved bias scale, unknown media type, unlisted application) panics the query for all modules; and C49's swapped state nibbles."
  },
  {
   "property": "C65",
   "status": "partial",
   "theorems": [
    "C65_power",
    "C65_power_lines",
    "C65_ident",
    "C65_ident_lines",
    "C65_led",
    "C65_led_lines",
    "C65_read",
    "C65_memory",
    "C65_vendor_partial",
    "C65_newline_refuted",
    "C65_separator_refuted",
    "C65_macs",
    "C65_macs_summary",
    "C65_names",
    "C65_status_names"
   ],
   "note": "Full except vendor information, where a line feed or separator in a module's vendor strings is printed raw and makes the output ambiguous."
  },
  {
   "property": "C66",
   "status": "partial",
   "theorems": [
    "C66_monitors_partial",
    "C66_bias_refuted",
    "C66_average_refuted",
    "C66_names"
   ],
   "note": "Proved for every memory except CMIS memories with the reserved bias scale (panic, C64). False as stated: with scale 4 the last digit of a bias current can be one too small, and the parseable field average-rx-power also shows peak-to-peak power."
  },
  {
   "property": "C67",
   "status": "partial",
   "theorems": [
    "C67_datapath_partial",
    "C67_state_refuted",
    "C67_lanes_refuted"
   ],
   "note": "SFF-8636 full. CMIS: everything but the state row (swapped nibbles, C49) and the supported lanes (wrong byte, C49), for memories that can be decoded (C64). Table layout by the tabled crate is not modelled."
  },
  {
   "property": "C68",
   "status": "proved",
   "theorems": [
    "C68_privilege",
    "C68_scope",
    "C68_unaddressed"
   ],
   "note": ""
  },
  {
   "property": "C69",
   "status": "proved",
   "theorems": [
    "C69_pins",
    "C69_reset",
    "C69_power_off",
    "C69_power_on",
    "C69_write"
   ],
   "note": "For power states other than off, C69_power_on relates the printed errors to the call's result; what that result is, is C38."
  },
  {
   "property": "C70",
   "status": "partial",
   "theorems": [
    "C70_leds",
    "C70_identify",
    "C70_status",
    "C70_status_form",
    "C70_read_empty",
    "C70_vendor",
    "C70_macs",
    "C70_power_partial",
    "C70_read_partial",
    "C70_memory_partial",
    "C70_monitors_partial",
    "C70_datapath_partial",
    "C70_crash_refuted"
   ],
   "note": "LEDs, identifiers, status, vendor information (supported modules) and MAC addresses full. The others need what C40, C53 and C64 need: errors arise in the same order for all modules, and decodable memories."
  },
  {
   "property": "C71",
   "status": "proved",
   "theorems": [
    "C71_asked",
    "C71_listed",
    "C71_all_good",
    "C71_success",
    "C71_ack",
    "C71_equal"
   ],
   "note": ""
  },
  {
   "property": "C72",
   "status": "proved",
   "theorems": [
    "C72_request",
    "C72_response",
    "C72_error",
    "C72_received",
    "C72_sent",
    "C72_kind"
   ],
   "note": "hubpack's encoding scheme is trusted (DESIGN.md)."
  },
  {
   "property": "C73",
   "status": "partial",
   "theorems": [
    "C73_hardware",
    "C73_codes",
    "C73_module_partial",
    "C73_module_refuted",
    "C73_body",
    "C73_call_partial",
    "C73_call_refuted"
   ],
   "note": "Findings: an error of the management interface met while decoding prints as 'Management error' only; the errors for a bad interface and for a read past the end drop the name and the number (the latter prints the words '<the value>'). All other errors are told apart by their text. The derived Debug text of an unexpected reply is modelled and tells replies apart (C73_body); the text of an I/O error is not modelled."
  },
  {
   "property": "C74",
   "status": "partial",
   "theorems": [
    "C74_set_power",
    "C74_told",
    "C74_others",
    "C74_done_refuted"
   ],
   "note": "Full for modules reported as done and not as failed. Without the second condition it is false: a module that refused to be powered is reported as both (C38)."
  },
  {
   "property": "C75",
   "status": "proved",
   "theorems": [
    "C75_told",
    "C75_decoded",
    "C75_query",
    "C75_quiet"
   ],
   "note": "Datapaths with the deviations of C49."
  },
  {
   "property": "C76",
   "status": "proved",
   "theorems": [
    "C76_write",
    "C76_read_back",
    "C76_led",
    "C76_pins",
    "C76_reset"
   ],
   "note": ""
  },
  {
   "property": "C77",
   "status": "proved",
   "theorems": [
    "C77_simple",
    "C77_read",
    "C77_write",
    "C77_query",
    "C77_power",
    "C77_set_power"
   ],
   "note": ""
  },
  {
   "property": "C78",
   "status": "proved",
   "theorems": [
    "C78_calls",
    "C78_one",
    "C78_mixed",
    "C78_own",
    "C78_alone",
    "C78_read"
   ],
   "note": ""
  },
  {
   "property": "C79",
   "status": "proved",
   "theorems": [
    "C79_end",
    "C79_alive",
    "C79_lawful",
    "C79_while_running"
   ],
   "note": ""
  },
  {
   "property": "C80",
   "status": "proved",
   "theorems": [
    "C80_requests",
    "C80_queries",
    "C80_honest"
   ],
   "note": ""
  },
  {
   "property": "C81",
   "status": "partial",
   "theorems": [
    "C81_names_partial",
    "C81_kinds_partial",
    "C81_read_partial",
    "C81_tables",
    "C81_ethernet",
    "C81_states",
    "C81_identifier_refuted",
    "C81_connector_refuted",
    "C81_cable_refuted",
    "C81_custom_refuted"
   ],
   "note": "Holds for every code but those listed in standards: identifier 0x19, connectors 0x75 to 0x7f, compliance codes 0x2d, 0x2e, 0x30 to 0x35, host interfaces 0xc0 to 0xcd; the exceptions are exact. The standard's tables are written from memory of SFF-8024 rev 4.10 in the tool's wording."
  },
  {
   "property": "C82",
   "status": "partial",
   "theorems": [
    "C82_roundtrip",
    "C82_ext_roundtrip",
    "C82_read",
    "C82_ext_read_partial",
    "C82_ext_read_truncates",
    "C82_ext_read_refuted"
   ],
   "note": "ExtendedStatus read from a u64, as from JSON, drops undefined bits instead of rejecting them."
  },
  {
   "property": "C83",
   "status": "partial",
   "theorems": [
    "C83_vendor",
    "C83_monitors",
    "C83_datapath_partial",
    "C83_datapath_exact",
    "C83_datapath_lost",
    "C83_datapath_refuted",
    "C83_paths",
    "C83_readers",
    "C83_picky",
    "C83_power",
    "C83_power_reader",
    "C83_led"
   ],
   "note": "The datapath of an SFF-8636 module whose compliance byte is not one single bit is written as Unknown (0x..) and cannot be read back; it is the only exception. JSON texts are modelled by their trees."
  },
  {
   "property": "C84",
   "status": "proved",
   "theorems": [
    "C84_pace",
    "C84_patience",
    "C84_bound",
    "C84_start",
    "C84_start_refuted"
   ],
   "note": "The interval zero, which Config and its builder accept, makes Controller::new panic (C84_start_refuted)."
  },
  {
   "property": "C85",
   "status": "proved",
   "theorems": [
    "C85_calls",
    "C85_tool"
   ],
   "note": ""
  },
  {
   "property": "C86",
   "status": "proved",
   "theorems": [
    "C86_setup",
    "C86_tool"
   ],
   "note": "A retry interval of zero, which the tool's command line rejects, panics (C84_start_refuted)."
  },
  {
   "property": "C87",
   "status": "partial",
   "theorems": [
    "C87_accepted",
    "C87_unreachable",
    "C87_options",
    "C87_names",
    "C87_letters_partial",
    "C87_letters_refuted"
   ],
   "note": "Finding: -p of read-upper is declared both for --page and for --parseable, so letters are unique everywhere but there. How clap reads the attributes is assumed (Clap.v)."
  },
  {
   "property": "C88",
   "status": "proved",
   "theorems": [
    "C88_queries",
    "C88_power",
    "C88_tool",
    "C88_tool_power"
   ],
   "note": "Says exactly when the crashes of C42 and C64 happen."
  },
  {
   "property": "C89",
   "status": "partial",
   "theorems": [
    "C89_status",
    "C89_extended",
    "C89_shown",
    "C89_title",
    "C89_strange",
    "C89_defined_refuted"
   ],
   "note": "The last sentence is false: hexadecimal numbers may set bits no flag defines, which no module has (C89_defined_refuted, C89_strange). The parser is the bitflags crate's, as modelled in StatusText.v."
  },
  {
   "property": "C90",
   "status": "partial",
   "theorems": [
    "C90_order",
    "C90_capacity",
    "C90_acts",
    "C90_hears",
    "C90_return_partial",
    "C90_drained_partial",
    "C90_count",
    "C90_few",
    "C90_replies_first",
    "C90_forever",
    "C90_reached",
    "C90_answer_refuted"
   ],
   "note": "The claim that the handler cannot keep a caller from being answered is false: with the capacities of the tool, four datagrams of the SP-request kind can leave both tasks waiting for ever (C90_answer_refuted; for any capacities, C90_reached). Everything else is proved for all states; C90_return_partial and C90_drained_partial leave out only the stuck state."
  },
  {
   "property": "C91",
   "status": "proved",
   "theorems": [
    "C91_calls",
    "C91_ends",
    "C91_returns",
    "C91_silent"
   ],
   "note": "For one call at a time (C92 is for several); the model of time is TimedLoop.v's and TimedCall.v's."
  },
  {
   "property": "C92",
   "status": "proved",
   "theorems": [
    "C92_calls",
    "C92_crowd",
    "C92_turn",
    "C92_ends",
    "C92_returns"
   ],
   "note": "Calls may be given up; the bound is for those that are not. The channel of one place and its fair senders are modelled in TimedCalls.v."
  },
  {
   "property": "C93",
   "status": "partial",
   "theorems": [
    "C93_refuted",
    "C93_partial",
    "C93_plain",
    "C93_lost",
    "C93_left",
    "C93_stops",
    "C93_panics"
   ],
   "note": "False as stated (C93_refuted): answering a caller that is gone panics the I/O task. C93_partial and C93_plain: true when calls are given up only while their requests are neither in the channel nor with the task. C93_lost, C93_left, C93_stops and C93_panics say exactly what happens otherwise."
  },
  {
   "property": "C94",
   "status": "proved",
   "theorems": [
    "C94_run",
    "C94_stops",
    "C94_status",
    "C94_time",
    "C94_returns",
    "C94_network",
    "C94_ends",
    "C94_lawful",
    "C94_waits"
   ],
   "note": "The set-up of the tool (C86) and the option rules (C87) come before; the dummy handler of SP requests is C90."
  },
  {
   "property": "C95",
   "status": "proved",
   "theorems": [
    "C95_calls",
    "C95_tool",
    "C95_ends",
    "C95_few",
    "C95_replies_first",
    "C95_returns",
    "C95_as_alone",
    "C95_order",
    "C95_jam",
    "C95_always_refuted"
   ],
   "note": "The condition that the two never wait for each other cannot be left out (C95_always_refuted, C90)."
  },
  {
   "property": "C96",
   "status": "proved",
   "theorems": [
    "C96_once",
    "C96_call",
    "C96_memory",
    "C96_remembered",
    "C96_setting",
    "C96_effects",
    "C96_order_refuted"
   ],
   "note": "The order of datagrams cannot be left out (C96_order_refuted). The SP is the environment; C96_memory and C96_setting say which SPs qualify."
  },
  {
   "property": "C97",
   "status": "partial",
   "theorems": [
    "C97_requests_partial",
    "C97_off",
    "C97_reset",
    "C97_back_power",
    "C97_network",
    "C97_requests_refuted",
    "C97_concurrent_refuted"
   ],
   "note": "Missing: that modules which refuse a request get power in reset only and leave reset with LPMode as asked; false (C97_requests_refuted). For calls at the same time nothing of this holds (C97_concurrent_refuted)."
  },
  {
   "property": "C98",
   "status": "partial",
   "theorems": [
    "C98_done_partial",
    "C98_told",
    "C98_others",
    "C98_named",
    "C98_all_named_partial",
    "C98_status",
    "C98_status_old",
    "C98_power_rows",
    "C98_led_rows",
    "C98_ident_rows",
    "C98_model_rows",
    "C98_vendor_rows",
    "C98_read_rows",
    "C98_status_rows",
    "C98_network",
    "C98_done_refuted",
    "C98_kinds_refuted",
    "C98_all_named_refuted"
   ],
   "note": "Missing: modules set to low or high power together of which some are on and some off, or which are of several kinds, false (C98_done_refuted, C98_kinds_refuted, cf. C38); naming a module the SP reports an error for when choosing, false (C98_all_named_refuted). The clearing of faults is not about what SpecLive's modules hold."
  },
  {
   "property": "C99",
   "status": "partial",
   "theorems": [
    "C99_simple",
    "C99_memory",
    "C99_queries_partial",
    "C99_errors_refuted",
    "C99_power_refuted"
   ],
   "note": "Missing: which error a query reports of a module that fails, false (C99_errors_refuted, cf. C40); set_power to low or high, false (C99_power_refuted, cf. C38)."
  },
  {
   "property": "C100",
   "status": "proved",
   "theorems": [
    "C100_apart",
    "C100_calls",
    "C100_sps",
    "C100_bays",
    "C100_effects",
    "C100_shared_refuted"
   ],
   "note": "C100_shared_refuted: calls that share a module are not kept apart (outside the claim)."
  },
  {
   "property": "C101",
   "status": "partial",
   "theorems": [
    "C101_straight",
    "C101_stays",
    "C101_override_partial",
    "C101_network",
    "C101_network_override_partial",
    "C101_override_refuted",
    "C101_bits_refuted"
   ],
   "note": "Missing: that the software override is kept in calls for modules of several kinds, false (C101_override_refuted), or whose kind changes with their power pins. C101_bits_refuted: the other bits of the control byte are cleared (outside the claim)."
  },
  {
   "property": "C102",
   "status": "proved",
   "theorems": [
    "C102_restore",
    "C102_saved",
    "C102_too_long",
    "C102_text",
    "C102_hex_long",
    "C102_binary_long",
    "C102_single",
    "C102_commas"
   ],
   "note": "Texts too long for the buffer are refused in hexadecimal and cut within a byte in binary (C102_binary_long); the write is then refused for its length."
  },
  {
   "property": "C103",
   "status": "partial",
   "theorems": [
    "C103_shown_partial",
    "C103_network_partial",
    "C103_power_refuted"
   ],
   "note": "Missing: power up or to low power mode of modules of which some are on and some off, or of several kinds, at once; false (C103_power_refuted, cf. C38, C98_kinds_refuted)."
  }
 ]
}