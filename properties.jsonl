{"id": "C01", "title": "ModuleId behaves as a set of ports 0..63", "statement": "A ModuleId is a set of port indices. is_set reports membership; set/clear add/remove exactly one index and leave every other index alone; an index of 64 or more is rejected and the set is unchanged; from_indices contains exactly the listed indices; to_indices lists the members strictly increasing, and from_indices(to_indices(m)) = m; selected_transceiver_count is the number of members.", "quantifier": "every 64-bit mask, every index (in range or not), every list of indices", "why_tests_cant": "2^64 masks; the tests check a handful of literals.", "anchors": ["messages/src/module_id.rs: ModuleId::{is_set,set,clear,from_index_iter,from_indices,to_indices,single,contains,selected_transceiver_count,is_empty,all,all_sidecar,empty}"]}
{"id": "C02", "title": "ModuleId operators are the set operations", "statement": "merge and | are union, & is intersection, ! is complement within 0..63, remove is set difference, a.is_subset(b) holds exactly when every member of b is a member of a, and union count = sum of counts minus the intersection count.", "quantifier": "every pair of 64-bit masks and every index", "why_tests_cant": "Quadratic in 2^64 masks.", "anchors": ["messages/src/module_id.rs: ModuleId::{remove,merge,is_subset}, BitAnd, BitOr, Not"]}
{"id": "C03", "title": "Filtering per-module data keeps each datum with its own port", "statement": "filter_module_data / keep_module_data / remove_module_data, given data listed in port order, return exactly the (port, datum) pairs of the input that satisfy the predicate / are kept / are not removed, still in port order; no datum moves to another port and none is lost or duplicated.", "quantifier": "every module set, every data list with one entry per member, every predicate, every second set", "why_tests_cant": "An off-by-one in the zip shows only for particular bit patterns.", "anchors": ["messages/src/module_id.rs: filter_module_data, keep_module_data, remove_module_data"]}
{"id": "C04", "title": "Merging per-module data is a right-biased map union", "statement": "merge_module_data(a, da, b, db) yields the union of the two port sets, one datum per port in port order, where a port present in both gets the datum of the second argument.", "quantifier": "all pairs of module sets with matching data lists", "why_tests_cant": "The interleaving of two sorted sequences has exponentially many shapes.", "anchors": ["messages/src/module_id.rs: merge_module_data"]}
{"id": "C05", "title": "Wire encoding round-trips", "statement": "Serialising any Header or Message (any of the five body kinds, all 16 host requests, all 7 SP responses, every error) and then deserialising the bytes, followed by arbitrary trailing data, returns the same value and exactly the trailing data.", "quantifier": "every header, every message value, every trailing byte string", "why_tests_cant": "The value space includes 64-bit masks and nested enums; tests fix a few values.", "anchors": ["messages/src/message.rs: Header, Message, MessageBody, HostRequest, SpResponse, ProtocolError, MacAddrResponse", "messages/src/mgmt/mod.rs: MemoryRead, MemoryWrite, Page", "messages/src/mac.rs: MacAddrs, BadMacAddrRange"]}
{"id": "C06", "title": "Wire decoding is canonical", "statement": "If deserialisation accepts a byte string as a Header or Message with some trailing data, then the byte string is exactly the serialisation of that value followed by the trailing data: two different byte strings never decode to the same message with the same trailer, and no encoding is a proper prefix of another.", "quantifier": "every byte string", "why_tests_cant": "All byte strings of all lengths.", "anchors": ["messages/src/message.rs: Header, Message (hubpack derive)"]}
{"id": "C07", "title": "Every request fits in the fixed packet buffer", "statement": "The serialised header plus message never exceeds Header::MAX_SIZE + Message::MAX_SIZE, so a request with at most MAX_PAYLOAD_SIZE bytes of trailing data always fits in MAX_PACKET_SIZE bytes; the largest message attains the bound.", "quantifier": "every header, every message, every payload of at most 1024 bytes", "why_tests_cant": "Needs the maximum over all values of a recursive type.", "anchors": ["messages/src/lib.rs: MAX_PAYLOAD_SIZE, MAX_PACKET_SIZE", "messages/src/message.rs", "controller/src/ioloop.rs: send_outgoing_request"]}
{"id": "C08", "title": "Memory operations never leave their page", "statement": "MemoryRead::new and MemoryWrite::new succeed exactly when the access is non-empty, no larger than the interface's limit (SFF-8636: 128 read / 4 write; CMIS: 8 / 8), and every byte offset..offset+len-1 lies inside the page's window (lower: 0..127, upper: 128..255); otherwise an error naming the offending offset and length, or size, is returned.", "quantifier": "every page, every 8-bit offset and length, both interfaces, reads and writes", "why_tests_cant": "The exact boundary of the accepted set over all offsets and lengths is the claim.", "anchors": ["messages/src/mgmt/mod.rs: MemoryRead::new, MemoryWrite::new, verify_read, verify_write", "messages/src/mgmt/{sff8636,cmis}.rs: Page"]}
{"id": "C09", "title": "Upper page constructors accept exactly the defined pages", "statement": "An SFF-8636 upper page is accepted exactly for 0x00..0x21 and 0x80..0xff; a banked CMIS page exactly for a valid page number that takes banks with bank 0..3; an unbanked CMIS page exactly for a valid page number that takes no bank. Rejections carry the documented error, and an accepted page tells the number and bank it was made of.", "quantifier": "every page number and bank number", "why_tests_cant": "Negative space: every invalid page must be rejected, tests check a few.", "anchors": ["messages/src/mgmt/sff8636.rs: UpperPage::new", "messages/src/mgmt/cmis.rs: UpperPage::{new_unbanked,new_banked,page_accepts_bank_number}, is_valid_page"]}
{"id": "C10", "title": "Only valid memory operations can exist", "statement": "Every MemoryRead, MemoryWrite or UpperPage a program holds stays inside its page and names a valid page, whether it was constructed locally or received from the wire.", "quantifier": "every byte string that deserialises, every constructor argument", "why_tests_cant": "Quantifies over all byte strings a peer can send.", "anchors": ["messages/src/mgmt/mod.rs: MemoryRead, MemoryWrite (derive Deserialize)", "messages/src/mgmt/{cmis,sff8636}.rs"]}
{"id": "C11", "title": "MAC address ranges contain distinct unicast addresses of one OUI", "statement": "Whenever MacAddrs::new succeeds, iterating it yields exactly count addresses; the n-th is base + n*stride as a 48-bit number; all are distinct, unicast, strictly increasing, and share the base address's first three octets; nth(n) for n >= count is None.", "quantifier": "every base address, count and stride", "why_tests_cant": "2^72 argument combinations; wrap-around occurs at rare corners.", "anchors": ["messages/src/mac.rs: MacAddrs::{new,nth,iter}, MacAddrIter"]}
{"id": "C12", "title": "MAC address ranges are rejected only for a real reason", "statement": "MacAddrs::new fails exactly when count or stride is zero, the base address is multicast, or some address of the range would leave the base address's OUI; the error names the reason.", "quantifier": "every base address, count and stride", "why_tests_cant": "Needs the exact boundary of acceptance over all ranges.", "anchors": ["messages/src/mac.rs: MacAddrs::new, BadMacAddrReason"]}
{"id": "C13", "title": "Hardware error codes survive decoding, including codes from the future", "statement": "Decoding the error bytes that follow a response yields one error per failed module, in port order; a known code decodes to that error, an unknown code decodes to Unknown while preserving the raw byte and its position; a buffer that is too short is rejected with the expected and actual sizes.", "quantifier": "every failed-module count and every byte buffer", "why_tests_cant": "All buffers, all lengths, all code values.", "anchors": ["messages/src/message.rs: DeserializedErrors, deserialize_hw_errors, HwError, Unknowns"]}
{"id": "C14", "title": "Splitting a large access tiles the requested bytes", "statement": "build_many(page, offset, len) either fails or returns operations which, in order, are non-empty, valid for the page, no larger than the split size, and whose byte ranges concatenate to exactly offset..offset+len-1; a request ending past byte 256 is rejected, naming the end.", "quantifier": "every page, offset and length, reads and writes", "why_tests_cant": "The chunk boundary arithmetic depends on all three values.", "anchors": ["controller/src/large_access.rs: LargeMemoryAccess::build_many"]}
{"id": "C15", "title": "Any in-page access can be split", "statement": "build_many succeeds for every non-empty access that lies inside the page's window, for reads and for writes, on both interfaces.", "quantifier": "every page, offset and length with the range inside the page", "why_tests_cant": "Negative space of an arithmetic guard.", "anchors": ["controller/src/large_access.rs: build_many, SIZE constants", "messages/src/mgmt/sff8636.rs: Page::MAX_WRITE_SIZE"]}
{"id": "C16", "title": "Merging two disjoint results loses and invents nothing", "statement": "ModuleResult::merge returns None exactly when a module succeeds in both or fails in both; otherwise a module is successful in the merge iff it succeeded in one and failed in neither, and carries that datum; a module fails iff it failed in either and carries that error; successes and failures are disjoint, with one datum per success and one error per failure.", "quantifier": "every pair of well-formed results", "why_tests_cant": "Every overlap pattern of four 64-bit sets.", "anchors": ["controller/src/results.rs: ModuleResult::merge, FailedModules::merge"]}
{"id": "C17", "title": "Appending reads concatenates each module's bytes", "statement": "append returns, for every module that succeeded in both results, the first result's bytes followed by the second's, and reports as failed every module that failed in either; it refuses results over different successful modules only as documented, and never pairs one module's bytes with another's.", "quantifier": "every pair of well-formed read results", "why_tests_cant": "All overlap patterns of sets and failures.", "anchors": ["controller/src/results.rs: ModuleResult::append"]}
{"id": "C18", "title": "Failure sets merge as right-biased maps and stay aligned", "statement": "FailedModules::merge/merge_into keep one error per failed module in port order; nth(i) is the error of module i; on overlap the newer error wins; success() has no failures.", "quantifier": "all pairs of well-formed failure sets and every index", "why_tests_cant": "All overlap patterns of two 64-bit sets.", "anchors": ["controller/src/results.rs: FailedModules::{merge,merge_into,nth,iter,success}, ModuleResult::{nth,nth_err,iter,error_iter}"]}
{"id": "C19", "title": "Every RPC is answered at most once, and only its own caller is answered", "statement": "Over any history of caller requests, retry ticks, incoming datagrams, socket errors and handler replies, the I/O loop keeps at most one request in flight, answers each accepted request at most once, answers only requests it accepted, in the order accepted, and while it runs every accepted request is either answered or the one in flight.", "quantifier": "every finite sequence of events, including arbitrary datagram bytes", "why_tests_cant": "Interleavings of an unbounded event stream.", "anchors": ["controller/src/ioloop.rs: IoLoop::run, handle_sp_response, handle_sp_error, fail_matching_outstanding_request", "controller/src/messages.rs: OutstandingHostRequest"]}
{"id": "C20", "title": "Only a matching response completes an RPC", "statement": "A caller gets a successful reply only if a datagram arrived, while its request was in flight, whose header decodes as an SP response with the request's own message id, whose body is an SP response, and which carries at least the data and error bytes the response announces; the caller gets exactly that message and exactly those bytes.", "quantifier": "every event history and every datagram", "why_tests_cant": "Stale, duplicated, reordered and corrupted datagrams in every order.", "anchors": ["controller/src/ioloop.rs: handle_sp_response"]}
{"id": "C21", "title": "Stale and foreign messages never disturb the request in flight", "statement": "A datagram carrying a different message id neither completes, fails nor alters the in-flight request, except that a faulty one may be counted towards the fault limit; retransmissions stay byte-for-byte identical.", "quantifier": "every loop state and every datagram with a non-matching id", "why_tests_cant": "All datagrams in all states.", "anchors": ["controller/src/ioloop.rs: handle_sp_response, handle_sp_error, increment_faulty_message_count"]}
{"id": "C22", "title": "Transmissions per RPC are bounded and identical", "statement": "With n_retries = Some(n), each request is transmitted at most max(1, n) times, every transmission is the same packet (header, message, data), and nothing is transmitted for it after it has been answered.", "quantifier": "every event history and every retry limit", "why_tests_cant": "Unbounded histories.", "anchors": ["controller/src/ioloop.rs: run, send_outgoing_request", "controller/src/config.rs: n_retries"]}
{"id": "C23", "title": "No RPC hangs", "statement": "With n_retries = Some(n), a request in flight is answered no later than its max(1,n)-th retry tick whatever datagrams arrive in between, provided the loop keeps running; if the SP stays silent the answer is MaxRetries.", "quantifier": "every state with a request in flight, every interleaving of datagrams between ticks", "why_tests_cant": "A liveness bound over all schedules.", "anchors": ["controller/src/ioloop.rs: run, at_retry_limit, at_error_limit"]}
{"id": "C24", "title": "Faulty traffic fails an RPC only through the documented limits", "statement": "A request fails with MaxFaultMessages only at a retry tick and only when at least five faulty datagrams or socket errors arrived while it was in flight; faults counted against one request never carry over to the next.", "quantifier": "every event history", "why_tests_cant": "Counting over unbounded histories.", "anchors": ["controller/src/ioloop.rs: increment_faulty_message_count, NUM_ALLOWED_ERROR_MESSAGES"]}
{"id": "C25", "title": "No datagram can crash the I/O loop", "statement": "The loop survives any datagram in any state: every byte string received is either handled, counted as faulty, or ignored.", "quantifier": "every byte string, every loop state", "why_tests_cant": "Fuzzing samples; the claim is for all byte strings.", "anchors": ["controller/src/ioloop.rs: handle_sp_response, handle_sp_error, handle_sp_request, run"]}
{"id": "C26", "title": "Message ids identify requests", "statement": "The ids put in request headers by one controller are pairwise different for any 2^64 consecutive requests, so an old response can match only its own request.", "quantifier": "every sequence of requests, every starting counter value", "why_tests_cant": "Wrap-around after 2^64.", "anchors": ["controller/src/controller.rs: next_header"]}
{"id": "C27", "title": "Error and response datagrams sent by the host are well formed", "statement": "Whenever the loop sends a protocol error or forwards a handler's response to the SP, the datagram starts with a header whose kind says what follows, and decoding it returns the message and data that were meant; an error is never sent in reply to an error.", "quantifier": "every incoming datagram and every handler reply", "why_tests_cant": "All input datagrams.", "anchors": ["controller/src/ioloop.rs: send_protocol_error, send_outgoing_response, handle_sp_request, run"]}
{"id": "C28", "title": "Reads are split so that every response fits, and every module is read once", "statement": "For any read and module set, the module groups sent to the SP are disjoint, in port order, cover exactly the requested modules, and each group's response data fits in MAX_PAYLOAD_SIZE.", "quantifier": "every module set and every read length 1..255", "why_tests_cant": "All subsets of 64 ports.", "anchors": ["controller/src/controller.rs: split_large_reads, fits_in_one_message"]}
{"id": "C29", "title": "A read accounts for every requested module", "statement": "With an SP that answers each request with per-module success or failure for exactly the modules asked, read returns every requested module exactly once, as a success with exactly the bytes of that module's memory or as a failure with that module's error, whatever the splitting.", "quantifier": "every SP behaviour of that kind, every module set, page, offset, length", "why_tests_cant": "All SP behaviours and all subsets of failing modules.", "anchors": ["controller/src/controller.rs: read, read_impl, read_impl_one_message"]}
{"id": "C30", "title": "A write reaches exactly the intended modules", "statement": "write sends the same bytes once to all modules whose identifier could be read, only after all identifiers match the page's interface; on mismatch it returns an error naming the lowest mismatching port and nothing is written; data of the wrong length is rejected before anything is sent; every requested module is reported as success or failure.", "quantifier": "every SP behaviour, module set, write and data", "why_tests_cant": "All combinations of module kinds and failures.", "anchors": ["controller/src/controller.rs: write, write_impl, verify_ids_for_page"]}
{"id": "C31", "title": "Interface checks gate reads and writes", "statement": "verify_ids_for_page accepts exactly when every module's identifier uses the page's management interface; otherwise no read or write of the page is issued to any module.", "quantifier": "every identifier assignment and page", "why_tests_cant": "All assignments of 256 identifiers to 64 ports.", "anchors": ["controller/src/controller.rs: verify_ids_for_page, read, write", "decode/src/ident.rs: Identifier::management_interface"]}
{"id": "C32", "title": "Per-module answers are attached to the right port", "statement": "status, extended_status, leds, identifier return, for each responding module, the value the SP sent for that port, and, for each failing module, the error the SP sent for that port.", "quantifier": "every SP response of well-formed length", "why_tests_cant": "All subsets of 64 ports.", "anchors": ["controller/src/controller.rs: status, extended_status, leds, identifier, deserialize_hw_errors, no_payload_request"]}
{"id": "C33", "title": "Responses with out-of-range content produce an error, not a crash", "statement": "If the SP sends LED or status bytes outside the defined values, or a response whose shape disagrees with the request, the API call returns an error.", "quantifier": "every response message and trailing data", "why_tests_cant": "All byte strings the SP can send.", "anchors": ["controller/src/controller.rs: leds, extended_status, read_impl_one_message, no_payload_request, mac_addrs"]}
{"id": "C34", "title": "reset pulses reset and reports every module", "statement": "reset asserts reset on all requested modules, then deasserts it on exactly those that acknowledged; a module is reported successful iff both steps succeeded, failed with the failing step's error otherwise; successes and failures partition the requested set.", "quantifier": "every SP failure pattern, every module set", "why_tests_cant": "All failure patterns at both steps.", "anchors": ["controller/src/controller.rs: reset"]}
{"id": "C35", "title": "Power state queries report what the hardware says", "statement": "power reports Off for modules whose supply is not both enabled and good, and also for modules held in reset; otherwise Low or High with the override flag, from the software control byte when it overrides the pin and from the LPMode pin otherwise; each requested module is reported exactly once.", "quantifier": "every status and control byte assignment, every failure pattern", "why_tests_cant": "All assignments over 64 ports.", "anchors": ["controller/src/controller.rs: power, power_control", "decode/src/power.rs: PowerControl::parse"]}
{"id": "C36", "title": "Turning power off is ordered and fully reported", "statement": "set_power(Off) deasserts LPMode, then asserts reset on those that succeeded, then disables power on those that succeeded; a module is successful iff all three succeeded, else it carries the error of the first failing step; successes and failures partition the request.", "quantifier": "every SP failure pattern", "why_tests_cant": "All failure patterns over three steps and 64 ports.", "anchors": ["controller/src/controller.rs: set_power (Off)"]}
{"id": "C37", "title": "High power is refused for modules that are off, before touching hardware", "statement": "set_power(High) with any module in power state Off returns InvalidPowerStateTransition and issues no request other than status and memory reads.", "quantifier": "every SP behaviour and module set", "why_tests_cant": "All SP behaviours.", "anchors": ["controller/src/controller.rs: set_power"]}
{"id": "C38", "title": "set_power accounts for every module", "statement": "set_power(Low or High) reports each requested module exactly once, as success or failure, and every module reported as successful has been driven to the requested state.", "quantifier": "every mix of initial states, module kinds and failures", "why_tests_cant": "All mixes over 64 ports.", "anchors": ["controller/src/controller.rs: set_power, set_software_power_state"]}
{"id": "C39", "title": "Software power words mean what was asked", "statement": "The byte written by set_power for Low or High with or without software override is one that the power decoder reads back as exactly that state: with override, override to Low/High; without, use the LPMode pin.", "quantifier": "both interfaces, both states, both override settings, all 256 prior register values", "why_tests_cant": "Ties two separately written bit layouts.", "anchors": ["controller/src/controller.rs: set_software_power_state", "decode/src/power.rs: PowerControl::parse"]}
{"id": "C40", "title": "Parsed module data is complete and correctly attributed", "statement": "Module queries such as vendor_info or monitors return, for each module, the parse of that module's own bytes for its own identifier, or that module's own first error; every requested module appears exactly once.", "quantifier": "every mix of identifiers, memory contents and failures", "why_tests_cant": "All interleavings of identifier groups and failures over 64 ports.", "anchors": ["controller/src/controller.rs: parse_modules_by_identifier, split_modules_by_identifier"]}
{"id": "C41", "title": "Decoders issue only valid reads, for exactly the supported modules", "statement": "For every identifier the decoders either return a list of valid in-page reads of at most the interface's maximum size, or UnsupportedIdentifier, and they support exactly the SFF-8636 and CMIS identifiers.", "quantifier": "all identifiers and all decoders", "why_tests_cant": "A failing constructor would only show on that module kind.", "anchors": ["decode/src/{ident,power,memory_model,monitors,datapath}.rs: ParseFromModule::reads"]}
{"id": "C42", "title": "Decoding never panics on module memory", "statement": "For any contents of a module's memory maps, every decoder returns a value or an error, never a panic.", "quantifier": "every assignment of bytes to module memory, both interfaces", "why_tests_cant": "All memory contents.", "anchors": ["decode/src/{ident,power,memory_model,monitors,datapath}.rs: ParseFromModule::parse"]}
{"id": "C43", "title": "Vendor fields are the standard's bytes", "statement": "For any module memory, vendor_info returns name, OUI, part, revision, serial and date from the byte ranges the management specification assigns, with trailing blanks removed.", "quantifier": "every memory content, both interfaces", "why_tests_cant": "All memory contents; offsets differ between interfaces.", "anchors": ["decode/src/ident.rs: VendorInfo::{reads,parse}, Vendor, ascii_to_string, Oui"]}
{"id": "C44", "title": "Code tables are lossless", "statement": "Every decoded enumerated byte converts back to the same byte, and its printed name parses back to the same value.", "quantifier": "all 256 byte values of every code table", "why_tests_cant": "Each table has 256 entries and catch-all variants; tests check a few.", "anchors": ["decode/src/utils.rs: bitfield_enum, parse_u8_bitfield_variant", "decode/src/ident.rs", "decode/src/datapath.rs: ConnectorType, EthernetComplianceCode"]}
{"id": "C45", "title": "OUI text round-trips", "statement": "Printing any OUI and parsing the text returns the same OUI; text that parses is three hexadecimal octets.", "quantifier": "all 2^24 OUIs; all strings for rejection", "why_tests_cant": "2^24 values and all strings.", "anchors": ["decode/src/ident.rs: Oui (FromStr, Display)"]}
{"id": "C46", "title": "Memory models list the pages the module advertises", "statement": "The memory model is Flat exactly when the flat-memory bit is set; otherwise it lists, sorted and without duplicates, exactly the mandatory pages plus those whose support bits are set, with the advertised highest bank; every listed page is a valid page of its interface.", "quantifier": "every value of the advertisement bytes", "why_tests_cant": "All 65536 byte pairs on two interfaces.", "anchors": ["decode/src/memory_model.rs: MemoryModel::{reads,parse}"]}
{"id": "C47", "title": "Monitor values are the scaled raw counters", "statement": "Each monitor value present is the raw register, interpreted with the documented signedness, times the documented resolution, correctly rounded; temperature is exact; values are monotone in the raw counter.", "quantifier": "all 65536 raw values of each monitor", "why_tests_cant": "Floating-point rounding over the whole range.", "anchors": ["decode/src/monitors.rs: decode functions, resolutions", "decode/src/utils.rs: decode_with_scale"]}
{"id": "C48", "title": "A monitor is reported exactly when the module supports it", "statement": "A monitor appears in the result exactly when the module's support bits advertise it (or, for old SFF modules that cannot advertise, when the raw value is plausible), and values of different monitors do not affect each other.", "quantifier": "every memory content, both interfaces", "why_tests_cant": "All combinations of support bytes and values.", "anchors": ["decode/src/monitors.rs: Monitors::parse"]}
{"id": "C49", "title": "Lane status reports the lane's own bits", "statement": "datapath reports, for each lane, the fault, loss-of-signal and enable flags and datapath state taken from that lane's bits of the status bytes, for exactly the supported lanes.", "quantifier": "every status byte content and lane", "why_tests_cant": "All flag bytes times lanes.", "anchors": ["decode/src/datapath.rs: Datapath::parse, CmisDatapathState, SffDatapathState"]}
{"id": "C50", "title": "The configured address belongs to the interface", "statement": "build succeeds with an explicit address exactly when some address of the named interface equals it, without one exactly when the interface has an IPv6 link-local address, in which case the first such is used; unset fields take the documented defaults and set fields are kept; the tool's own configuration keeps all its arguments, the peer having its default if not given.", "quantifier": "every interface list, name and builder state", "why_tests_cant": "All host network configurations.", "anchors": ["controller/src/config.rs: ConfigBuilder::build, is_valid_address, find_interface_link_local_addr, is_link_local"]}
{"id": "C51", "title": "Port lists on the command line select exactly the named ports", "statement": "A transceiver argument made of indices and inclusive ranges selects exactly those ports; anything malformed or out of range is rejected, and the special words keep their meaning regardless of case.", "quantifier": "every string", "why_tests_cant": "All strings.", "anchors": ["controller/src/bin/xcvradm.rs: parse_transceivers"]}
{"id": "C52", "title": "Command-line bytes are read as written", "statement": "Write data given in decimal, hex or binary text is parsed to exactly the listed bytes, at most 128 of them; a token that is not a byte is rejected; printing any byte list in any of the three notations and loading it back with or without autodetection returns the same list.", "quantifier": "every byte list, every notation, every input text", "why_tests_cant": "All inputs.", "anchors": ["controller/src/bin/xcvradm.rs: read_u8, load_known_write_data, load_write_data_autodetect_kind"]}
{"id": "C53", "title": "Large command-line reads return the requested memory window", "statement": "read-lower/read-upper of any in-page window, however it is split into memory operations and messages, prints for each module its memory bytes offset..offset+len-1, or lists the module as failed.", "quantifier": "every offset, length, page, module set, and SP failure pattern", "why_tests_cant": "All windows times failure patterns.", "anchors": ["controller/src/bin/xcvradm.rs: Cmd::ReadLower, Cmd::ReadUpper", "controller/src/large_access.rs", "controller/src/results.rs: append"]}
{"id": "C54", "title": "Status conversions preserve flags", "statement": "Converting Status to ExtendedStatus keeps every flag and sets no other; printing a set of status flags and parsing the text returns the same set.", "quantifier": "all 256 status values, all 2^32 extended status values, including bits that no flag defines", "why_tests_cant": "All flag combinations.", "anchors": ["messages/src/message.rs: Status, ExtendedStatus, From<Status>, Display, FromStr"]}
{"id": "C55", "title": "Response sizes are computed from what the SP will send", "statement": "expected_data_len and expected_error_data_len of a response equal the number of data bytes and error bytes that follow it on the wire for any SP that answers as documented, and expected_data_len of a write request equals the number of data bytes the host sends after it.", "quantifier": "every request and response value", "why_tests_cant": "All masks and lengths.", "anchors": ["messages/src/message.rs: HostRequest::expected_data_len, SpResponse::{expected_data_len,expected_error_data_len}", "controller/src/controller.rs: write_impl"]}
{"id": "C56", "title": "Transceiver words on the command line select the modules they describe", "statement": "Addressing by all, present, a power state or a management interface resolves, among ports 0..31, to exactly the modules the SP reports in that condition, whatever the other modules are; an explicit port list is used as given; resolving changes nothing on the modules.", "quantifier": "every SP behaviour, every module population, every addressing word", "why_tests_cant": "All module populations and failure patterns.", "anchors": ["controller/src/bin/xcvradm.rs: address_transceivers"]}
{"id": "C57", "title": "The status command tells each module's flags", "statement": "The status command reports the extended status of every addressed module, or its plain status when the SP cannot give the extended one; the normal table names exactly the set flags; with --with/--without flags a module is marked 1 exactly when it has all of the first and none of the second; each column of --all holds the flag its header line names; no combination of accepted arguments crashes.", "quantifier": "every status value, flag set, module set and SP answer", "why_tests_cant": "All status values times all flag sets.", "anchors": ["controller/src/bin/xcvradm.rs: Cmd::Status, print_module_status, print_all_status"]}
{"id": "C58", "title": "The write commands write exactly the given bytes at the given place", "statement": "write-lower/write-upper either send one write of exactly the loaded bytes at the given offset of the named page to the modules whose identifier could be read and report every module, or report an error and write nothing.", "quantifier": "every byte list, offset, page, module set and SP behaviour", "why_tests_cant": "All write windows times module populations.", "anchors": ["controller/src/bin/xcvradm.rs: Cmd::WriteLower, Cmd::WriteUpper", "controller/src/controller.rs: Controller::write"]}
{"id": "C59", "title": "A caller gets only the SP's answer to its own request", "statement": "When datagrams between host and SP are lost, delayed, repeated and reordered in any way, and unrelated datagrams arrive, every success reported to a caller is what the SP answered to exactly that caller's request while that request was in flight; and once one copy of the request and its answer get through, the caller has the answer.", "quantifier": "every schedule of sends, deliveries, timeouts and SP steps, of any length; every SP whose answers are well-formed", "why_tests_cant": "Interleavings of unbounded length over unbounded state; requires induction over the schedule.", "anchors": ["controller/src/ioloop.rs", "controller/src/controller.rs: rpc"]}
{"id": "C60", "title": "An unreliable path never turns one result into another", "statement": "For every API call: over a path that sometimes fails instead of delivering the SP's answer, the call either fails after performing a prefix of the steps it would have performed over a perfect path, or performs the same steps and returns the same result.", "quantifier": "every API call, every SP whose answer depends on the request only, every loss pattern", "why_tests_cant": "All loss patterns over all multi-step calls.", "anchors": ["controller/src/controller.rs"]}
{"id": "C61", "title": "Reads are end-to-end correct over an unreliable network", "statement": "The controller on top of the I/O loop and an unreliable network with fewer than 2^64 requests made is such a path; a read that succeeds over it reports for every module asked for, and no other, what that module's memory holds or that module's own error.", "quantifier": "every network schedule, module memory, failure pattern, module set and window", "why_tests_cant": "Whole-stack composition over unbounded schedules.", "anchors": ["controller/src/controller.rs: read", "controller/src/ioloop.rs"]}
{"id": "C62", "title": "Calls do only what they say", "statement": "Whatever the SP answers, query calls send only requests that change nothing; a write sends besides only the requested write with the given bytes; setting power sends besides only power and reset pin requests and the one-byte power word of the requested state; reset only asserts and deasserts reset; each single-pin call sends exactly its own request once.", "quantifier": "every SP behaviour including malformed answers, every module set and argument", "why_tests_cant": "All SP behaviours over multi-step calls.", "anchors": ["controller/src/controller.rs"]}
{"id": "C63", "title": "Calls touch and report only the modules named", "statement": "If the SP answers about modules it was asked about, every request made by any API call addresses only modules the caller named and its result is about those modules only.", "quantifier": "every SP behaviour meeting the condition, every API call and module set", "why_tests_cant": "All SP behaviours over multi-step calls with set arithmetic on masks.", "anchors": ["controller/src/controller.rs", "messages/src/module_id.rs"]}
{"id": "C64", "title": "Queries for decoded data report each module's own data", "statement": "Asking for vendor information, memory models, monitors or datapaths reports, for each plugged module asked for, what its own memory holds, for each module that cannot be read its own error, and nothing about other modules; what one module's memory holds never affects what is reported for another.", "quantifier": "every population of modules, every memory content, every failure pattern, every module set", "why_tests_cant": "All memories of all modules, through several reads each.", "anchors": ["controller/src/controller.rs: vendor_info, memory_model, monitors, datapath, parse_modules_by_identifier", "decode/src"]}
{"id": "C65", "title": "Printed tables show each module's own data, one line per module", "statement": "The tool's tables of power modes, identifiers, vendor information, memory models, LEDs, raw data and MAC addresses have exactly one line per module that has a value, in order of ports; read back by column or by separator, the line gives the module's port and its own data.", "quantifier": "every result of a query, every module memory, every choice of columns and separator", "why_tests_cant": "All results and all memory contents; layout with fixed widths must never overflow for decodable data.", "anchors": ["controller/src/bin/xcvradm.rs: print_power_mode, print_module_identifier, print_vendor_info, print_module_memory_model, print_mac_address_range, print_led_state, print_read_data"]}
{"id": "C66", "title": "Printed monitors show each module's own measurements", "statement": "The printed monitors have one block of lines (or one parseable line) per module with a value, in order of ports, giving for each monitor the module says it has, and for each of its lanes, the measurement its memory holds in the standard's units (optical powers and bias currents exactly, to four decimals), and for each other monitor that it is absent; average and peak-to-peak power are told apart; printing never fails.", "quantifier": "every population of modules, every memory content, every module set, every choice of columns and separator", "why_tests_cant": "All 2^16 values of each of up to 24 floating-point words per module, through decoding, scaling and decimal formatting.", "anchors": ["controller/src/bin/xcvradm.rs: print_monitors, aux1_monitor_value, aux2_monitor_value, aux3_monitor_value, display_list", "decode/src/monitors.rs"]}
{"id": "C67", "title": "Printed datapaths show each lane's own status", "statement": "The printed datapaths have one block per module with a value, in order of ports, that names its connector and, for each lane in use under its number, shows every status flag its memory holds for that lane, with unsupported flags shown as such; for CMIS modules each application in use is shown once, with its interfaces and exactly the lanes assigned to it; no text breaks a line.", "quantifier": "every population of modules, every memory content, every module set", "why_tests_cant": "All memories, with 16 flags for up to 8 lanes grouped by application through maps.", "anchors": ["controller/src/bin/xcvradm.rs: print_datapath, print_cmis_datapath, print_sff8636_datapath", "decode/src/datapath.rs"]}
{"id": "C68", "title": "Each command does only what it is for, to the modules named", "statement": "Whatever the SP answers, a command of the tool sends, besides requests that change nothing, only the requests it is for (query commands none, a write only the given bytes at the given place, reset only reset pins, and so on) and only reset and set-power wait; if the SP answers about modules it was asked about, after the modules named on the command line are known no other module is touched; if they cannot be known nothing else is done.", "quantifier": "every command with any arguments, every SP behaviour", "why_tests_cant": "All 22 commands against all SP behaviours including malformed answers.", "anchors": ["controller/src/bin/xcvradm.rs: main", "controller/src/controller.rs"]}
{"id": "C69", "title": "Commands that act report exactly the modules that failed", "statement": "After a command that changes modules, the requests made are exactly the documented sequence, each step only for the modules that passed the earlier ones, and the tool prints one line for each module that failed, in order of ports, with that module's first error, or nothing with --ignore-errors.", "quantifier": "every acting command, module set, failure pattern and SP state", "why_tests_cant": "Multi-step sequences with arbitrary failures at each step.", "anchors": ["controller/src/bin/xcvradm.rs: main, print_failures"]}
{"id": "C70", "title": "Commands that query print what the modules report and which failed", "statement": "A query command of the tool prints, for the modules named, the table of what each reports in the form asked for on standard output, and one line for each module that failed with its own error on standard error (nothing with --ignore-errors); errors of one module never hide the data of another.", "quantifier": "every query command with any options, every population of modules, memory content and failure pattern", "why_tests_cant": "End to end from command line through memory decoding to printed lines.", "anchors": ["controller/src/bin/xcvradm.rs: main, print_failures", "controller/src/controller.rs"]}
{"id": "C71", "title": "Results say for each module what it reported", "statement": "Asking a result for a module gives its datum exactly if it succeeded and its error exactly if it failed; walking over it visits every module once in order of ports with its own datum or error; it counts as successful exactly if no module failed; the constructors accept exactly one datum per module and build such results; two results are equal exactly if they say the same about every module.", "quantifier": "every result, module set and index, every type of data and errors", "why_tests_cant": "All 64-bit module sets.", "anchors": ["controller/src/results.rs: ModuleResult::{iter,error_iter,nth,nth_err,is_success,success}, AckResult::{new,ack}, PartialEq"]}
{"id": "C72", "title": "Datagrams are laid out as documented, with fixed codes", "statement": "Every request, response and protocol error has its version, id, kind, request or response code, module masks and operands at fixed places with fixed codes (the encodings the code's comments promise never to change), followed by the data; what is understood of a received datagram is what is at those places; every request the controller makes goes out in one such datagram with versions 1 and 7.", "quantifier": "every header, request, response, protocol error, payload and received datagram", "why_tests_cant": "All values of all fields; a consistent change of encoder and decoder passes round-trip tests.", "anchors": ["messages/src/message.rs", "messages/src/mgmt", "messages/src/mac.rs", "controller/src/ioloop.rs: send_outgoing_request"]}
{"id": "C73", "title": "What is printed about a failure tells what failed", "statement": "The text of a module's error names the module and says what the SP's error code means, unknown codes included, and errors that differ have different texts; the lines printed about modules that failed tell which failed and the code of each; the chain of texts printed when a whole call fails tells the error.", "quantifier": "every error with fields in the range of their types, all 256 error codes, every list of failures", "why_tests_cant": "All pairs of errors must differ in text; tests look at single texts.", "anchors": ["controller/src/lib.rs: TransceiverError, MaybeUnknown, Error", "messages/src/message.rs: HwError, ProtocolError", "messages/src/mgmt/mod.rs: Error", "decode/src/lib.rs: Error", "messages/src/mac.rs: BadMacAddrRange"]}
{"id": "C74", "title": "A power state reported as set is the state the modules are in", "statement": "After set_power, every module reported as done and not as failed is in the state asked for: off, low or high as the module's supply, reset pin, low-power pin and software control determine, and asking for its power mode tells that state; no module outside the set given is changed by any call.", "quantifier": "every SP that drives its modules and may refuse any request for any module at any time, every mix of modules and states, every module set and state", "why_tests_cant": "The sequence reads, filters and merges masks over many steps; refusals at each step and what modules do when their pins change are arbitrary.", "anchors": ["controller/src/controller.rs: set_power, set_power_on, set_power_off, set_software_power_state"]}
{"id": "C75", "title": "What is reported of a module is what is there", "statement": "Every value a query reports for a module (status, LED, kind, power mode, bytes read, vendor, memory model, monitors, datapath) is the module's own at the time of the call, only modules asked for are reported, and no query changes any module.", "quantifier": "every SP as in C74, every module set, memory content and pattern of refusals between and during calls", "why_tests_cant": "Queries read in parts and by groups, with refusals at any step; an error must never make another module's bytes appear.", "anchors": ["controller/src/controller.rs", "decode/src"]}
{"id": "C76", "title": "What is reported as done has been done, and nothing else", "statement": "Bytes reported as written are in the module's memory, all its other bytes, status and LED are as before, and reading them back gives them; an LED or pin reported as set is set and the other pins are as before; a module reported as reset is out of reset with its other pins as before.", "quantifier": "every SP as in C74, every module set, write, data, LED state and pin", "why_tests_cant": "Two-step sequences with refusals at each step.", "anchors": ["controller/src/controller.rs: write, write_impl, set_leds, reset, no_payload_request"]}
{"id": "C77", "title": "A call fails as a whole only for a stated cause, and stops there", "statement": "A call succeeds only if each of its requests got an answer of the kind asked for. If it fails, then the reply to its last request is to blame and the error says what that reply was (the transport's error, the unexpected message, the undecodable error list, the SP's MAC error), or the cause is the call's own: a module of another interface (read, write), data of another length (write), an unsupported identifier (queries, power), high power for a module that is off (set_power).", "quantifier": "every SP behaviour, world, module set and argument", "why_tests_cant": "Every reply at every step of every call may be anything.", "anchors": ["controller/src/controller.rs"]}
{"id": "C78", "title": "Calls made at the same time do not mix", "statement": "When any number of calls run at the same time over one controller, every answer a call gets is the SP's answer to this call's own question, given while the call waited for it; if the SP's answers depend on the question only, each call ends with an error of the loop or as it would have ended alone. A call stops at the first error it is given.", "quantifier": "every number and kind of calls, every interleaving of their steps with the loop, every loss, repetition and reordering of datagrams, every SP that answers what it is asked, every start of the id counter, up to 2^64 turns", "why_tests_cant": "Interleavings are not enumerable; a stale or repeated answer must never reach another call, also when ids wrap around.", "anchors": ["controller/src/controller.rs: rpc, next_header", "controller/src/ioloop.rs"]}
{"id": "C79", "title": "Every call ends", "statement": "If each call, the loop's channel and the resend timer get turns again and again, then every call ends, whatever is lost and whether or not the SP ever answers, and the loop keeps running, as long as the controller, its callers and its handler of SP requests stay.", "quantifier": "every number and kind of calls, every endless fair schedule, every loss, repetition and reordering of datagrams, every SP whose answers are answers, every retry limit", "why_tests_cant": "Liveness over endless executions: no finite test shows it.", "anchors": ["controller/src/ioloop.rs", "controller/src/controller.rs: rpc"]}
{"id": "C80", "title": "Every request is well made", "statement": "If what the caller names is in range, every field of every request a call sends is in the range of its type, a write carries exactly the bytes it announces and no other request carries any, so each goes out in one datagram.", "quantifier": "every call, argument and world, every SP whose answers are in range, requests after any failures", "why_tests_cant": "Masks are merged and split from answers over many steps with arbitrary answers.", "anchors": ["controller/src/controller.rs", "decode/src: reads of all queries"]}
{"id": "C81", "title": "Codes are shown by the standard's names", "statement": "Every code byte a module may hold for its identifier, connector, compliance, media type, media or host interface is shown by the name SFF-8024 gives it, or by the standard's class (reserved, custom, vendor specific) and the byte; Ethernet compliance bits and data path states likewise.", "quantifier": "all 256 codes of each of the ten tables, each Ethernet bit, all data path state bytes", "why_tests_cant": "Ten long hand-typed tables in an order other than the codes', with overlapping catch-all ranges.", "anchors": ["decode/src/ident.rs:18-63,312-659", "decode/src/datapath.rs:66-87,151-191,863-875", "decode/src/utils.rs:81-335"]}
{"id": "C82", "title": "Status numbers are read as those flags or rejected", "statement": "A serialised Status or ExtendedStatus read back in any number width is the same status; any other number is read as the status with exactly those bits, or rejected if it has bits no flag defines.", "quantifier": "all status values, all numbers and all number widths a serde format may offer", "why_tests_cant": "The behaviour depends on the width the format offers; the crate's own format exercises only one.", "anchors": ["messages/src/message.rs:801-863,961-1013"]}
{"id": "C83", "title": "Decoded values survive their JSON form", "statement": "Vendor information, monitors and datapaths decoded from any module, and power modes and LED states, have a JSON form in which every item stands at its documented path, and reading that form gives back exactly the value; readers accept members in any order, ignore unknown ones and reject missing, repeated or ill-formed ones.", "quantifier": "all module memories, all decoded values, all JSON objects", "why_tests_cant": "The forms are spread over derives with renames, tags, skipped fields and string conversions; codes without a name are written in a form that the reader may not know.", "anchors": ["decode/src/ident.rs:65-155,476-490", "decode/src/monitors.rs:20-209", "decode/src/datapath.rs:28-191,675-952", "decode/src/utils.rs:81-335"]}
{"id": "C84", "title": "Retries keep their pace", "statement": "A request is sent again no sooner than one retry interval after it was last sent; a caller is told that all retries were used only after exactly that many transmissions and at least as many intervals; if the timer is served within some delay of its deadline, no request waits longer than that many intervals and delays. The loop can be made for every interval but zero.", "quantifier": "every retry limit, interval, sequence of timed events, and delay of the timer", "why_tests_cant": "Relates times over unbounded executions in which other datagrams keep waking the loop; early or drifting resends only show under load.", "anchors": ["controller/src/ioloop.rs:67-89,206-215,660-720", "controller/src/config.rs:163-197"]}
{"id": "C85", "title": "Calls have a bounded cost", "statement": "Whatever the SP answers, each call makes a bounded number of requests (resends of one request, C84, not counted) and pauses: one request for LED states, status, MAC addresses, identifiers and actions without payload; two for a write; two and a pause of about 2 s for a reset; for a read, one for the identifiers plus the messages needed when 1024 bytes fit in each; 6 to query power, 3 to switch it off, at most 20 and one reset pause to set any other state; at most 27, 9, 33 and 41 for vendor information, memory model, monitors and datapaths. Each run of the tool makes at most the requests of its module selection plus those of its command.", "quantifier": "every SP, including one whose answers name other modules than asked, every call, every set of modules and all arguments of the tool", "why_tests_cant": "The work depends on answers: groups by kind and splits by size; a hostile SP must not be able to prolong a call.", "anchors": ["controller/src/controller.rs", "controller/src/large_access.rs", "controller/src/bin/xcvradm.rs:946-1516"]}
{"id": "C86", "title": "A controller is set up on the configured interface and nowhere else", "statement": "Setting up a controller looks up the configured interface, then binds the configured address and port on it, joins the protocol's multicast group on it and switches loopback off, in this order and nothing after a step that fails; an unknown interface touches no socket and is reported by name, other failures as I/O errors. The controller then is idle, numbers messages from 0, and sends to the configured peer address and port on that interface with the configured retries. The tool passes its options on unchanged and never panics here.", "quantifier": "every operating system's answers and every configuration", "why_tests_cant": "Failures of each system call at each step cannot be provoked in tests.", "anchors": ["controller/src/controller.rs:111-182", "controller/src/ioloop.rs:67-89", "controller/src/bin/xcvradm.rs:896-944"]}
{"id": "C87", "title": "Command lines that would reach unreachable code are rejected", "statement": "The options declared for each command are accepted together exactly when: fields and separators come with parseable output; --with, --without, --all and --parseable of status exclude each other (except --with and --without); reads and writes name exactly one interface, a bank only with CMIS; a named input file comes with its kind. No accepted command reaches a place marked unreachable because clap checks it. Each command has the options with the names and letters the declarations give; within a command every long name and every letter denotes one option.", "quantifier": "all commands with all combinations of options and values", "why_tests_cant": "Combinations of up to nine options for each of 24 commands; the rules are attributes spread over declarations.", "anchors": ["controller/src/bin/xcvradm.rs:141-216", "controller/src/bin/xcvradm.rs:329-716", "controller/src/bin/xcvradm.rs:970-991"]}
{"id": "C88", "title": "How a query for decoded data ends", "statement": "A query for vendor data, memory models, monitors, datapaths or power states over modules with any memory returns exactly when every module that answers is of a supported kind and has memory its decoder accepts (no reserved bank code, bias scale, unknown media type or unlisted application, each for its own query). Otherwise modules are read kind by kind in the order of their identifier byte (the unassigned codes 31 and 32 last), and the first kind with a problem decides: an unsupported kind fails the query with that kind's error, undecodable memory crashes it. The commands of the tool end in the same way, so printing never adds a failure.", "quantifier": "all racks of modules with any byte memories or failing reads, all module sets, all states of an honest SP", "why_tests_cant": "Which of several bad modules decides the outcome depends on all memories and the derived order of an enumeration with catch-all variants.", "anchors": ["controller/src/controller.rs:1177-1298", "controller/src/controller.rs:351-473", "controller/src/bin/xcvradm.rs:955-1452"]}
{"id": "C89", "title": "Texts that are flags", "statement": "A text is read as status flags exactly when it is blank, for no flags, or consists of words with bars between and blanks around, each the exact name of a flag or 0x and a hexadecimal number of the status's width; the flags are those of all the words. Flags are shown as the names of the flags in order, then the bits without a name as one number. The title over the table for --with and --without, read as flags, gives the flags asked for. Only flags a module can have are accepted.", "quantifier": "all texts, all values of both status types", "why_tests_cant": "All texts times all flag sets, including numbers with bits that no flag defines.", "anchors": ["messages/src/message.rs:787-799,945-965", "controller/src/bin/xcvradm.rs:317-319,1622-1639"]}
{"id": "C90", "title": "The loop and the handler of SP requests do not wait for each other", "statement": "Requests from the SP go to a handler and its replies come back over bounded channels. Each request is handed over once and in order and answered once and in order; no channel exceeds its capacity; apart from waiting, the loop does what it would do alone. Whatever has happened, a few steps of the handler bring the loop back from waiting, so the handler cannot keep a caller from being answered. The one state in which each waits for the other needs as many unanswered SP requests as both channels hold and two more, and does not arise if replies are taken before anything else.", "quantifier": "all handlers, capacities and retry settings, all interleavings of loop, handler, callers and network", "why_tests_cant": "A deadlock needs several datagrams within one schedule of two tasks; tests with one request at a time cannot show it.", "anchors": ["controller/src/ioloop.rs:67-89,267-321,774-806", "controller/src/lib.rs:333", "controller/src/bin/xcvradm.rs:915-940"]}
{"id": "C91", "title": "Calls end in time", "statement": "If the runtime polls tasks and fires timers within a given slack, a call made alone on a controller, used before in any way, has ended at most n * (slack + attempts * (retry interval + slack)) + its pauses + two slacks per pause after it was made, whatever the network and the SP do; n is 1 for single requests, 2 for writes, resets (with 2.00001 s of pauses) and the like, up to 41 for datapaths and 20 for set_power. Whatever has happened, it can still end in time, and it returns what the call returns for the answers it got. A silent SP is waited for through all attempts, so without a limit of retries the bound is 2^64 - 1 intervals.", "quantifier": "all calls and arguments, all timed interleavings of call, loop and network, all settings and earlier uses", "why_tests_cant": "Time adds up over every request, resend, fault and pause of a call; a bound needs the loop, the timer and the call together.", "anchors": ["controller/src/controller.rs:185-1316", "controller/src/ioloop.rs:67-89,206-215,668-883"]}
{"id": "C92", "title": "Calls made at the same time end in time", "statement": "Any number of calls may be made on one controller at any times, and any of them may be given up (its future dropped) at any time. If tasks are polled and timers fire within a given slack and never more than w calls wait for replies at once, each call that is not given up has ended at most n * (2 slack + w * (slack + attempts * (retry interval + slack))) + its pauses + two slacks per pause after it was made, with n as for a call alone, whatever the network, the SP and the other calls do; w is never more than the number of calls. Requests are served in the order they were made: while one waits, none made later is taken. Whatever has happened, all calls not given up can still end in time, and each returns what the call returns for its own replies.", "quantifier": "all lists of calls with start times, all timed interleavings of calls, give-ups, loop and network, all settings", "why_tests_cant": "Starvation or a lost turn needs several callers in one schedule of a one-place channel; tests use one caller.", "anchors": ["controller/src/controller.rs:147,185-1316", "controller/src/lib.rs:331-333", "controller/src/ioloop.rs:67-89,206-215,668-883"]}
{"id": "C93", "title": "A call that is given up does not disturb the others", "statement": "Callers may give up calls (drop their futures, as a time-out does) at any time. Then the I/O task goes on and is stopped by nothing but what stops it otherwise: a packet that is too long, an SP request after the handler is gone, or a response header without a body. (It is false: once the request of a given-up call is in the channel or with the task, whatever resolves it panics the task, within slack + 2 * attempts * (retry interval + slack) of the give-up; nobody gets a reply after it is taken, and all waiting and later calls panic. It holds for calls given up at other moments, and then the task does exactly what it does when nobody leaves.)", "quantifier": "all lists of calls with start times, all timed interleavings of calls, give-ups, loop and network, all settings", "why_tests_cant": "The window is between putting the request in the channel and the reply; the tests never drop a call.", "anchors": ["controller/src/ioloop.rs:193-195,416-418,635-637,742,758", "controller/src/controller.rs:1301-1316"]}
{"id": "C94", "title": "A run of the tool ends in time and prints what the SP says", "statement": "A run of xcvradm with any arguments asks its requests one after the other and stops at the first error; only a status command goes on, from an extended status it cannot have to the plain one. With the retries and the interval of its arguments it has ended, in a runtime with a given slack, at most (requests to choose the modules + requests of the command) * (slack + attempts * (interval + slack)) + pauses + two slacks per pause after its start, whatever the network and the SP do, and prints what main prints for the replies of the loop. Over a network that loses, repeats, reorders and delays, with an SP whose answers depend on the question only, it ends with an error of the loop or prints what it prints when it talks to the SP directly; each of its requests is well made, and it ends under every fair schedule. Without --n-retries, which is the default, a silent SP is waited for through 2^64 - 1 intervals.", "quantifier": "all arguments, all timed interleavings of tool, loop and network, all SPs", "why_tests_cant": "Every command, selection and network history; the fall-back of status needs a failing SP at one moment.", "anchors": ["controller/src/bin/xcvradm.rs:894-1516", "controller/src/controller.rs:185-1316", "controller/src/ioloop.rs:67-89,206-215,668-883"]}
{"id": "C95", "title": "Requests of the SP delay calls by no more than the handler takes", "statement": "Requests sent by the SP are handed to a handler over a bounded channel, on which the I/O task waits while it is full. If tasks are polled and timers fire within slack s, and each step of the handler while the task waits takes no longer than l, then the bounds for calls made at the same time, and for a run of xcvradm, hold with 2 s + 3 l for s, however many such requests come, as long as the task and the handler are never both waiting for room on each other's channel; and then, whatever has happened, all calls not given up can still end in time. That does not come about while no more than in + out + 1 requests were handed over (the capacities of the channels), nor if the task takes replies before datagrams. Where it does come about, which the tool's own handler allows, every waiting call waits for ever. Each call returns what it returns for its own replies; and as long as none is given up, each request reaches the handler, and each of its replies the task, in order and once.", "quantifier": "all calls, handlers, capacities, channel contents, timed interleavings of calls, give-ups, loop, handler and network", "why_tests_cant": "Needs the loop's wait, the handler's three steps and the timer of an outstanding request in one schedule.", "anchors": ["controller/src/ioloop.rs:67-89,206-215,267-321,668-883", "controller/src/controller.rs:147,185-1316", "controller/src/lib.rs:331-333", "controller/src/bin/xcvradm.rs:915-940"]}
{"id": "C96", "title": "Over a network that keeps order, what is done is what was asked, each once", "statement": "If datagrams may be lost, repeated and delayed but do not overtake each other, and a request that comes again right after itself makes no difference to the SP (it only sets things, or remembers the last datagram), then the SP does some of the requests, each once and in order, among them each whose answer was returned. A call that has ended without being told an error returns what it returns when it talks to the SP directly, and leaves the SP as it does then; a call that stops at an error leaves the SP in a state the direct call goes through. So what set_power, write, reset and set_leds report as done over such a network is done. If datagrams can overtake each other this is false: a reset is reported as done while the module is left in reset.", "quantifier": "all SPs with state, all calls, all interleavings of call, loop, network and SP in which datagrams keep their order", "why_tests_cant": "Resends make duplicates that reach the SP after the answer; whether that matters depends on every later request.", "anchors": ["controller/src/controller.rs:185-1316", "controller/src/ioloop.rs:193-321,668-883"]}
{"id": "C97", "title": "Pins of modules are set in a safe order", "statement": "At every moment of set_power and reset, also when the call is interrupted, and whatever modules refuse, LPMode is asserted only for modules that have power (otherwise they would be powered through that pin), and power is taken only from modules that are in reset with LPMode off. A module gets power only while in reset, and leaves reset only with power and with LPMode as asked for. While being set to off, and during a reset, the pins of each module are as they were or as one of the steps leaves them. Modules that are on are neither reset nor powered again. All this over a network that keeps order too.", "quantifier": "all SPs that drive modules, all sets of modules, all states, all refusals, all moments of a call", "why_tests_cant": "The order of five requests, each for another set of modules, computed from answers and failures of the earlier ones.", "anchors": ["controller/src/controller.rs:290-307,479-700,841-926"]}
{"id": "C98", "title": "What the tool does not list as failed is done, and what it shows is true", "statement": "If a run of xcvradm without --ignore-errors ends well, then what its command asks for has been done to every module it addressed that has no line on standard error: the power state, pin, LED or bytes are as asked, and queries change nothing. What a query shows of a module is what the module holds (the status command its extended status, or its plain one from an SP that does not know the extended one), and each addressed module is shown or has a line on standard error. At any moment, also of runs that fail, modules not addressed are as they were. Addressed are the modules named with -t: by index, all, present, of a kind, or in a power state. All this over a network that loses and repeats datagrams but keeps their order too. (False for setting several modules to low or high power, where a module that is on is left as it is and nothing is printed; and a present module whose status the SP cannot read is silently not addressed.)", "quantifier": "all SPs that drive modules, all modules, all arguments, all refusals, all network histories that keep order", "why_tests_cant": "Joins the choice of modules, the call, the split into results and failures, and the printing; any module lost on the way is lost silently.", "anchors": ["controller/src/bin/xcvradm.rs:894-1516", "controller/src/controller.rs:185-1316", "controller/src/results.rs:1-260"]}
{"id": "C99", "title": "A call for several modules does to each what the call for it alone does", "statement": "Let modules be independent: each has its own state, and its answer and next state depend only on that state and what is asked of it. Then a call for a set of modules that returns does to each module of the set, and reports of it, exactly what the same call made for it alone does, from any state of the others; a call for the union of two disjoint sets does the same as a call for one followed by a call for the other; and a call returns exactly if it returns for each module alone. This is for setting pins, LEDs and latches, status, extended status, LEDs, identifiers, reset, power off, reads and writes of memory (however the reads are split over messages), and for the power, power control, vendor, memory model, monitor and datapath queries (which split modules by kind). (False for which error a failing query reports of a module, and for set_power to low or high.)", "quantifier": "all sets of modules, all independent modules with arbitrary states, answers and errors, all arguments", "why_tests_cant": "Calls batch: replies are packed, reads split, modules grouped by kind, filtered, failures merged; any mix-up shows between modules.", "anchors": ["controller/src/controller.rs:185-700,1005-1334", "controller/src/results.rs:1-260"]}
{"id": "C100", "title": "Calls at the same time for different modules do not disturb each other", "statement": "Any number of calls run at the same time over one loop, and over a network that loses, repeats and delays datagrams but keeps their order, with an SP that remembers the last datagram and whose modules know nothing of each other. A call whose modules no other call is for, once it has ended without being told an error, returns what it returns alone and has left its modules as it leaves them alone; if it stops at errors, it returns the error it was told, and at any moment its modules are as at some point of the call alone. This holds whatever the other calls are, which modules they share among themselves, where they stop, and in whatever order all their requests are taken up. So what set_power, reset, write and set_leds report as done is so when all calls run together. Modules no call is for are never changed. Every call of the controller addresses only the modules it is for. (For calls that share a module this is false: another call's request between the two of a reset leaves the module in reset, and the reset is reported as done.)", "quantifier": "all numbers of calls, all interleavings and network histories that keep order, all SPs whose modules are independent, all module sets", "why_tests_cant": "All calls share one request queue, one id counter, one outstanding slot and one SP; a reply or request of one call reaching another shows here.", "anchors": ["controller/src/controller.rs:90-360,479-1334", "controller/src/ioloop.rs:193-321,668-883"]}
{"id": "C101", "title": "A module that is on goes straight to the power state asked for", "statement": "At every moment of set_power to low or high power, also when the call is interrupted, and whatever modules refuse, a module that was on (asked for or not, alone or with modules that are off) keeps its power and is not reset; it is in the power state it was in or in the one asked for, so one that is already in the state asked for never leaves it; its LED and every byte of its memory but the one with the software power control stay as they were. Whether its software control overrides its LPMode pin stays as it was.", "quantifier": "all SPs that drive modules, all sets of modules, all states, all refusals, all moments of a call", "why_tests_cant": "A change has a pin step and a memory step that can contradict each other, and is batched with modules that must be reset and powered up.", "anchors": ["controller/src/controller.rs:475-835"]}
{"id": "C102", "title": "What the tool shows of memory can be written back with it", "statement": "The line that xcvradm read-lower or read-upper prints of a module with --parseable --output data --omit-header, in hexadecimal or binary, with its commas made blanks, is what xcvradm write-lower or write-upper takes on standard input: if both runs end well, then each module written to that has no line on standard error holds, in the window, what the first module held when it was read, and is otherwise as it was before the write. A window longer than one write may be (4 bytes for SFF-8636, 8 for CMIS) is never written, not even in part: the tool ends with an error and modules stay as they were. Without making the commas blanks, one byte is taken and more are refused.", "quantifier": "all SPs that drive modules, all memories, all windows and lengths up to 255, all modules written to and any time between the runs", "why_tests_cant": "The tool is used to save and restore or copy settings; its output and input formats, buffer sizes and limits differ.", "anchors": ["controller/src/bin/xcvradm.rs:704-892", "controller/src/bin/xcvradm.rs:1687-1733", "messages/src/mgmt/mod.rs:349-366"]}
{"id": "C103", "title": "What one run of the tool sets, a later one shows", "statement": "If xcvradm set-power, set-leds, write-lower or write-upper ends without a line on standard error about a module, and the module is left alone, then a later xcvradm power, leds, read-lower or read-upper (of the bytes written, or some of them) that has no line on standard error about it shows it in a row, and every row for it has the power state, the LED state or the bytes that were set. This also holds when datagrams are lost and repeated in order and the SP remembers the last one.", "quantifier": "all SPs that drive modules, all sets of modules of both runs, all states, data and windows", "why_tests_cant": "Two runs through argument handling, memory encoding, network and printing, over all modules and values.", "anchors": ["controller/src/bin/xcvradm.rs:894-1516", "controller/src/bin/xcvradm.rs:1640-1733", "controller/src/controller.rs:185-835"]}
