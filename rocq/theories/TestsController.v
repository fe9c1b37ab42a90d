(** The unit tests of the controller crate, run against the model.

    Each [Example] transcribes one [#[test]] of /repo/controller/src (named in the comment), with the
    model's functions in place of the code's.  They are tests of the model, not theorems.  The mock
    SP of controller.rs talks to the model of the I/O loop in datagrams. *)
From Coq Require Import String.
From Verif Require Import Tac LargeAccess Config CliText JsonPower Queries Controller TestsMessages.
Import ListNotations.
#[local] Open Scope N_scope.

(** ** controller/src/large_access.rs *)
Definition SFF := PageSff SffLower.
Definition CMIS := PageCmis CmisLower.
Definition split_ok (p : Page) (offset len : N) (expected : list (N * N)) : bool :=
  match build_many_reads p offset len with
  | Ok reads =>
      forallb (fun x => (rd_offset (fst x) =? fst (snd x)) && (rd_len (fst x) =? snd (snd x))) (combine reads expected)
      && Nat.eqb (List.length reads) (List.length expected)
  | _ => false
  end.
Definition strided (start size : N) (n : nat) : list (N * N) := map (fun k => (start + size * k, size)) (nrange 0 n).
Example test_build_large_memory_access_even_split :
  split_ok CMIS 0 64 (strided 0 8 8) && split_ok SFF 0 64 (strided 0 64 1) = true.
Proof. vm_compute. reflexivity. Qed.
Example test_build_large_memory_accessad_uneven_split :
  split_ok CMIS 0 63 (strided 0 8 7 ++ [(56, 7)]) && split_ok SFF 0 63 [(0, 63)] = true.
Proof. vm_compute. reflexivity. Qed.
Definition upper0 : option (Page * Page) :=
  match cmis_new_unbanked 0, sff_upper_new 0 with
  | Ok c, Ok s => Some (PageCmis (CmisUpper c), PageSff s)
  | _, _ => None
  end.
Example test_build_large_memory_access_at_boundary :
  match upper0 with
  | Some (c, s) => split_ok c 192 64 (strided 192 8 8) && split_ok s 192 64 (strided 192 64 1) = true
  | None => False
  end.
Proof. vm_compute. reflexivity. Qed.
Example test_build_large_memory_access_exceeding_boundary :
  match upper0 with
  | Some (c, s) => is_err (build_many_reads c 192 65) && is_err (build_many_reads s 192 65) = true
  | None => False
  end.
Proof. vm_compute. reflexivity. Qed.

(** ** controller/src/controller.rs *)
Example test_verify_ids_for_page :
  is_ok (verify_ids_for_page SFF 3 [Qsfp28; QsfpPlusSff8636]) &&
  is_err (verify_ids_for_page SFF 3 [QsfpDD; QsfpPlusCmis]) = true.
Proof. vm_compute. reflexivity. Qed.
Example test_deserialize_power_state :
  map (fun s => power_state_of_json (JString (T s))) ["off"; "low"; "high"]%string =
  [Some PowerOff; Some PowerLow; Some PowerHigh].
Proof. vm_compute. reflexivity. Qed.
Example test_serialize_power_state :
  map power_state_json [PowerOff; PowerLow; PowerHigh] = map (fun s => JString (T s)) ["off"; "low"; "high"]%string.
Proof. vm_compute. reflexivity. Qed.

(** [MockSp]: the expected requests with the responses to give, and whether all was as expected. *)
Record mock := mkMock
  { mk_script : list (HostRequest * SpResponse * list N); mk_alive : bool; mk_loop : loop }.
Definition first_tx (l : list output) : option (list N) :=
  match flat_map (fun o => match o with OTx _ d => [d] | _ => [] end) l with d :: _ => Some d | [] => None end.
Definition first_reply (l : list output) : option reply :=
  match flat_map (fun o => match o with OReply _ r => [r] | _ => [] end) l with r :: _ => Some r | [] => None end.
Definition dead (m : mock) : mock * reply := (mkMock [] false (mk_loop m), Err EIo).
(** One round of [MockSp::run] and of the loop: the request goes out as a datagram, its header and
    message are decoded and compared, and the response datagram comes back. *)
Definition mock_sp (m : mock) (r : Rpc) : mock * reply :=
  match mk_script m with
  | [] => dead m
  | (expected, response, data) :: rest =>
      let (s1, out1) := step (mk_loop m) (EvRequest 0 r true) in
      match first_tx out1 with
      | None => dead m
      | Some d =>
          match dec_header d with
          | None => dead m
          | Some (h, remainder) =>
              match dec_message remainder with
              | None => dead m
              | Some (msg, _) =>
                  if text_eqb (enc_message msg) (enc_message (message_new (BHostRequest expected))) then
                    let answer := message_new (BSpResponse response) in
                    let packet := enc_header (header_new (h_id h) (message_kind answer)) ++ enc_message answer ++ data in
                    let (s2, out2) := step s1 (EvDatagram 1 packet true) in
                    match first_reply out2 with
                    | Some x => (mkMock rest (mk_alive m) s2, x)
                    | None => dead m
                    end
                  else dead m
              end
          end
      end
  end.
Definition setup (script : list (HostRequest * SpResponse * list N)) : world mock :=
  mkWorld (mkMock script true (loop_new None)) 0 [].
(** The call gives this result and the mock has seen all it expected. *)
Definition gives {A} (script : list (HostRequest * SpResponse * list N)) (call : ctl (St := mock) A)
    (x : outcome Error A) : Prop :=
  let (w, r) := call (setup script) in
  r = x /\ mk_script (w_sp w) = [] /\ mk_alive (w_sp w) = true.
Definition status_bytes (l : list (list N)) : list N := map (fun s => fold_left N.lor s 0) l.
(** [hubpack::serialize] of [HwError::FpgaError] and [HwError::Unknown]: the positions of the variants. *)
Definition FPGA : N := 2.
Definition UNKNOWN : N := 14.
Definition hw (i : N) : TransceiverError := TeHardware i HwFpgaError None.

Definition good_macs := mkMacAddrs (mkMac 0xa8 0x40 0x25 0xff 0xff 0xfe) 1 1.
Definition bad_macs := mkBadRange SpansMultipleOuis (mkMac 0xa8 0x40 0x25 0xff 0xff 0xfe) 100 100.
Example test_macs :
  gives [(HMacAddrs, SMacAddrs (MacOk good_macs), [])] (mac_addrs mock_sp) (Ok good_macs) /\
  gives [(HMacAddrs, SMacAddrs (MacError bad_macs), [])] (mac_addrs mock_sp) (Err (EMac bad_macs)).
Proof. vm_compute. auto 10. Qed.

Definition ident_read := mkRead SFF 0 1.
Example test_identifier :
  gives [(HRead 3 ident_read, SRead 3 0 ident_read, [0x0d; 0x1e])] (identifier mock_sp 3)
        (Ok (mkResult 3 [QsfpPlusSff8636; QsfpPlusCmis] failed_success)) /\
  gives [(HRead 3 ident_read, SRead 2 1 ident_read, [0x0d; FPGA])] (identifier mock_sp 3)
        (Ok (mkResult 2 [QsfpPlusSff8636] (mkFailed 1 [hw 0]))).
Proof. vm_compute. auto 10. Qed.

Definition simple_ack_op (q : HostRequest) (call : ctl (St := mock) (Result unit)) : Prop :=
  gives [(q, SAck 3 0, [])] call (Ok (mkResult 3 [tt; tt] failed_success)) /\
  gives [(q, SAck 2 1, [FPGA])] call (Ok (mkResult 2 [tt] (mkFailed 1 [hw 0]))).
Example test_assert_lp_mode : simple_ack_op (HAssertLpMode 3) (assert_lpmode mock_sp 3).
Proof. vm_compute. auto 10. Qed.
Example test_deassert_lp_mode : simple_ack_op (HDeassertLpMode 3) (deassert_lpmode mock_sp 3).
Proof. vm_compute. auto 10. Qed.
Example test_enable_power : simple_ack_op (HEnablePower 3) (enable_power mock_sp 3).
Proof. vm_compute. auto 10. Qed.
Example test_disable_power : simple_ack_op (HDisablePower 3) (disable_power mock_sp 3).
Proof. vm_compute. auto 10. Qed.
Example test_assert_reset : simple_ack_op (HAssertReset 3) (assert_reset mock_sp 3).
Proof. vm_compute. auto 10. Qed.
Example test_deassert_reset : simple_ack_op (HDeassertReset 3) (deassert_reset mock_sp 3).
Proof. vm_compute. auto 10. Qed.
Example test_clear_power_fault : simple_ack_op (HClearPowerFault 3) (clear_power_fault mock_sp 3).
Proof. vm_compute. auto 10. Qed.
Example test_unknown_unknown_hw_error :
  gives [(HAssertReset 1, SAck 0 1, [0xff])] (assert_reset mock_sp 1)
        (Ok (mkResult 0 [] (mkFailed 1 [TeHardware 0 HwUnknown (Some (UnknownUnknown 0xff))]))).
Proof. vm_compute. auto 10. Qed.
Example test_known_unknown_hw_error :
  gives [(HAssertReset 1, SAck 0 1, [UNKNOWN])] (assert_reset mock_sp 1)
        (Ok (mkResult 0 [] (mkFailed 1 [TeHardware 0 HwUnknown (Some KnownUnknown)]))).
Proof. vm_compute. auto 10. Qed.

(** [PowerControl::reads(id).unwrap()[0]] *)
Definition power_read (id : Identifier) : MemoryRead :=
  match power_reads id with Ok (r :: _) => r | _ => ident_read end.
Definition on_ := [ST_POWER_GOOD; ST_ENABLED].
Definition on_low := [ST_POWER_GOOD; ST_ENABLED; ST_LOW_POWER_MODE].
Example test_power_mode_no_failures :
  gives [(HStatus 0x3f, SStatus 0x3f 0,
          status_bytes [[]; ST_RESET :: on_low; on_low; on_low; on_; on_]);
         (HRead 0x3c ident_read, SRead 0x3c 0 ident_read, [0x0d; 0x0d; 0x1e; 0x1e]);
         (HRead 0x0c (power_read QsfpPlusSff8636), SRead 0x0c 0 (power_read QsfpPlusSff8636), [2; 3]);
         (HRead 0x30 (power_read QsfpPlusCmis), SRead 0x30 0 (power_read QsfpPlusCmis), [0x40; 0x00])]
        (power mock_sp 0x3f)
        (Ok (mkResult 0x3f
               [mkPowerMode PowerOff None; mkPowerMode PowerOff None;
                mkPowerMode PowerLow (Some false); mkPowerMode PowerLow (Some true);
                mkPowerMode PowerHigh (Some false); mkPowerMode PowerHigh (Some true)]
               failed_success)).
Proof. vm_compute. auto 10. Qed.
(** As in the code's test, the last response echoes another read. *)
Example test_power_mode_with_failures :
  gives [(HStatus 15, SStatus 14 1, status_bytes [on_low; on_low; on_low] ++ [FPGA]);
         (HRead 14 ident_read, SRead 12 2 ident_read, [0x0d; 0x0d; FPGA]);
         (HRead 12 (power_read QsfpPlusSff8636), SRead 8 4 ident_read, [2; FPGA])]
        (power mock_sp 15)
        (Ok (mkResult 8 [mkPowerMode PowerLow (Some false)] (mkFailed 7 [hw 0; hw 1; hw 2]))).
Proof. vm_compute. auto 10. Qed.
Example test_set_power_mode_off :
  gives [(HDeassertLpMode 15, SAck 14 1, [FPGA]);
         (HAssertReset 14, SAck 12 2, [FPGA]);
         (HDisablePower 12, SAck 8 4, [FPGA])]
        (set_power mock_sp 15 PowerOff)
        (Ok (mkResult 8 [tt] (mkFailed 7 [hw 0; hw 1; hw 2]))).
Proof. vm_compute. auto 10. Qed.

Definition nth_memory_read (id : Identifier) (k : nat) : MemoryRead :=
  match memory_reads id with Ok l => nth k l ident_read | _ => ident_read end.
Definition cmis_model : option MemoryModel :=
  match omapM (fun p => @new_cmis_unbanked unit p) [0; 1; 2], omapM (fun p => @new_cmis_banked unit p 1) [0x10; 0x11],
        @new_cmis_unbanked unit 3 with
  | Ok a, Ok b, Ok c => Some (Paged (page_sort (a ++ b ++ [c])))
  | _, _, _ => None
  end.
Definition model_script (last : SpResponse) (data : list N) : list (HostRequest * SpResponse * list N) :=
  let s0 := nth_memory_read QsfpPlusSff8636 0 in let s1 := nth_memory_read QsfpPlusSff8636 1 in
  let c0 := nth_memory_read QsfpPlusCmis 0 in let c1 := nth_memory_read QsfpPlusCmis 1 in
  [(HRead 3 ident_read, SRead 3 0 ident_read, [0x0d; 0x1e]);
   (HRead 1 s0, SRead 1 0 s0, [4]); (HRead 1 s1, SRead 1 0 s1, [0]);
   (HRead 2 c0, SRead 2 0 c0, [0]); (HRead 2 c1, last, data)].
Example test_memory_model :
  let c1 := nth_memory_read QsfpPlusCmis 1 in
  match cmis_model with
  | Some cmis =>
      gives (model_script (SRead 2 0 c1) [5]) (memory_model mock_sp 3)
            (Ok (mkResult 3 [Flat; cmis] failed_success)) /\
      gives (model_script (SRead 0 2 c1) [FPGA]) (memory_model mock_sp 3)
            (Ok (mkResult 1 [Flat] (mkFailed 2 [hw 1])))
  | None => False
  end.
Proof. vm_compute. auto 10. Qed.
Example test_parse_modules_by_identifier_out_of_order :
  gives [(HStatus 3, SStatus 3 0, status_bytes [on_low; on_]);
         (HRead 3 ident_read, SRead 3 0 ident_read, [0x1e; 0x0d]);
         (HRead 2 (power_read QsfpPlusSff8636), SRead 2 0 (power_read QsfpPlusSff8636), [0]);
         (HRead 1 (power_read QsfpPlusCmis), SRead 1 0 (power_read QsfpPlusCmis), [0x10])]
        (power mock_sp 3)
        (Ok (mkResult 3 [mkPowerMode PowerLow (Some true); mkPowerMode PowerHigh (Some false)] failed_success)).
Proof. vm_compute. auto 10. Qed.
Definition read128 := mkRead SFF 0 128.
Example test_fits_in_one_message :
  fits_in_one_message 1 read128 = true /\ fits_in_one_message m_all read128 = false.
Proof. vm_compute. auto. Qed.
Example test_split_large_reads :
  split_large_reads 1 read128 = Ok [1] /\
  match from_indices (nrange 0 9), from_indices (nrange 0 16) with
  | Ok m, Ok m2 =>
      match split_large_reads m read128, split_large_reads m2 read128 with
      | Ok [a; b], Ok [c; d] =>
          m_merge a b = m /\ a = m_remove m b /\ b = m_remove m a /\ (m_count a + m_count b = m_count m)%nat /\
          m_count c = m_count d /\ m_merge c d = m2 /\ c = m_remove m2 d /\ d = m_remove m2 c /\
          (m_count c + m_count d = m_count m2)%nat
      | _, _ => False
      end
  | _, _ => False
  end.
Proof. vm_compute. auto 20. Qed.

(** ** controller/src/ioloop.rs *)
Definition request : Rpc := mkRpc (header_new 0 KHostRequest) (message_new (BHostRequest (HStatus 1))) None.
Definition started : loop * list output := step (loop_new None) (EvRequest 7 request true).
(** A datagram with this header and these bytes arrives while the request waits. *)
Definition hears (h : Header) (rest : list N) : list output :=
  snd (step (fst started) (EvDatagram 1 (enc_header h ++ rest) true)).
Definition from_sp (k : MessageKind) : Header := header_new 0 k.
Definition junk : list N := repeat 0xff MAX_SIZE_message.
Example test_handle_sp_response_to_outstanding_request :
  let m := message_new (BSpResponse (SStatus 1 0)) in
  hears (from_sp KSpResponse) (enc_message m ++ [0]) = [OReply 7 (Ok (mkRpc (from_sp KSpResponse) m (Some [0])))].
Proof. vm_compute. reflexivity. Qed.
Example test_handle_sp_response_to_outgoing_request_missing_error_data :
  hears (from_sp KSpResponse) (enc_message (message_new (BSpResponse (SStatus 0 1)))) =
  [OReply 7 (Err (EProtocol (PeWrongDataSize 1 0)))].
Proof. vm_compute. reflexivity. Qed.
Example test_handle_sp_response_to_outgoing_request_message_serialization_failure :
  hears (from_sp KSpResponse) junk = [OReply 7 (Err (EProtocol PeSerialization))].
Proof. vm_compute. reflexivity. Qed.
Example test_send_outgoing_request :
  match first_tx (snd started) with
  | Some d => match dec_header d with
              | Some (h, r) => h = rpc_header request /\ dec_message r = Some (rpc_message request, [])
              | None => False
              end
  | None => False
  end.
Proof. vm_compute. auto. Qed.
Example test_send_protocol_error :
  let h := header_new 0 KError in
  match send_protocol_error 1 h (PeVersionMismatch 0 1) with
  | OProtoError 1 d => match dec_header d with
                       | Some (h', r) => h' = h /\ dec_message r = Some (message_new (BError (PeVersionMismatch 0 1)), [])
                       | None => False
                       end
  | _ => False
  end.
Proof. vm_compute. auto. Qed.
Example test_handle_sp_error :
  hears (from_sp KError) (enc_message (message_new (BError (PeVersionMismatch 1 2)))) =
  [OReply 7 (Err (EProtocol (PeVersionMismatch 1 2)))].
Proof. vm_compute. reflexivity. Qed.
(** The peer hears the request, answers junk under another number, and hears it again. *)
Definition junk_round (s : loop * list output) : loop * list output :=
  let (s1, o1) := step (fst s) (EvDatagram 1 (enc_header (header_new 1 KSpResponse) ++ junk) true) in
  let (s2, o2) := step s1 (EvTick true) in (s2, o1 ++ o2).
Example test_handle_faulty_message_limit :
  first_reply (snd (Nat.iter (N.to_nat NUM_ALLOWED_ERROR_MESSAGES) junk_round started)) =
  Some (Err (EMaxFaultMessages NUM_ALLOWED_ERROR_MESSAGES)).
Proof. vm_compute. reflexivity. Qed.

(** ** controller/src/results.rs *)
Definition port (n : N) : TransceiverError := TePort (mkInvalidPort n).
Definition a1 : Result N := mkResult 1 [0] failed_success.
Example test_merge_module_result_overlap :
  result_merge a1 a1 = None /\
  result_merge (mkResult 1 [0] (mkFailed 1 [port 100])) (mkResult 2 [0] (mkFailed 1 [port 100])) = None.
Proof. vm_compute. auto. Qed.
Example test_merge_module_result_no_overlap :
  result_merge (mkResult 2 [0] (mkFailed 1 [port 100])) (mkResult 4 [1] failed_success) =
  Some (mkResult 6 [0; 1] (mkFailed 1 [port 100])).
Proof. vm_compute. reflexivity. Qed.
Example test_merge_module_result_new_failure :
  let b := mkResult 4 [1] (mkFailed 2 [port 100]) in
  result_merge (mkResult 2 [0] failed_success) b = Some b.
Proof. vm_compute. reflexivity. Qed.
Example test_merge_module_result_old_failure_is_sticky :
  let a := mkResult 2 [0] (mkFailed 1 [port 100]) in
  result_merge a (mkResult 1 [1] failed_success) = Some a.
Proof. vm_compute. reflexivity. Qed.
(** As in the code's test, there is more data than modules. *)
Example test_append_module_results_no_errors :
  match result_append (E := TransceiverError) (mkResult 1 [[0]; [1]] failed_success) (mkResult 1 [[2]; [3]] failed_success) with
  | Some c => mr_modules c = 1 /\ nth_error (mr_data c) 0 = Some [0; 2]
  | None => False
  end.
Proof. vm_compute. auto. Qed.
Example test_append_module_results_removes_failures :
  result_append (mkResult 1 [[0]; [1]] failed_success) (mkResult 0 [] (mkFailed 1 [port 0])) =
  Some (mkResult 0 [] (mkFailed 1 [port 0])).
Proof. vm_compute. reflexivity. Qed.
Example test_append_module_results_returns_none_with_new_successes :
  result_append (E := TransceiverError) (mkResult 1 [[0]] failed_success) (mkResult 3 [[0]; [0]] failed_success) = None.
Proof. vm_compute. reflexivity. Qed.
Example test_append_module_results_returns_none_with_new_errors :
  result_append (mkResult 1 [[0]] failed_success) (mkResult 1 [[0]] (mkFailed 2 [port 1])) = None.
Proof. vm_compute. reflexivity. Qed.
Example test_append_module_results_returns_none_with_overlapping_errors :
  result_append (mkResult 1 [[0]] (mkFailed 1 [port 0])) (mkResult (P := list N) 0 [] (mkFailed 1 [port 0])) = None.
Proof. vm_compute. reflexivity. Qed.

(** ** controller/src/config.rs, on a machine with these interfaces *)
Definition localhost : ipv6 := [0; 0; 0; 0; 0; 0; 0; 1].
Definition ll : ipv6 := [0xfe80; 0; 0; 0; 0; 0; 0; 7].
Definition machine : option (list ifaddr) :=
  Some [mkIf (T "lo0") (Some OtherFamily); mkIf (T "lo0") (Some (In6 localhost)); mkIf (T "net0") (Some (In6 ll))].
Example test_config_builder :
  is_err (build machine (builder_new (T "badif"))) && is_err (build machine (builder_new (T "lo0"))) &&
  is_ok (build machine (set_address (builder_new (T "lo0")) localhost)) &&
  is_ok (build machine (set_address (builder_new (T "net0")) ll)) &&
  is_err (build machine (set_address (builder_new (T "net0")) (repeat 0 8))) = true.
Proof. vm_compute. reflexivity. Qed.

(** ** controller/src/bin/xcvradm.rs *)
Definition from_file (contents : list N) (k : InputKind) : outcome unit (list N) :=
  load_write_data 512 (List.length contents) (Some (Some contents)) (Some k) [].
Example test_load_write_data_binary : from_file [1; 2; 3] Binary = Ok [1; 2; 3].
Proof. vm_compute. reflexivity. Qed.
Example test_load_write_data_binary_string : from_file (T "0b00 0b01 0b11") BinaryString = Ok [0; 1; 3].
Proof. vm_compute. reflexivity. Qed.
Example test_load_write_data_binary_string_with_0b_prefix : from_file (T "00 01 11") BinaryString = Ok [0; 1; 3].
Proof. vm_compute. reflexivity. Qed.
Example test_load_write_data_hex : from_file (T "aa bb cc") Hex = Ok [0xaa; 0xbb; 0xcc].
Proof. vm_compute. reflexivity. Qed.
Example test_load_write_data_hex_with_0x_prefix : from_file (T "0xaa 0xbb 0xcc") Hex = Ok [0xaa; 0xbb; 0xcc].
Proof. vm_compute. reflexivity. Qed.
Example test_load_write_data_decimal : from_file (T "10 20 30") Decimal = Ok [10; 20; 30].
Proof. vm_compute. reflexivity. Qed.
Example test_load_write_data_decimal_trailing_newline : from_file (T "10 20 30" ++ [10]) Decimal = Ok [10; 20; 30].
Proof. vm_compute. reflexivity. Qed.
Example test_load_write_data_autodetect :
  map (fun s => load_write_data_autodetect_kind 512 512 (T s))
      ["0b1010 0b10100 0b11110"; "0xa 0x14 0x1e"; "10 20 30"]%string = repeat (Ok [10; 20; 30]) 3.
Proof. vm_compute. reflexivity. Qed.
Definition pt (s : string) : outcome unit Transceivers := parse_transceivers (fun c => [c]) (T s).
Example test_parse_transceivers :
  pt "all" = Ok TAll /\ pt "present" = Ok TPresent /\ pt "off" = Ok (TPowerState PowerOff) /\
  pt "low-power" = Ok (TPowerState PowerLow) /\ pt "hi-power" = Ok (TPowerState PowerHigh) /\
  pt "cmis" = Ok (TKind Cmis) /\ pt "sff" = Ok (TKind Sff8636) /\
  map pt ["0"; "0,1,2"; "0-2"; "0,1-2"; "0,0-2"; "0,1,2,0-3"]%string =
    map (fun m => Ok (TIndex m)) [1; 7; 7; 7; 7; 15] /\
  map pt [" "; "10000000"; "0,-1"; "1-"; "1-0"; "0,1000000"; "0-10,1000000"; "0-100"]%string =
    repeat (Err tt) 8.
Proof. vm_compute. auto 20. Qed.
Example test_read_u8 :
  read_u8 (T "01") = Ok 1 /\ read_u8 (T "0x01") = Ok 1 /\ read_u8 (T "ff") = Err tt /\ read_u8 (T "0xff") = Ok 0xff.
Proof. vm_compute. auto. Qed.

(** messages/src/message.rs:1093-1107: test_deserialize_led_state, test_serialize_led_state *)
Example test_led_state_json :
  led_state_of_json (JString (T "off")) = Some LedOff /\ led_state_of_json (JString (T "on")) = Some LedOn /\
  led_state_of_json (JString (T "blink")) = Some LedBlink /\
  led_state_json LedOff = JString (T "off") /\ led_state_json LedOn = JString (T "on") /\ led_state_json LedBlink = JString (T "blink").
Proof. vm_compute. repeat split. Qed.
