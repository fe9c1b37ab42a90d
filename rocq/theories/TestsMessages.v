(** The unit tests of the messages crate, run against the model.

    Each [Example] transcribes one [#[test]] of /repo/messages/src (named in the comment), with the
    model's functions in place of the code's.  They are tests of the model, not theorems. *)
From Verif Require Import Tac Codec ModuleId Results StatusSerde.
From Coq Require Import String.
#[local] Open Scope N_scope.

(** [buf.fill(0); buf[i] = x] for the given positions. *)
Definition buf_with (size : nat) (l : list (nat * N)) : list N :=
  map (fun i => match find (fun p => Nat.eqb (fst p) i) l with Some p => snd p | None => 0 end) (seq 0 size).
Definition decoded {A} (d : decoder A) (buf : list N) : option A := option_map fst (d buf).
(** messages/src/lib.rs:169-187 *)
Definition check_invalid_variants {A} (d : decoder A) (size first : nat) : bool :=
  forallb (fun i => match d (buf_with size [(O, N.of_nat i)]) with None => true | Some _ => false end)
          (seq first (256 - first)).
Definition is_err {E A} (o : outcome E A) : bool := match o with Err _ => true | _ => false end.
Definition is_ok {E A} (o : outcome E A) : bool := match o with Ok _ => true | _ => false end.
Definition reason_of {A} (o : outcome BadMacAddrRange A) : option BadMacAddrReason :=
  match o with Err b => Some (br_reason b) | _ => None end.

(** ** messages/src/mac.rs *)
Definition mac_low (m : Mac) : N := 256 * mac4 m + mac5 m.
Example test_mac_addrs :
  match mac_iter (mkMacAddrs (mkMac 0xa8 0x40 0x25 0 0 0) 8 2) with
  | Ok l => List.length l = 8%nat /\
            map (fun p => mac_low (snd p) - mac_low (fst p)) (combine (firstn 3 l) (skipn 1 l)) = [2; 2; 2]
  | _ => False
  end.
Proof. vm_compute. auto. Qed.
Example test_mac_addrs_is_valid :
  reason_of (mac_addrs_new (mkMac 0xa8 0x40 0x25 0xff 0xff 0xff) 0 1) = Some ZeroStrideOrCount /\
  reason_of (mac_addrs_new (mkMac 0xa8 0x40 0x25 0xff 0xff 0xff) 2 0) = Some ZeroStrideOrCount /\
  reason_of (mac_addrs_new (mkMac 0xa8 0x40 0x25 0xff 0xff 0xff) 2 1) = Some SpansMultipleOuis /\
  reason_of (mac_addrs_new (mkMac 0xa9 0x40 0x25 0xff 0xff 0xff) 2 1) = Some MulticastBaseAddr /\
  reason_of (mac_addrs_new (mkMac 0xa8 0x40 0xff 0x01 0x00 0xff) 65535 255) = Some SpansMultipleOuis /\
  is_ok (mac_addrs_new (mkMac 0xa8 0x40 0xff 0x01 0x00 0xfe) 65535 255) = true.
Proof. vm_compute. auto 10. Qed.
Example test_bad_mac_addr_reason_encoding_unchanged :
  map (fun i => decoded dec_reason (buf_with 1 [(O, i)])) [0; 1; 2] =
    [Some SpansMultipleOuis; Some ZeroStrideOrCount; Some MulticastBaseAddr] /\
  check_invalid_variants dec_reason 1 3 = true.
Proof. vm_compute. auto. Qed.
Example test_bad_mac_addr_range_encoding_unchanged :
  decoded dec_bad_range (buf_with 10 []) = Some (mkBadRange SpansMultipleOuis (mkMac 0 0 0 0 0 0) 0 0).
Proof. vm_compute. auto. Qed.

(** ** messages/src/module_id.rs *)
Example test_module_id_from_indices : from_indices [0; 1; 2] = Ok 7 /\ to_indices 7 = [0; 1; 2].
Proof. vm_compute. auto. Qed.
Example test_module_id_from_indices_out_of_range : from_indices [MAX_INDEX] = Err (mkInvalidPort MAX_INDEX).
Proof. vm_compute. auto. Qed.
Example test_module_id_test_set_clear :
  m_is_set 5 0 = Ok true /\ m_is_set 5 1 = Ok false /\ m_is_set 5 2 = Ok true /\
  (m1 <-? m_set 5 0 ;; m_is_set m1 0) = Ok true /\
  (m1 <-? m_set 5 0 ;; m2 <-? m_set m1 1 ;; m_is_set m2 1) = Ok true /\
  (m1 <-? m_set 5 0 ;; m2 <-? m_set m1 1 ;; m3 <-? m_clear m2 1 ;; m_is_set m3 1) = Ok false /\
  is_err (m_set 5 200) = true /\ is_err (m_clear 5 200) = true /\ is_err (m_is_set 5 200) = true.
Proof. vm_compute. auto 20. Qed.
Example test_module_id_all : m_all = 2 ^ 64 - 1.
Proof. vm_compute. auto. Qed.
Example test_selected_transceiver_count : m_count 5 = 2%nat.
Proof. vm_compute. auto. Qed.
Example test_module_id_remove : m_remove 7 1 = 6.
Proof. vm_compute. auto. Qed.
Example test_module_id_contains : m_contains 1 0 = true /\ m_contains 1 1 = false.
Proof. vm_compute. auto. Qed.
Example test_merge_module_id : merge_module_data 5 [0; 2] 2 [1] = (7, [0; 1; 2]).
Proof. vm_compute. auto. Qed.
Example test_remove_module_data :
  remove_module_data 5 [0; 2] 2 = (5, [0; 2]) /\ remove_module_data 5 [0; 2] 4 = (1, [0]) /\
  keep_module_data 5 [0; 2] 4 = (4, [2]).
Proof. vm_compute. auto. Qed.
Example test_filter_module_data :
  filter_module_data 5 [0; 2] (fun _ d => d mod 2 =? 0) = (5, [0; 2]) /\
  filter_module_data 7 [0; 1; 2] (fun _ d => negb (d mod 2 =? 0)) = (2, [1]).
Proof. vm_compute. auto. Qed.
Example test_bit_ops :
  m_or 5 2 = 7 /\ m_and 5 2 = 0 /\ m_not 5 = 2 ^ 64 - 1 - 5 /\ m_is_empty (m_and 5 2) = true /\ m_and 5 2 = m_empty.
Proof. vm_compute. auto 10. Qed.
Example test_is_subset :
  m_is_subset 5 2 = false /\ m_is_subset 2 5 = false /\ m_is_subset 0 0 = true /\ m_is_subset 1 1 = true /\
  m_is_subset 7 1 = true.
Proof. vm_compute. auto 10. Qed.

(** ** messages/src/mgmt *)
Example test_page :
  is_ok (cmis_new_unbanked 0) = true /\ is_ok (cmis_new_unbanked 0xff) = true /\
  cmis_new_banked 0 1 = Err (PageIsUnbanked 0) /\ cmis_new_banked 0x10 0x10 = Err (InvalidBank 0x10) /\
  is_ok (cmis_new_banked 0x10 1) = true.
Proof. vm_compute. auto 10. Qed.
Example test_upper_page :
  is_ok (sff_upper_new 0) = true /\ is_ok (sff_upper_new 0xff) = true /\ sff_upper_new 0x22 = Err (InvalidPage 0x22).
Proof. vm_compute. auto 10. Qed.

(** [range a b] is [a..b]. *)
Definition range (a b : N) : list N := nrange a (N.to_nat (b - a)).
Definition test_page_memory_read (p : Page) : Prop :=
  map (fun len => read_new p (min_offset p) len) (range 1 (max_read_size p + 1)) =
    map (fun len => Ok (mkRead p (min_offset p) len)) (range 1 (max_read_size p + 1)) /\
  map (fun offset => read_new p offset 1) (range (min_offset p) (max_offset p)) =
    map (fun offset => Ok (mkRead p offset 1)) (range (min_offset p) (max_offset p)) /\
  read_new p (max_offset p) 1 = Ok (mkRead p (max_offset p) 1) /\
  read_new p (max_offset p) 2 = Err (InvalidMemoryAccess (max_offset p) 2).
Definition test_page_memory_write (p : Page) : Prop :=
  map (fun len => write_new p (min_offset p) len) (range 1 (max_write_size p + 1)) =
    map (fun len => Ok (mkWrite p (min_offset p) len)) (range 1 (max_write_size p + 1)) /\
  map (fun offset => write_new p offset 1) (range (min_offset p) (max_offset p)) =
    map (fun offset => Ok (mkWrite p offset 1)) (range (min_offset p) (max_offset p)) /\
  write_new p (max_offset p) 1 = Ok (mkWrite p (max_offset p) 1) /\
  write_new p (max_offset p) 2 = Err (InvalidMemoryAccess (max_offset p) 2).
Example test_memory_read_and_write :
  test_page_memory_read (PageSff SffLower) /\ test_page_memory_read (PageSff (SffUpper 0)) /\
  test_page_memory_read (PageCmis CmisLower) /\ test_page_memory_read (PageCmis (CmisUpper (mkCmisUpper None 0))) /\
  test_page_memory_write (PageSff SffLower) /\ test_page_memory_write (PageSff (SffUpper 0)) /\
  test_page_memory_write (PageCmis CmisLower) /\ test_page_memory_write (PageCmis (CmisUpper (mkCmisUpper None 0))).
Proof. vm_compute. auto 40. Qed.
Example test_management_interface_encoding_unchanged :
  map (fun i => decoded dec_interface (buf_with 2 [(O, i)])) [0; 1; 2] = [Some Sff8636; Some Cmis; Some (UnknownInterface 0)].
Proof. vm_compute. auto. Qed.
Example test_page_encoding_unchanged :
  map (fun i => decoded dec_page (buf_with MAX_SIZE_page [(O, i)])) [0; 1] =
    [Some (PageSff SffLower); Some (PageCmis CmisLower)].
Proof. vm_compute. auto. Qed.
Example test_sff8636_page_encoding_unchanged :
  map (fun i => decoded dec_sff_page (buf_with 2 [(O, i)])) [0; 1] = [Some SffLower; Some (SffUpper 0)].
Proof. vm_compute. auto. Qed.
Example test_cmis_page_encoding_unchanged :
  map (fun i => decoded dec_cmis_page (buf_with 4 [(O, i)])) [0; 1] =
    [Some CmisLower; Some (CmisUpper (mkCmisUpper None 0))].
Proof. vm_compute. auto. Qed.

(** ** messages/src/message.rs *)
Definition sff_read (len : N) : MemoryRead := mkRead (PageSff SffLower) 0 len.
Definition sff_write (len : N) : MemoryWrite := mkWrite (PageSff SffLower) 0 len.
Definition one_mac : MacAddrs := mkMacAddrs (mkMac 0 0 0 0 0 0) 1 1.
Example test_constructed :
  read_new (PageSff SffLower) 0 1 = Ok (sff_read 1) /\ write_new (PageSff SffLower) 0 2 = Ok (sff_write 2) /\
  mac_addrs_new (mkMac 0 0 0 0 0 0) 1 1 = Ok one_mac.
Proof. vm_compute. auto. Qed.
Example test_protocol_error_encoding_unchanged :
  map (fun i => decoded dec_protocol_error (buf_with MAX_SIZE_protocol_error [(O, i)])) [0; 1; 2; 3; 4; 5] =
    map Some [PeWrongMessage; PeNotSupported; PeRequestTooLarge; PeWrongDataSize 0 0; PeVersionMismatch 0 0;
              PeSerialization] /\
  check_invalid_variants dec_protocol_error MAX_SIZE_protocol_error 6 = true.
Proof. vm_compute. auto. Qed.
(** The model decodes a hardware error by its position; further codes are kept as unknown ones. *)
Example test_hardware_error_encoding_unchanged :
  map decode_hw_error (nrange 0 14) =
    map (fun e => (e, None))
      [HwI2cError; HwInvalidModuleIndex; HwFpgaError; HwDisabledBySp; HwNoFrontIo; HwFrontIoNotReady; HwNotPresent;
       HwNotPowered; HwPowerFault; HwNotInitialized; HwI2cAddressNack; HwI2cByteNack; HwI2cSclStretchTimeout;
       HwI2cTransactionTimeout] /\
  decode_hw_error 14 = (HwUnknown, Some KnownUnknown) /\
  map decode_hw_error (nrange 15 241) = map (fun b => (HwUnknown, Some (UnknownUnknown b))) (nrange 15 241).
Proof. vm_compute. auto. Qed.
Example test_header_encoding_unchanged : decoded dec_header (buf_with MAX_SIZE_header []) = Some (mkHeader 0 0 KError).
Proof. vm_compute. auto. Qed.
Example test_message_body_encoding_unchanged :
  decoded dec_body (buf_with MAX_SIZE_body [(0%nat, 0)]) = Some (BError PeWrongMessage) /\
  decoded dec_body (buf_with MAX_SIZE_body [(0%nat, 1); (13%nat, 1)]) = Some (BHostRequest (HRead 0 (sff_read 1))) /\
  decoded dec_body (buf_with MAX_SIZE_body [(0%nat, 2); (21%nat, 1)]) = Some (BSpResponse (SRead 0 0 (sff_read 1))) /\
  check_invalid_variants dec_body MAX_SIZE_body 3 = true.
Proof. vm_compute. auto. Qed.
Example test_message_encoding_unchanged :
  decoded dec_message (buf_with MAX_SIZE_message []) = Some (mkMessage 0 (BError PeWrongMessage)).
Proof. vm_compute. auto. Qed.
Example test_mac_addr_response_encoding_unchanged :
  decoded dec_mac_response (buf_with MAX_SIZE_mac_response [(7%nat, 1); (9%nat, 1)]) = Some (MacOk one_mac) /\
  decoded dec_mac_response (buf_with MAX_SIZE_mac_response [(0%nat, 1)]) =
    Some (MacError (mkBadRange SpansMultipleOuis (mkMac 0 0 0 0 0 0) 0 0)) /\
  check_invalid_variants dec_mac_response MAX_SIZE_mac_response 2 = true.
Proof. vm_compute. auto. Qed.
Definition sp_buf (l : list (nat * N)) : option SpResponse := decoded dec_sp_response (buf_with MAX_SIZE_sp_response l).
Example test_sp_response_encoding_unchanged :
  sp_buf [(0%nat, 0); (20%nat, 1)] = Some (SRead 0 0 (sff_read 1)) /\
  sp_buf [(0%nat, 1); (20%nat, 1)] = Some (SWrite 0 0 (sff_write 1)) /\
  sp_buf [(0%nat, 2)] = Some (SStatus 0 0) /\ sp_buf [(0%nat, 3)] = Some (SAck 0 0) /\
  sp_buf [(0%nat, 4); (8%nat, 1); (10%nat, 1)] = Some (SMacAddrs (MacOk one_mac)) /\
  sp_buf [(0%nat, 5)] = Some (SLedState 0 0) /\ sp_buf [(0%nat, 6)] = Some (SExtendedStatus 0 0) /\
  check_invalid_variants dec_sp_response MAX_SIZE_sp_response 7 = true.
Proof. vm_compute. auto 10. Qed.
Example test_host_request_data_len :
  host_expected_data_len (HWrite 0 (sff_write 2)) = Some 0%nat /\
  host_expected_data_len (HWrite 1 (sff_write 2)) = Some 2%nat /\
  host_expected_data_len (HWrite 3 (sff_write 2)) = Some 4%nat /\
  host_expected_data_len (HStatus 1) = None /\ host_expected_data_len (HExtendedStatus 1) = None.
Proof. vm_compute. auto 10. Qed.
Example test_sp_response_data_len :
  sp_expected_data_len (SRead 0 0 (sff_read 2)) = Some 0%nat /\
  sp_expected_data_len (SRead 1 0 (sff_read 2)) = Some 2%nat /\
  sp_expected_data_len (SRead 3 0 (sff_read 2)) = Some 4%nat /\
  sp_expected_data_len (SStatus 1 0) = Some 1%nat /\ sp_expected_data_len (SAck 1 0) = None /\
  sp_expected_data_len (SExtendedStatus 1 0) = Some 4%nat.
Proof. vm_compute. auto 10. Qed.
Example test_sp_response_error_data_len :
  map sp_expected_error_data_len [SRead 3 3 (sff_read 2); SWrite 3 3 (sff_write 2); SStatus 3 3; SAck 3 3] =
    [Some 2%nat; Some 2%nat; Some 2%nat; Some 2%nat] /\
  sp_expected_error_data_len (SMacAddrs (MacOk one_mac)) = None.
Proof. vm_compute. auto. Qed.
Example test_deserialize_hw_errors :
  deserialize_hw_errors 0 (buf_with 8 []) = Ok [] /\
  deserialize_hw_errors 1 [] = Err (PeWrongDataSize 1 0) /\
  deserialize_hw_errors 1 [0] = deserialized_errors_new 1 [0] /\
  deserialize_hw_errors 2 [255] = deserialized_errors_new 1 [255] /\
  deserialize_hw_errors 4 [14] = deserialized_errors_new 1 [14].
Proof. vm_compute. auto 10. Qed.
Definition host_buf (l : list (nat * N)) : option HostRequest := decoded dec_host_request (buf_with MAX_SIZE_host_request l).
Example test_host_request_encoding_unchanged :
  host_buf [(0%nat, 0); (12%nat, 1)] = Some (HRead 0 (sff_read 1)) /\
  host_buf [(0%nat, 1); (12%nat, 1)] = Some (HWrite 0 (sff_write 1)) /\
  map (fun i => host_buf [(0%nat, i)]) (nrange 2 14) =
    map Some [HStatus 0; HAssertReset 0; HDeassertReset 0; HAssertLpMode 0; HDeassertLpMode 0; HEnablePower 0;
              HDisablePower 0; HManagementInterface 0 Sff8636; HMacAddrs; HClearPowerFault 0; HLedState 0;
              HSetLedState 0 LedOff; HExtendedStatus 0; HClearDisableLatch 0] /\
  check_invalid_variants dec_host_request MAX_SIZE_host_request 16 = true.
Proof. vm_compute. auto 10. Qed.
Example test_extended_status : is_ok (ext_of_status 255) = true.
Proof. vm_compute. auto. Qed.
(** [serde_json] gives the visitor a [u64], hubpack a [u8]. *)
Example test_serialize_status :
  let st := N.lor ST_PRESENT ST_ENABLED in
  status_serialize st = 3 /\ status_visit W64 3 = Some st /\ status_visit W8 (status_serialize st) = Some st.
Proof. vm_compute. auto. Qed.
