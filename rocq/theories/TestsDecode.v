(** The unit tests of the decode crate, run against the model.

    Each [Example] transcribes one [#[test]] of /repo/decode/src (named in the comment), with the
    model's functions in place of the code's.  They are tests of the model, not theorems. *)
From Coq Require Import String.
From Verif Require Import Tac Json TestsMessages.
Import ListNotations.
#[local] Open Scope N_scope.

Definition blit (at_ : nat) (src dst : list N) : list N :=
  firstn at_ dst ++ src ++ skipn (at_ + List.length src) dst.
(** [assert_prefix(full, substring)] *)
Definition prefix_of (full sub : text) : bool := match strip_prefix sub full with Some _ => true | None => false end.

(** ** decode/src/ident.rs *)
Definition VENDOR_NAME := T "some vendor     ".
Definition PART := T "some part num   ".
Definition REVISION := T "re".
Definition SERIAL := T "some serial     ".
Definition vendor_checks (date : text) (r : outcome DecodeError VendorInfo) : bool :=
  match r with
  | Ok v => let v := vi_vendor v in
            prefix_of VENDOR_NAME (v_name v) && (oui0 (v_oui v) =? 1) && (oui1 (v_oui v) =? 2) && (oui2 (v_oui v) =? 3) &&
            prefix_of PART (v_part v) && prefix_of REVISION (v_revision v) && prefix_of SERIAL (v_serial v) &&
            match v_date v with Some d => text_eqb d date | None => false end
  | _ => false
  end.
Example test_parse_vendor_info_from_module_sff8636 :
  let data := blit 0 VENDOR_NAME (blit 17 [1; 2; 3] (blit 20 PART (blit 36 REVISION
                (blit 48 SERIAL (blit 64 (T "200101  ") (repeat 0 128)))))) in
  vendor_checks (T "200101  ") (vendor_parse Qsfp28 [data]) = true.
Proof. vm_compute. reflexivity. Qed.
Example test_parse_vendor_info_from_module_cmis :
  let all_data := VENDOR_NAME ++ [1; 2; 3] ++ PART ++ REVISION ++ SERIAL ++ T "20010100" in
  vendor_checks (T "20010100") (vendor_parse QsfpPlusCmis (chunks 8 all_data)) = true.
Proof. vm_compute. reflexivity. Qed.
Example test_oui_from_str :
  oui_display (mkOui 0xa8 0x40 0x25) = T "a8-40-25" /\ oui_from_str (T "a8-40-25") = Ok (mkOui 0xa8 0x40 0x25).
Proof. vm_compute. auto. Qed.
(** The text is modelled by its tree. *)
Example test_vendor_info_serdes :
  let v := mkVendorInfo QsfpPlusSff8636
             (mkVendor (T "foo") (mkOui 0xa8 0x40 0x25) (T "bar") (T "ab") (T "some sn") (Some (T "220202ab"))) in
  let expected :=
    JObject [(T "identifier", JString (T "QSFP+ (SFF-8636)"));
             (T "vendor", JObject [(T "name", JString (T "foo"));
                                   (T "oui", JArray [JInt 168; JInt 64; JInt 37]);
                                   (T "part", JString (T "bar"));
                                   (T "revision", JString (T "ab"));
                                   (T "serial", JString (T "some sn"));
                                   (T "date", JString (T "220202ab"))])] in
  vendor_info_json v = expected /\ vendor_info_of_json expected = Some v.
Proof. vm_compute. auto. Qed.
(** [strum]'s iterator gives each named variant and each catch-all variant with byte 0. *)
Definition iter (t : enum_table) : list benum :=
  map (fun e => Named (fst e)) (et_named t) ++ map (fun i => Other i 0) (seq 0 (List.length (et_other t))).
Definition from_string_ok (t : enum_table) : bool :=
  forallb (fun v => match enum_from_str t (enum_display t v) with Some w => benum_eqb v w | None => false end) (iter t).
Example test_identifier_state_from_string : from_string_ok tbl_Identifier = true.
Proof. vm_compute. reflexivity. Qed.
Example test_extended_specification_compliance_code_from_string :
  from_string_ok tbl_ExtendedSpecificationComplianceCode = true.
Proof. vm_compute. reflexivity. Qed.
Example test_host_electrical_interface_id_from_string : from_string_ok tbl_HostElectricalInterfaceId = true.
Proof. vm_compute. reflexivity. Qed.
Example test_media_type_from_string : from_string_ok tbl_MediaType = true.
Proof. vm_compute. reflexivity. Qed.
Example test_mmf_media_interface_id_from_string : from_string_ok tbl_MmfMediaInterfaceId = true.
Proof. vm_compute. reflexivity. Qed.
Example test_smf_media_interface_id_from_string : from_string_ok tbl_SmfMediaInterfaceId = true.
Proof. vm_compute. reflexivity. Qed.
Example test_passive_copper_media_interface_id_from_string : from_string_ok tbl_PassiveCopperMediaInterfaceId = true.
Proof. vm_compute. reflexivity. Qed.
Example test_active_cable_media_interface_id_from_string : from_string_ok tbl_ActiveCableMediaInterfaceId = true.
Proof. vm_compute. reflexivity. Qed.
Example test_base_t_media_interface_id_from_string : from_string_ok tbl_BaseTMediaInterfaceId = true.
Proof. vm_compute. reflexivity. Qed.

(** ** decode/src/utils.rs *)
Example test_extract_bit :
  forallb (fun shift => forallb (fun other => match extract_bit (N.shiftl 1 shift) other with
                                              | Ok b => Bool.eqb b (shift =? other)
                                              | _ => false
                                              end) (nrange 0 8)) (nrange 0 8) = true /\
  forallb (fun shift => is_err (extract_bit 0 shift)) (nrange 8 248) = true.
Proof. vm_compute. auto. Qed.
Example test_parse_u8_bitfield_variant :
  parse_u8_bitfield_variant (T "Foo (0x03)") (T "Foo") = Some 3 /\
  parse_u8_bitfield_variant (T "Foo (0x03)") (T "Bar") = None /\
  parse_u8_bitfield_variant (T "Foo (0x03") (T "Foo") = None /\
  parse_u8_bitfield_variant (T "Foo 0x03)") (T "Foo") = None /\
  parse_u8_bitfield_variant (T "Foo 0x03") (T "Foo") = None /\
  parse_u8_bitfield_variant (T "Foo (0x)") (T "Foo") = None /\
  parse_u8_bitfield_variant (T "Foo (3)") (T "Foo") = None /\
  parse_u8_bitfield_variant (T "Foo (0xFFFF)") (T "Foo") = None.
Proof. vm_compute. auto 10. Qed.

(** ** decode/src/power.rs *)
Example test_power_control_from_module_sff8636 :
  power_parse Qsfp28 [[2]] = Ok UseLpModePin /\
  power_parse Qsfp28 [[3]] = Ok (OverrideLpModePin true) /\
  power_parse Qsfp28 [[1]] = Ok (OverrideLpModePin false).
Proof. vm_compute. auto. Qed.
Example test_power_control_from_module_cmis :
  power_parse QsfpPlusCmis [[0x40]] = Ok UseLpModePin /\
  power_parse QsfpPlusCmis [[0x00]] = Ok (OverrideLpModePin false) /\
  power_parse QsfpPlusCmis [[0x10]] = Ok (OverrideLpModePin true).
Proof. vm_compute. auto. Qed.

(** ** decode/src/memory_model.rs *)
Definition zip_pages (expected : list N) (r : outcome DecodeError MemoryModel) : bool :=
  match r with
  | Ok (Paged pages) =>
      forallb (fun p => match page_number (fst p) with Some n => n =? snd p | None => false end) (combine pages expected)
  | _ => false
  end.
Example test_parse_memory_model_from_module_sff8636 :
  zip_pages [0; 1; 2; 3] (memory_parse Qsfp28 [[0]; [0xc0]]) = true /\ memory_parse Qsfp28 [[4]] = Ok Flat.
Proof. vm_compute. auto. Qed.
Example test_parse_memory_model_from_module_cmis :
  zip_pages [0; 1; 2; 0x10; 0x11] (memory_parse QsfpPlusCmis [[0]; [0]]) = true /\
  memory_parse QsfpPlusCmis [[0x80]] = Ok Flat.
Proof. vm_compute. auto. Qed.

(** ** decode/src/monitors.rs *)
Definition be (n : N) : list N := [n / 256; n mod 256].
Definition four (n : N) : list N := List.concat (repeat (be n) 4).
Definition OF (n : N) : f32 := f32_of_Z (Z.of_N n).
Definition rx_pow_mw : f32 := f32_mul (f32_mul (OF 10) OPTICAL_POWER_RESOLUTION) WATT_TO_MW.
Definition tx_bias_ma : f32 := f32_mul (f32_mul (OF 20) TX_BIAS_CURRENT_RESOLUTION) AMP_TO_MA.
Example test_sff8636_monitor_reads :
  omap (@List.length _) (monitor_reads QsfpPlusSff8636) = Ok 6%nat.
Proof. vm_compute. reflexivity. Qed.
Definition sff_monitor_test (status support : list N) : Prop :=
  match monitor_parse QsfpPlusSff8636
          [status; support; be 50 ++ [0; 0] ++ be 50; four 10; four 20; four 10] with
  | Ok m => mo_temperature m = Some (f32_mul (OF 50) TEMP_RESOLUTION) /\
            mo_supply_voltage m = Some (f32_mul (OF 50) SUPPLY_VOLTAGE_RESOLUTION) /\
            mo_receiver_power m = Some (repeat (Average rx_pow_mw) 4) /\
            mo_bias_current m = Some (repeat tx_bias_ma 4) /\
            mo_transmitter_power m = Some (repeat rx_pow_mw 4)
  | _ => False
  end.
Example test_parse_sff8636_monitor_all_supported : sff_monitor_test [0x08] [0x3c].
Proof. vm_compute. auto 10. Qed.
Example test_parse_sff8636_monitor_with_old_status_and_no_support : sff_monitor_test [0x07] [0x0c].
Proof. vm_compute. auto 10. Qed.
Example test_cmis_monitor_reads :
  match monitor_reads QsfpPlusCmis with
  | Ok reads => List.length reads = 10%nat /\ forallb (fun r => rd_len r =? 8) (skipn 4 reads) = true
  | _ => False
  end.
Proof. vm_compute. auto. Qed.
Example test_parse_cmis_monitor_all_supported :
  let data := [[0x1f; 0x17]; [5; 0; 0; 0; 0; 0; 0x10]; be 50 ++ be 20;
               be 16383 ++ be 50 ++ be 50 ++ [0; 0];
               four 10; four 10; four 20; four 20; four 10; four 10] in
  match monitor_parse QsfpPlusCmis data with
  | Ok m => mo_temperature m = Some (f32_mul (OF 50) TEMP_RESOLUTION) /\
            mo_supply_voltage m = Some (f32_mul (OF 20) SUPPLY_VOLTAGE_RESOLUTION) /\
            mo_receiver_power m = Some (repeat (Average rx_pow_mw) 8) /\
            mo_bias_current m = Some (repeat (f32_mul tx_bias_ma (OF 4)) 8) /\
            mo_transmitter_power m = Some (repeat rx_pow_mw 8) /\
            mo_aux m = Some (mkAux (Some (Aux1TecCurrent (f32_div (OF 16383) (OF 32767))))
                                   (Some (Aux2LaserTemperature (f32_mul (OF 50) TEMP_RESOLUTION)))
                                   (Some (Aux3AdditionalSupplyVoltage (f32_mul (OF 50) SUPPLY_VOLTAGE_RESOLUTION)))
                                   None)
  | _ => False
  end.
Proof. vm_compute. auto 10. Qed.
Example test_aux1_monitor_serdes :
  let s := JObject [(T "tec_current", JFloat (OF 1))] in
  aux1_json (Aux1TecCurrent (OF 1)) = s /\ aux1_of_json s = Some (Aux1TecCurrent (OF 1)).
Proof. vm_compute. auto. Qed.
Example test_aux2_monitor_serdes :
  let s := JObject [(T "laser_temperature", JFloat (OF 1))] in
  aux2_json (Aux2LaserTemperature (OF 1)) = s /\ aux2_of_json s = Some (Aux2LaserTemperature (OF 1)).
Proof. vm_compute. auto. Qed.
Example test_aux3_monitor_serdes :
  let s := JObject [(T "additional_supply_voltage", JFloat (OF 1))] in
  aux3_json (Aux3AdditionalSupplyVoltage (OF 1)) = s /\ aux3_of_json s = Some (Aux3AdditionalSupplyVoltage (OF 1)).
Proof. vm_compute. auto. Qed.
Example test_receiver_power_serdes :
  let s := JObject [(T "average", JFloat (OF 1))] in
  power_json (Average (OF 1)) = s /\ power_of_json s = Some (Average (OF 1)).
Proof. vm_compute. auto. Qed.
Example test_monitor_bytes_are_absurd :
  absurd (0x00, 0x00) = true /\ absurd (0xff, 0xff) = true /\ absurd (0xff, 0x00) = false /\ absurd (0x00, 0xff) = false.
Proof. vm_compute. auto. Qed.

(** ** decode/src/datapath.rs *)
Example test_decode_cmis_lane_datapath_config :
  lane_config_from (N.lor (N.lor (N.shiftl 6 4) (N.shiftl 2 1)) 1) = mkLaneConfig 6 2 true.
Proof. vm_compute. reflexivity. Qed.
(** [MediaType::SingleModeFiber], [IdCaui4] and [Id100GBaseLr4] by their texts. *)
Example test_application_descriptor_from_bytes :
  enum_from_str tbl_MediaType (T "Single-mode fiber") = Some (Named 2) /\
  enum_from_str tbl_HostElectricalInterfaceId (T "CAUI-4 C2M") = Some (Named 0x0b) /\
  enum_from_str tbl_SmfMediaInterfaceId (T "100GBASE-LR4") = Some (Named 0x0d) /\
  app_from_bytes (Named 2) (0x0b, 0x0d, N.lor (N.shiftl 4 4) 4, 1) 1 =
    Some (mkApp (Named 0x0b) (MiSmf (Named 0x0d)) 4 4 1 1).
Proof. vm_compute. auto. Qed.
Example test_parse_sff8636_datapath :
  enum_from_str tbl_ConnectorType (T "Lucent Connector (LC)") = Some (Named 7) /\
  enum_from_str tbl_ExtendedSpecificationComplianceCode (T "100G CWDM4") = Some (Named 6) /\
  datapath_parse QsfpPlusSff8636 [[0]; [0; 0; 0xff]; [0xff]; [0x07; 0x80]; [0x06]] =
    Ok (DpSff (Named 7) (SccExtended (Named 6))
          (repeat (mkSffLane true false false false false true true true true) 4)).
Proof. vm_compute. auto. Qed.
Example test_connector_type_from_string : from_string_ok tbl_ConnectorType = true.
Proof. vm_compute. reflexivity. Qed.
Example test_cmis_datapath_state_from_string :
  forallb (fun e => match dps_from_str (dps_display (fst (snd e))) with Some s => dps_eqb s (fst (snd e)) | None => false end)
          dps_table = true.
Proof. vm_compute. reflexivity. Qed.
Example do_not_panic_on_bad_spec : eth_display 0 = T "Unknown (0x00)".
Proof. vm_compute. reflexivity. Qed.
