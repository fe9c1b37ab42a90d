(** Properties C41-C43 and C46-C49: decoding module memory (decode/src). *)
From Coq Require Import QArith Qabs SpecFloat.
From Verif Require Import Tac Text SpecDecode DecodeProofs DecodeProofs2 DecodeProofs3 DecodeProofs4
  DecodeProofs7 DecodeProofs8 DecodeProofs9.
From Coq Require Import Lia.
Open Scope N_scope.

(** C41: each of the five decoders, on exactly the SFF-8636 and CMIS identifiers, returns reads that
    lie within a page, are of 1 up to the interface's maximum number of bytes, and address a defined
    page of the module's own interface; on all other identifiers it returns UnsupportedIdentifier. *)
Theorem C41_reads : forall reads id, In reads decoders -> supported_kind id = true ->
  exists rds, reads id = Ok rds /\ rds <> [] /\
    Forall (fun rd => access_ok (read_limit (rd_page rd)) (rd_page rd) (rd_offset rd) (rd_len rd) /\
                      page_defined (rd_page rd) /\ speaks id (rd_page rd)) rds.
Proof. exact reads_supported. Qed.
Print Assumptions C41_reads.
Theorem C41_unsupported : forall reads id, In reads decoders -> supported_kind id = false ->
  reads id = Err (DeUnsupportedIdentifier id).
Proof. exact reads_unsupported. Qed.
Print Assumptions C41_unsupported.
Example C41_witness : supported_kind QsfpDD = true /\ supported_kind (Named 3) = false /\
  memory_reads QsfpDD = Ok [mkRead cmis_low 2 1; mkRead (cmis_up 1) 142 1].
Proof. vm_compute. repeat split. Qed.

(** C42, full claim: for every [id] and [mem] no decoder panics.  It is false; this is exactly when
    each decoder panics.  Missing: the memory model of a CMIS module with the reserved bank code, the
    monitors of one with the reserved bias scale, and the datapath of one whose media type is not 1-5
    or with a lane assigned to an application it does not list. *)
Theorem C42_panics_partial : forall id mem, byte_memory mem ->
  decoded vendor_reads vendor_parse id mem <> Panic /\
  decoded power_reads power_parse id mem <> Panic /\
  (decoded memory_reads memory_parse id mem = Panic <-> reserved_banks id mem) /\
  (decoded monitor_reads monitor_parse id mem = Panic <->
     cmis_kind id = true /\ bias_scale (mem (cmis_up 1) 160) = None) /\
  (decoded datapath_reads datapath_parse id mem = Panic <->
     cmis_kind id = true /\ (~ known_media mem \/ ~ assignments_listed mem)).
Proof. exact panics_exactly. Qed.
Print Assumptions C42_panics_partial.
(** A single-mode CMIS module that lists one application, to which lane 0 is assigned; and the bytes with which decoders panic. *)
Example C42_witness :
  let good := mem_with [(cmis_low, 85, 2); (cmis_low, 86, 0x1c); (cmis_low, 88, 0x11); (cmis_low, 90, 0xff); (p11, 206, 0x10)] in
  known_media good /\ decoded memory_reads memory_parse QsfpDD good <> Panic /\
  decoded monitor_reads monitor_parse QsfpDD good <> Panic /\ decoded datapath_reads datapath_parse QsfpDD good <> Panic.
Proof. repeat split; vm_compute; discriminate. Qed.
Theorem C42_memory_refuted : exists id mem, byte_memory mem /\ decoded memory_reads memory_parse id mem = Panic.
Proof. exists QsfpDD, (mem_with [(cmis_up 1, 142, 3)]). split; [apply mem_with_bytes|]. vm_compute. reflexivity. Qed.
Print Assumptions C42_memory_refuted.
Theorem C42_monitors_refuted : exists id mem, byte_memory mem /\ decoded monitor_reads monitor_parse id mem = Panic.
Proof. exists QsfpDD, (mem_with [(cmis_up 1, 160, 0x18)]). split; [apply mem_with_bytes|]. vm_compute. reflexivity. Qed.
Print Assumptions C42_monitors_refuted.
(** A module with all bytes zero: its media type is "undefined". *)
Theorem C42_datapath_refuted : exists id mem, byte_memory mem /\ decoded datapath_reads datapath_parse id mem = Panic.
Proof. exists QsfpDD, (mem_with []). split; [apply mem_with_bytes|]. vm_compute. reflexivity. Qed.
Print Assumptions C42_datapath_refuted.
(** A single-mode module, no application listed, lane 0 assigned to application 1. *)
Theorem C42_unlisted_refuted : exists id mem, byte_memory mem /\ known_media mem /\
  decoded datapath_reads datapath_parse id mem = Panic.
Proof.
  exists QsfpDD, (mem_with [(cmis_low, 85, 2); (cmis_low, 86, 0xff); (p11, 206, 0x10)]).
  split; [apply mem_with_bytes|]. split; [vm_compute; split; discriminate|]. vm_compute. reflexivity.
Qed.
Print Assumptions C42_unlisted_refuted.

(** C43: [vendor_at] gives the byte ranges of the specifications; each text is the longest valid
    UTF-8 prefix of its bytes without trailing blanks, the date is present when its bytes are valid;
    this determines the result. *)
Theorem C43_vendor : forall id mem, supported_kind id = true ->
  exists v, decoded vendor_reads vendor_parse id mem = Ok (mkVendorInfo id v) /\
    vendor_says mem (vendor_at id) v.
Proof. exact vendor_correct. Qed.
Print Assumptions C43_vendor.
Theorem C43_vendor_unique : forall mem v x y, vendor_says mem v x -> vendor_says mem v y -> x = y.
Proof. exact vendor_unique. Qed.
Print Assumptions C43_vendor_unique.
(** For ASCII bytes the stored text is the bytes without trailing blanks. *)
Theorem C43_ascii : forall b u, Forall (fun c => c < 128) b -> stored_text b u -> trimmed b u.
Proof. exact stored_ascii. Qed.
Print Assumptions C43_ascii.
(** Blanks are the characters with Unicode's White_Space property. *)
Theorem C43_blanks : forall c, is_whitespace c = true <->
  In c [9; 10; 11; 12; 13; 32; 0x85; 0xa0; 0x1680; 0x2000; 0x2001; 0x2002; 0x2003; 0x2004; 0x2005; 0x2006; 0x2007; 0x2008; 0x2009;
        0x200a; 0x2028; 0x2029; 0x202f; 0x205f; 0x3000].
Proof. exact blanks_ok. Qed.
Print Assumptions C43_blanks.
Example C43_witness :
  decoded vendor_reads vendor_parse Qsfp28
    (mem_with [(sff_up 0, 148, 79); (sff_up 0, 149, 120); (sff_up 0, 150, 32); (sff_up 0, 165, 1); (sff_up 0, 167, 3);
               (sff_up 0, 184, 65); (sff_up 0, 185, 32); (sff_up 0, 212, 0xff)])
  = Ok (mkVendorInfo Qsfp28 (mkVendor (79 :: 120 :: 32 :: repeat 0 13) (mkOui 1 0 3) (repeat 0 16) [65] (repeat 0 16) None)).
Proof. vm_compute. reflexivity. Qed.

(** C46, missing: with the reserved bank code a paged CMIS module has no memory model ([C42]). *)
Theorem C46_memory_partial : forall id mem, supported_kind id = true -> ~ reserved_banks id mem ->
  exists m, decoded memory_reads memory_parse id mem = Ok m /\
    (flat_memory id mem = true -> m = Flat) /\
    (flat_memory id mem = false -> exists pages, m = Paged pages /\
       StronglySorted N.lt (map page_no pages) /\
       (forall p, In p pages <-> advertises id mem p)).
Proof. exact memory_correct. Qed.
Print Assumptions C46_memory_partial.
Theorem C46_pages_defined : forall id mem p, supported_kind id = true -> advertises id mem p ->
  page_defined p /\ speaks id p.
Proof. exact advertised_defined. Qed.
Print Assumptions C46_pages_defined.
Theorem C46_memory_refuted : exists id mem, byte_memory mem /\ supported_kind id = true /\ flat_memory id mem = false /\
  forall m, decoded memory_reads memory_parse id mem <> Ok m.
Proof.
  exists QsfpDD, (mem_with [(cmis_up 1, 142, 3)]). split; [apply mem_with_bytes|]. split; [reflexivity|]. split; [reflexivity|].
  intros m. vm_compute. discriminate.
Qed.
Print Assumptions C46_memory_refuted.
Example C46_witness :
  decoded memory_reads memory_parse QsfpDD (mem_with [(cmis_up 1, 142, 0x25)]) =
  Ok (Paged [cmis_up 0; cmis_up 1; cmis_up 2; cmis_up 3; cmis_up_bank 1 0x10; cmis_up_bank 1 0x11; cmis_up_bank 1 0x13;
             cmis_up_bank 1 0x14]).
Proof. vm_compute. reflexivity. Qed.

(** C47: temperatures are exact: two's complement, 1/256 degree. *)
Theorem C47_temperature : forall w, byte_word w -> is_value (decode_temperature w) (signed w # 256).
Proof. exact temperature_exact. Qed.
Print Assumptions C47_temperature.
(** C47: voltage in V of 100 uV steps, power in mW of 0.1 uW, bias in mA of 2 uA times the scale.
    Missing from the full claim ([nearest] of these numbers, and a signed cooler current): each
    value is within a factor 1 +- 2^-22 ([near_value]), not always the nearest [f32]
    ([C47_rounding_refuted]); the cooler current is read unsigned ([C47_tec_refuted]). *)
Theorem C47_voltage_partial : forall w, byte_word w ->
  near_value (decode_supply_voltage w) (Z.of_N (raw w) # 10000).
Proof. exact voltage_near. Qed.
Print Assumptions C47_voltage_partial.
Theorem C47_power_partial : forall w, byte_word w ->
  near_value (decode_optical_power w) (Z.of_N (raw w) # 10000).
Proof. exact power_near. Qed.
Print Assumptions C47_power_partial.
Theorem C47_bias_partial : forall w, byte_word w ->
  near_value (decode_bias_current w) (Z.of_N (raw w) # 500).
Proof. exact bias_near. Qed.
Print Assumptions C47_bias_partial.
Theorem C47_bias_scaled_partial : forall w k, byte_word w -> k = 1 \/ k = 2 \/ k = 4 ->
  near_value (f32_mul (decode_bias_current w) (f32_of_Z (Z.of_N k))) (Z.of_N k * Z.of_N (raw w) # 500).
Proof. exact bias_scaled_near. Qed.
Print Assumptions C47_bias_scaled_partial.
Theorem C47_tec_partial : forall w, byte_word w -> near_value (decode_tec w) (Z.of_N (raw w) # 32767).
Proof. exact tec_near. Qed.
Print Assumptions C47_tec_partial.
Theorem C47_rounding_refuted : exists w, byte_word w /\ ~ nearest (decode_supply_voltage w) (Z.of_N (raw w) # 10000).
Proof. exists (0, 3). split; [split; reflexivity|]. exact voltage_not_nearest. Qed.
Print Assumptions C47_rounding_refuted.
(** A cooler that draws half its maximal current to cool ([signed] negative) is reported as heating. *)
Theorem C47_tec_refuted : exists w v, byte_word w /\ (signed w < 0)%Z /\ f32_value (decode_tec w) = Some v /\ (0 < v)%Q.
Proof. exists (192, 0). eexists. split; [split; reflexivity|]. split; [reflexivity|]. split; [vm_compute; reflexivity|]. reflexivity. Qed.
Print Assumptions C47_tec_refuted.
Theorem C47_tec_never_negative : forall w, byte_word w -> exists v, f32_value (decode_tec w) = Some v /\ (0 <= v)%Q.
Proof. exact tec_never_negative. Qed.
Print Assumptions C47_tec_never_negative.
(** Larger raw counters give larger values. *)
Theorem C47_temperature_monotone : forall w w', byte_word w -> byte_word w' -> (signed w < signed w')%Z ->
  below (decode_temperature w) (decode_temperature w').
Proof. exact temperature_mono. Qed.
Print Assumptions C47_temperature_monotone.
Theorem C47_voltage_monotone : forall w w', byte_word w -> byte_word w' -> raw w < raw w' ->
  below (decode_supply_voltage w) (decode_supply_voltage w').
Proof. exact voltage_mono. Qed.
Print Assumptions C47_voltage_monotone.
Theorem C47_power_monotone : forall w w', byte_word w -> byte_word w' -> raw w < raw w' ->
  below (decode_optical_power w) (decode_optical_power w').
Proof. exact power_mono. Qed.
Print Assumptions C47_power_monotone.
Theorem C47_bias_monotone : forall w w', byte_word w -> byte_word w' -> raw w < raw w' ->
  below (decode_bias_current w) (decode_bias_current w').
Proof. exact bias_mono. Qed.
Print Assumptions C47_bias_monotone.
Theorem C47_bias_scaled_monotone : forall w w' k, byte_word w -> byte_word w' -> k = 1 \/ k = 2 \/ k = 4 ->
  raw w < raw w' ->
  below (f32_mul (decode_bias_current w) (f32_of_Z (Z.of_N k))) (f32_mul (decode_bias_current w') (f32_of_Z (Z.of_N k))).
Proof. exact bias_scaled_mono. Qed.
Print Assumptions C47_bias_scaled_monotone.
Example C47_witness : byte_word (255, 128) /\ is_value (decode_temperature (255, 128)) (-1 # 2) /\
  f32_value (decode_supply_voltage (128, 232)) = Some (13841203 # 4194304)%Q.
Proof. split; [split; reflexivity|]. split; [|vm_compute; reflexivity]. eexists. split; vm_compute; reflexivity. Qed.

(** C48: [sff_monitors_of] and [cmis_monitors_of] show each monitor exactly when its support bit is
    set, each from its own bytes; on SFF-8636 modules of revision below 8, when plausible.  They are
    equalities, so no monitor affects another. *)
Theorem C48_sff : forall id mem, byte_memory mem -> sff_kind id = true ->
  decoded monitor_reads monitor_parse id mem = Ok (sff_monitors_of mem).
Proof. exact sff_monitors_correct. Qed.
Print Assumptions C48_sff.
(** Full claim: with [aux_supported mem] for [any_aux mem] and a result for every memory.  Missing:
    the reserved bias scale (a panic, C42), and the group of auxiliary monitors is shown by bits 0-4
    of the support byte instead of bits 2-5. *)
Theorem C48_cmis_partial : forall id mem, sff_kind id = false -> cmis_kind id = true ->
  decoded monitor_reads monitor_parse id mem =
  match bias_scale (mem (cmis_up 1) 160) with
  | Some scale => Ok (cmis_monitors_of mem scale (any_aux mem))
  | None => Panic
  end.
Proof. exact cmis_monitors_correct. Qed.
Print Assumptions C48_cmis_partial.
(** A module with only the custom monitor: it is not reported. *)
Theorem C48_custom_refuted : exists id mem m, byte_memory mem /\ cmis_kind id = true /\
  N.testbit (mem (cmis_up 1) 159) 5 = true /\
  decoded monitor_reads monitor_parse id mem = Ok m /\ mo_aux m = None.
Proof.
  exists QsfpDD, (mem_with [(cmis_up 1, 159, 0x20); (cmis_low, 24, 7)]). eexists. split; [apply mem_with_bytes|].
  split; [reflexivity|]. split; [vm_compute; reflexivity|]. split; vm_compute; reflexivity.
Qed.
Print Assumptions C48_custom_refuted.
(** A module with only a temperature monitor is given an empty group of auxiliary monitors. *)
Theorem C48_empty_refuted : exists id mem m, byte_memory mem /\ cmis_kind id = true /\ aux_supported mem = false /\
  decoded monitor_reads monitor_parse id mem = Ok m /\ mo_aux m = Some (mkAux None None None None).
Proof.
  exists QsfpDD, (mem_with [(cmis_up 1, 159, 1)]). eexists. split; [apply mem_with_bytes|].
  split; [reflexivity|]. split; [vm_compute; reflexivity|]. split; vm_compute; reflexivity.
Qed.
Print Assumptions C48_empty_refuted.
Example C48_witness : decoded monitor_reads monitor_parse QsfpDD
  (mem_with [(cmis_up 1, 159, 0x2c); (cmis_low, 14, 9); (cmis_low, 18, 3); (cmis_low, 19, 4); (cmis_low, 25, 7)])
  = Ok (mkMonitors None None None None None
        (Some (mkAux (Some (Aux1Custom (3, 4))) (Some (Aux2LaserTemperature (decode_temperature (0, 0)))) None (Some (0, 7))))).
Proof. vm_compute. reflexivity. Qed.

(** C49: SFF-8636 modules: connector, compliance and the flags of the four lanes, each from its own
    bit. *)
Theorem C49_sff : forall id mem, sff_kind id = true ->
  decoded datapath_reads datapath_parse id mem =
  Ok (DpSff (enum_of tbl_ConnectorType (mem (sff_up 0) 130)) (sff_compliance_of mem)
        (map (sff_lane_of mem) [0; 1; 2; 3])).
Proof. exact sff_datapath_correct. Qed.
Print Assumptions C49_sff.
(** C49 for CMIS, full claim: the same with [standard_nibble] in place of [other_nibble] and
    [cmis_unsupported_lanes mem] in place of byte 209, for every memory.  Missing: memories that panic
    (C42), a lane's state is read from the nibble of its neighbour, codes 8 to 15 are not told from
    0 to 7, and the supported lanes are read from the byte before the one that tells them; all else of each lane is its own.  [datapath_map_of]: exactly the applications in use,
    each with its descriptor and exactly its lanes. *)
Theorem C49_cmis_partial : forall id mem, byte_memory mem -> sff_kind id = false -> cmis_kind id = true ->
  known_media mem -> assignments_listed mem ->
  ((forall k, in_use mem k -> lane_with other_nibble mem k <> None) ->
   exists dps, decoded datapath_reads datapath_parse id mem =
     Ok (DpCmis (enum_of tbl_ConnectorType (mem (cmis_up 0) 203)) (255 - mem (cmis_up 0) 209) dps) /\
     datapath_map_of other_nibble mem dps) /\
  ((exists k, in_use mem k /\ lane_with other_nibble mem k = None) ->
   decoded datapath_reads datapath_parse id mem = Err DeInvalidBitField).
Proof. exact datapath_listed. Qed.
Print Assumptions C49_cmis_partial.
(** A multi-mode module with one application on lanes 0 and 1: lane 0 is activated (4), lane 1 being
    initialized (2). *)
Definition two_lanes : memory :=
  mem_with [(cmis_low, 85, 1); (cmis_low, 86, 5); (cmis_low, 87, 3); (cmis_low, 88, 0x21); (cmis_low, 90, 0xff);
            (p11, 206, 0x10); (p11, 207, 0x10); (p11, 128, 0x24); (cmis_up 0, 210, 0xfc)].
Theorem C49_state_refuted : exists id mem c l dps st, byte_memory mem /\ cmis_kind id = true /\
  decoded datapath_reads datapath_parse id mem = Ok (DpCmis c l dps) /\ reported dps 1 0 st /\
  lane_with standard_nibble mem 0 <> Some st /\ state_of_nibble (standard_nibble mem 0) = Some DpActivated /\ ls_state st = DpInit.
Proof.
  exists QsfpDD, two_lanes. do 4 eexists. split; [apply mem_with_bytes|]. split; [reflexivity|].
  split; [vm_compute; reflexivity|]. split.
  - eexists. split; vm_compute; reflexivity.
  - split; [vm_compute; discriminate|]. split; vm_compute; reflexivity.
Qed.
Print Assumptions C49_state_refuted.
(** Lanes in the reserved state 9 are reported as deactivated. *)
Theorem C49_reserved_refuted : exists id mem c l dps st, byte_memory mem /\ cmis_kind id = true /\
  decoded datapath_reads datapath_parse id mem = Ok (DpCmis c l dps) /\ reported dps 1 0 st /\
  standard_nibble mem 0 = 9 /\ ls_state st = DpDeactivated.
Proof.
  exists QsfpDD, (mem_with [(cmis_low, 85, 1); (cmis_low, 86, 5); (cmis_low, 90, 0xff); (p11, 206, 0x10); (p11, 128, 0x99)]).
  do 4 eexists. split; [apply mem_with_bytes|]. split; [reflexivity|].
  split; [vm_compute; reflexivity|]. split; [eexists; split; vm_compute; reflexivity|]. split; vm_compute; reflexivity.
Qed.
Print Assumptions C49_reserved_refuted.
(** The module supports no lane beyond the first two, but is reported to support all eight. *)
Theorem C49_supported_refuted : exists id mem c l dps, byte_memory mem /\ cmis_kind id = true /\
  decoded datapath_reads datapath_parse id mem = Ok (DpCmis c l dps) /\
  cmis_unsupported_lanes mem = 0xfc /\ l = 255.
Proof.
  exists QsfpDD, two_lanes. do 3 eexists. split; [apply mem_with_bytes|]. split; [reflexivity|].
  split; [vm_compute; reflexivity|]. split; vm_compute; reflexivity.
Qed.
Print Assumptions C49_supported_refuted.
(** With one lane of a pair in use, the state is that of the idle one; here the call even fails. *)
Theorem C49_fails_refuted : exists id mem, byte_memory mem /\ cmis_kind id = true /\ known_media mem /\
  assignments_listed mem /\ (forall k, in_use mem k -> lane_with standard_nibble mem k <> None) /\
  decoded datapath_reads datapath_parse id mem = Err DeInvalidBitField.
Proof.
  exists QsfpDD, (mem_with [(cmis_low, 85, 1); (cmis_low, 86, 5); (cmis_low, 90, 0xff); (p11, 206, 0x10); (p11, 128, 0x04)]).
  split; [apply mem_with_bytes|]. split; [reflexivity|]. split; [vm_compute; split; discriminate|].
  assert (H : forall k, k < 8 -> k = 0 \/ k = 1 \/ k = 2 \/ k = 3 \/ k = 4 \/ k = 5 \/ k = 6 \/ k = 7) by lia.
  split.
  { intros k Hk H0. destruct (N.eq_dec k 0) as [->|Hn].
    - change (app_of _ 0) with 1. split; [lia|]. intros j Hj. replace j with 1 by lia. vm_compute. discriminate.
    - exfalso. apply H0. destruct (H k Hk) as [ -> | [ -> | [ -> | [ -> | [ -> | [ -> | [ -> | -> ]]]]]]];
        try (vm_compute; reflexivity). now destruct Hn. }
  split; [|vm_compute; reflexivity].
  intros k (Hk & H0). revert H0. destruct (H k Hk) as [ -> | [ -> | [ -> | [ -> | [ -> | [ -> | [ -> | -> ]]]]]]]; vm_compute; intros G;
    try (now destruct G). discriminate.
Qed.
Print Assumptions C49_fails_refuted.
Example C49_witness : byte_memory two_lanes /\ known_media two_lanes /\
  in_use two_lanes 0 /\ in_use two_lanes 1 /\ app_of two_lanes 1 = 1 /\ app_of two_lanes 2 = 0 /\
  lane_with other_nibble two_lanes 1 <> None.
Proof. split; [apply mem_with_bytes|]. vm_compute. repeat split; discriminate. Qed.
