(** Theorems for C83, the JSON forms of decoded values. *)
From Coq Require Import String.
From Verif Require Import SpecJson JsonPower JsonProofs3 JsonProofs4 JsonProofs5 JsonProofs6 DecodeProofs9 PropsDecode.
Import ListNotations.
Local Open Scope string_scope.
Local Open Scope N_scope.

(** C83: what is decoded from a module is read back from its JSON form. *)
Theorem C83_vendor : forall id mem v, byte_memory mem -> decoded vendor_reads vendor_parse id mem = Ok v ->
  vendor_info_of_json (vendor_info_json v) = Some v.
Proof. exact vendor_survives. Qed.
Print Assumptions C83_vendor.
Theorem C83_monitors : forall id mem m, byte_memory mem -> decoded monitor_reads monitor_parse id mem = Ok m ->
  monitors_of_json (monitors_json m) = Some m.
Proof. exact monitors_survive. Qed.
Print Assumptions C83_monitors.
(** Full statement for datapaths, false: [forall id mem d, byte_memory mem ->
    decoded datapath_reads datapath_parse id mem = Ok d -> datapath_of_json (datapath_json d) = Some d].
    Missing: SFF-8636 modules with no or several bits in their compliance byte. *)
Theorem C83_datapath_partial : forall id mem d, byte_memory mem ->
  decoded datapath_reads datapath_parse id mem = Ok d ->
  ~ unnamed_compliance id mem -> datapath_of_json (datapath_json d) = Some d.
Proof. exact datapath_reads_back_if. Qed.
Print Assumptions C83_datapath_partial.
Theorem C83_datapath_refuted : exists id mem d, byte_memory mem /\
  decoded datapath_reads datapath_parse id mem = Ok d /\ datapath_of_json (datapath_json d) = None.
Proof.
  destruct (unnamed_unreadable QsfpPlusSff8636 (mem_with [(sff_up 0, 131, 0x44)]) (mem_with_bytes _)) as (d & H).
  - split; [reflexivity|]. vm_compute. intuition discriminate.
  - exists QsfpPlusSff8636, (mem_with [(sff_up 0, 131, 0x44)]), d. split; [apply mem_with_bytes|exact H].
Qed.
Print Assumptions C83_datapath_refuted.
Theorem C83_datapath_exact : forall id mem d, byte_memory mem ->
  decoded datapath_reads datapath_parse id mem = Ok d ->
  (datapath_of_json (datapath_json d) = Some d <-> ~ unnamed_compliance id mem).
Proof. exact datapath_reads_back. Qed.
Print Assumptions C83_datapath_exact.
Theorem C83_datapath_lost : forall id mem, byte_memory mem -> unnamed_compliance id mem ->
  exists d, decoded datapath_reads datapath_parse id mem = Ok d /\ datapath_of_json (datapath_json d) = None.
Proof. exact unnamed_unreadable. Qed.
Print Assumptions C83_datapath_lost.

(** C83: every decoded item stands at its documented place. *)
Theorem C83_paths :
  (forall id mem v, byte_memory mem -> decoded vendor_reads vendor_parse id mem = Ok v -> vendor_paths v) /\
  (forall id mem m, byte_memory mem -> decoded monitor_reads monitor_parse id mem = Ok m -> monitor_paths m) /\
  (forall id mem d, byte_memory mem -> decoded datapath_reads datapath_parse id mem = Ok d ->
     match d with DpCmis c n dps => cmis_paths c n dps | DpSff c s lanes => sff_paths c s lanes end).
Proof. exact survive_at_paths. Qed.
Print Assumptions C83_paths.

(** C83: readers accept members in any order and ignore others; needed ones must be there, once. *)
Theorem C83_readers : all_object_readers.
Proof. exact object_readers. Qed.
Print Assumptions C83_readers.
(** C83: a member of another form is refused, and so is one with an item of another form. *)
Theorem C83_picky : picky_readers.
Proof. exact readers_picky. Qed.
Print Assumptions C83_picky.
Example C83_picky_witness : no_bytes 3 (JArray [JInt 0; JInt 256; JInt 2; JInt 3]) /\ no_bytes 3 (JArray [JInt 0; JNull; JInt 2]) /\
  oui_of_json (JArray [JInt 0; JInt 255; JInt 2]) <> None /\ no_list no_number (JArray [JInt 1; JBool true]) /\
  list_of_json float_of_json (JArray [JInt 1; JInt 2]) <> None.
Proof.
  split; [|split; [|split; [|split]]]; try discriminate; intros l [= <-]; [left; discriminate|right|]; eexists; (split; [right; left; reflexivity|]); [discriminate|exact Logic.I].
Qed.

(** C83: the same for the power mode. *)
Theorem C83_power : forall m, power_mode_of_json (power_mode_json m) = Some m /\
  at_path [F "state"] (power_mode_json m) =
    Some (JString (match pm_state m with PowerOff => T "off" | PowerLow => T "low" | PowerHigh => T "high" end)) /\
  at_path [F "software_override"] (power_mode_json m) = Some (flag_or_null (pm_override m)).
Proof. exact (fun m => conj (power_survives m) (power_at_paths m)). Qed.
Print Assumptions C83_power.
Theorem C83_power_reader : object_reader ["state"] ["software_override"] power_mode_of_json.
Proof. exact power_reader. Qed.
Print Assumptions C83_power_reader.

(** C83: the same for the LED state; nothing else reads as one. *)
Theorem C83_led : (forall s, led_state_of_json (led_state_json s) = Some s) /\
  forall j s, led_state_of_json j = Some s ->
    exists t, (j = JString t \/ j = JObject [(t, JNull)]) /\ t = match s with LedOff => T "off" | LedOn => T "on" | LedBlink => T "blink" end.
Proof. exact (conj led_survives led_only). Qed.
Print Assumptions C83_led.
(** decode/src/ident.rs:779-797 *)
Example C83_vendor_text :
  let v := mkVendorInfo QsfpPlusSff8636
             (mkVendor (T "foo") (mkOui 0xa8 0x40 0x25) (T "bar") (T "ab") (T "some sn") (Some (T "220202ab"))) in
  let j := JObject [(T "identifier", JString (T "QSFP+ (SFF-8636)"));
             (T "vendor", JObject [(T "name", JString (T "foo")); (T "oui", JArray [JInt 168; JInt 64; JInt 37]);
                (T "part", JString (T "bar")); (T "revision", JString (T "ab"));
                (T "serial", JString (T "some sn")); (T "date", JString (T "220202ab"))])] in
  vendor_info_json v = j /\ vendor_info_of_json j = Some v.
Proof. vm_compute. split; reflexivity. Qed.
Example C83_cmis_case : exists d,
  decoded datapath_reads datapath_parse QsfpDD two_lanes = Ok d /\ ~ unnamed_compliance QsfpDD two_lanes /\
  at_path [F "cmis"; F "datapaths"; F "1"; F "lane_status"; F "1"; F "state"] (datapath_json d) =
    Some (JString (T "Initializing")) /\
  datapath_of_json (datapath_json d) = Some d.
Proof.
  eexists. split; [vm_compute; reflexivity|]. split; [intros [H _]; discriminate H|]. vm_compute. split; reflexivity.
Qed.
Example C83_monitor_case : exists m,
  decoded monitor_reads monitor_parse QsfpDD
    (mem_with [(cmis_up 1, 159, 0x2c); (cmis_low, 14, 9); (cmis_low, 18, 3); (cmis_low, 19, 4); (cmis_low, 25, 7)]) = Ok m /\
  at_path [F "temperature"] (monitors_json m) = None /\
  at_path [F "aux_monitors"; F "custom"; I 1] (monitors_json m) = Some (JInt 7) /\
  monitors_of_json (monitors_json m) = Some m.
Proof. eexists. split; [vm_compute; reflexivity|]. vm_compute. auto. Qed.
(** controller/src/controller.rs:1450-1466 *)
Example C83_power_text :
  map power_state_of_json [JString (T "off"); JString (T "low"); JString (T "high"); JString (T "High")] =
    [Some PowerOff; Some PowerLow; Some PowerHigh; None] /\
  power_mode_json (mkPowerMode PowerLow (Some true)) =
    JObject [(T "state", JString (T "low")); (T "software_override", JBool true)].
Proof. split; reflexivity. Qed.
