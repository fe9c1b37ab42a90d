(** Property C65: the tables printed by controller/src/bin/xcvradm.rs. *)
From Coq Require Import String.
From Verif Require Import Tac SpecTable TableProofs2 TableProofs3 QueryProofs DecodeProofs9 PropsDecode PropsQuery.
Import ListNotations.
Open Scope N_scope.

(** C65: each table has one row for each module of the result, in order of ports.  Its cells, cut out at
    the fixed positions under the headings ([columns]), or split off at the separator ([fields_split]),
    are the port and the data of that module; no value breaks a line or contains the default separator.
    [f] gives for each port of [m] the value or error that the result reports. *)
Theorem C65_power : forall m f r, m < 2 ^ 64 -> reports m f r ->
  columns [6; 13]%nat [T "Port"; T "Power"; T "Software-override"]
    (fun i x => [port_shown i; power_name (pm_state x); override_word (pm_override x)]) (told_ports m f)
    (fun h => print_power_mode r (OutDefault h)) /\
  fields_split power_field_name power_value (told_ports m f) (fun h fs sep => print_power_mode r (OutParseable h fs sep)) /\
  (forall i x f, plain (power_value i x f)).
Proof. exact power_table. Qed.
Print Assumptions C65_power.
Theorem C65_power_lines : forall m f r, m < 2 ^ 64 -> reports m f r ->
  (forall h, whole_lines (print_power_mode r (OutDefault h))) /\
  (forall h fs sep, ~ In 10 sep -> whole_lines (print_power_mode r (OutParseable h fs sep))).
Proof. exact power_lines. Qed.
Print Assumptions C65_power_lines.
Theorem C65_ident : forall m f r, m < 2 ^ 64 -> reports m f r ->
  (forall i x, member i m -> f i = inl x -> exists b, b < 256 /\ x = ident_of_byte b) ->
  columns [5; 11]%nat [T "Port"; T "Ident"; T "Description"]
    (fun i x => [port_shown i; T "0x" ++ hex_shown (enum_to_u8 x); enum_display tbl_Identifier x]) (told_ports m f)
    (fun h => print_module_identifier r (OutDefault h)) /\
  fields_split ident_field_name ident_value (told_ports m f) (fun h fs sep => print_module_identifier r (OutParseable h fs sep)) /\
  (forall i x f, (exists b, b < 256 /\ x = ident_of_byte b) -> plain (ident_value i x f)).
Proof. exact ident_table. Qed.
Print Assumptions C65_ident.
Theorem C65_ident_lines : forall m f r, m < 2 ^ 64 -> reports m f r ->
  (forall i x, member i m -> f i = inl x -> exists b, b < 256 /\ x = ident_of_byte b) ->
  (forall h, whole_lines (print_module_identifier r (OutDefault h))) /\
  (forall h fs sep, ~ In 10 sep -> whole_lines (print_module_identifier r (OutParseable h fs sep))).
Proof. exact ident_lines. Qed.
Print Assumptions C65_ident_lines.
Theorem C65_led : forall m f r, m < 2 ^ 64 -> reports m f r ->
  columns [5]%nat [T "Port"; T "LED"] (fun i x => [port_shown i; led_word x]) (told_ports m f)
    (fun h => print_led_state r (OutDefault h)) /\
  fields_split led_field_name led_value (told_ports m f) (fun h fs sep => print_led_state r (OutParseable h fs sep)) /\
  (forall i x f, plain (led_value i x f)).
Proof. exact led_table. Qed.
Print Assumptions C65_led.
Theorem C65_led_lines : forall m f r, m < 2 ^ 64 -> reports m f r ->
  (forall h, whole_lines (print_led_state r (OutDefault h))) /\
  (forall h fs sep, ~ In 10 sep -> whole_lines (print_led_state r (OutParseable h fs sep))).
Proof. exact led_lines. Qed.
Print Assumptions C65_led_lines.
(** The other form of raw data is C57's. *)
Theorem C65_read : forall m f r binary, m < 2 ^ 64 -> reports m f r ->
  (forall i d, member i m -> f i = inl d -> bytes d = true) ->
  fields_split (fun f => match f with FReadPort => T "port" | FReadData => T "data" end) (read_value binary) (told_ports m f)
    (fun h fs sep => print_read_data r binary (OutParseable h fs sep)) /\
  (forall i x f, plain (read_value binary i x f)).
Proof. exact read_fields. Qed.
Print Assumptions C65_read.

(** From the modules' memories to the screen: in [k] each port holds a module with some memory or one
    that fails all reads (C64). *)
Theorem C65_memory : forall St (a : honest St), honest_ok a -> forall (w : world St) m k,
  m < 2 ^ 64 -> reads_as a (w_sp w) (SpecQuery.shows k) ->
  all_modules m k (fun mem => supported_kind (kind_of mem) = true) ->
  all_modules m k (fun mem => ~ reserved_banks (kind_of mem) mem) ->
  exists r items out, snd (memory_model (honest_sp a) m w) = Ok r /\ rack_rows m k memory_model_of items /\
    (forall k, print_module_memory_model r k = Ok (out k)) /\
    columns [5]%nat [T "Port"; T "Model"] (fun i x => [port_shown i; model_shown x]) items (fun h => out (OutDefault h)) /\
    fields_split model_field_name model_value items (fun h fs sep => out (OutParseable h fs sep)) /\
    (forall i x f, In (i, x) items -> plain (model_value i x f)) /\
    (forall h, whole_lines (out (OutDefault h))) /\
    (forall h fs sep, ~ In 10 sep -> whole_lines (out (OutParseable h fs sep))).
Proof. exact @memory_print. Qed.
Print Assumptions C65_memory.
(** C65, full claim for vendor information: also that "no value breaks a line or contains the separator".
    That is false ([C65_newline_refuted], [C65_separator_refuted]), so it is assumed here. *)
Theorem C65_vendor_partial : forall St (a : honest St), honest_ok a -> forall (w : world St) m k,
  m < 2 ^ 64 -> reads_as a (w_sp w) (SpecQuery.shows k) ->
  all_modules m k (fun mem => supported_kind (kind_of mem) = true) ->
  exists r items, snd (vendor_info (honest_sp a) m w) = Ok r /\ rack_rows m k vendor_of items /\
    columns [5; 30; 47; 64; 69; 86]%nat [T "Port"; T "Identifier"; T "Vendor"; T "Part"; T "Rev"; T "Serial"; T "Mfg date"]
      (fun i x => [port_shown i; kind_word (vi_identifier x); v_name (vi_vendor x); v_part (vi_vendor x); v_revision (vi_vendor x);
                   v_serial (vi_vendor x); unpad (date_shown x)]) items (fun h => print_vendor_info r (OutDefault h)) /\
    fields_split vendor_field_name vendor_value items (fun h fs sep => print_vendor_info r (OutParseable h fs sep)) /\
    ((forall i x g, In (i, x) items -> ~ In 10 (vendor_value i x g)) ->
      (forall h, whole_lines (print_vendor_info r (OutDefault h))) /\
      (forall h fs sep, ~ In 10 sep -> whole_lines (print_vendor_info r (OutParseable h fs sep)))).
Proof. exact @vendor_print. Qed.
Print Assumptions C65_vendor_partial.
(** Bytes of a vendor name and of a part number that are a line feed and a colon. *)
Definition odd_rack : rack := fun _ => inl (mem_with
  [(sff_low, 0, 0x11); (sff_up 0, 148, 79); (sff_up 0, 149, 10); (sff_up 0, 150, 88); (sff_up 0, 168, 65);
   (sff_up 0, 169, 58); (sff_up 0, 170, 66)]).
Theorem C65_newline_refuted : exists k r, bytes_rack k /\
  snd (vendor_info (honest_sp (rack_sp k)) 1 (mkWorld tt 0 [])) = Ok r /\
  ~ whole_lines (print_vendor_info r (OutDefault false)).
Proof.
  exists odd_rack. eexists. split; [intros i; apply mem_with_bytes; reflexivity|]. split; [vm_compute; reflexivity|].
  intros H. apply (f_equal (@List.length _)) in H. vm_compute in H. discriminate.
Qed.
Print Assumptions C65_newline_refuted.
Theorem C65_separator_refuted : exists k r row, bytes_rack k /\
  snd (vendor_info (honest_sp (rack_sp k)) 1 (mkWorld tt 0 [])) = Ok r /\
  print_vendor_info r (OutParseable false [FVendorPart; FVendorSerial] [58]) = [row] /\
  List.length (split_on 58 row) = 3%nat.
Proof.
  exists odd_rack. eexists _, _. split; [intros i; apply mem_with_bytes; reflexivity|].
  split; [vm_compute; reflexivity|]. split; [vm_compute; reflexivity|]. vm_compute. reflexivity.
Qed.
Print Assumptions C65_separator_refuted.

(** MAC addresses: the k-th line shows the k-th address of the range; the summary shows the range. *)
Theorem C65_macs : forall base count stride r, mac_ok base = true -> mac_addrs_new base count stride = Ok r ->
  exists lines, print_mac_address_range r false = Ok lines /\ List.length lines = N.to_nat count /\
    (forall n, n < count -> exists line a, nth_error lines (N.to_nat n) = Some line /\
       split_on 58 line = map hex_shown (mac_bytes a) /\ mac_num a = mac_num base + n * stride /\ oui_of a = oui_of base) /\
    whole_lines lines.
Proof. exact mac_table. Qed.
Print Assumptions C65_macs.
Theorem C65_macs_summary : forall base count stride r, mac_ok base = true -> count < 65536 -> stride < 256 ->
  mac_addrs_new base count stride = Ok r ->
  exists b, print_mac_address_range r true = Ok [T "Base:   " ++ b; T "Count:  " ++ number_shown count; T "Stride: " ++ number_shown stride] /\
    split_on 58 b = map hex_shown (mac_bytes base).
Proof. exact mac_summary. Qed.
Print Assumptions C65_macs_summary.

Example C65_witness :
  let f i := if i =? 9 then inr (hw_fault 9 8) else inl (mkPowerMode PowerHigh (if i =? 2 then Some true else None)) in
  let r := mkResult 0x104 [mkPowerMode PowerHigh (Some true); mkPowerMode PowerHigh None] (mkFailed 0x200 [hw_fault 9 8]) in
  reports 0x304 f r /\
  print_power_mode r (OutDefault true) =
    [T "Port  Power  Software-override"; T "   2  High   Yes"; T "   8  High   -"] /\
  print_power_mode r (OutParseable false [FPowerPort; FPowerOverride] [58]) = [T "2:Yes"; T "8:-"].
Proof.
  intros f r. split; [|split; vm_compute; reflexivity].
  apply reports_check; [reflexivity|repeat split|]. vm_compute. repeat constructor.
Qed.
Example C65_memory_witness : exists r,
  snd (memory_model (honest_sp (rack_sp ex_rack)) 7 (mkWorld tt 0 [])) = Ok r /\
  print_module_memory_model r (OutDefault true) =
    Ok [T "Port Model"; T "   0 Paged [0x00,0x03]";
        T "   2 Paged [0x00,0x01,0x02,0x03,0x10/1,0x11/1,0x13/1,0x14/1]"].
Proof. eexists. split; [vm_compute; reflexivity|vm_compute; reflexivity]. Qed.
Example C65_macs_witness : exists r, mac_addrs_new (mkMac 0xa8 0x40 0x25 1 2 0xff) 3 1 = Ok r /\
  print_mac_address_range r false =
    Ok [T "a8:40:25:01:02:ff"; T "a8:40:25:01:03:00"; T "a8:40:25:01:03:01"].
Proof. eexists. split; [vm_compute; reflexivity|vm_compute; reflexivity]. Qed.
