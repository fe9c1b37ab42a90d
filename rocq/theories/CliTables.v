(** Model of the tables printed by controller/src/bin/xcvradm.rs (1532-1575, 1717-1931): power modes,
    identifiers, vendor information, memory models, MAC addresses and LED states.  Standard output is
    a list of lines.  [clap]'s name of a field is its name in kebab case. *)
From Coq Require Import String.
From Verif Require Export Cli DecodeVendor DecodeMemory.
Import ListNotations.

(** [{}] of an unsigned number below 10^fuel *)
Fixpoint show_dec (fuel : nat) (n : N) : text :=
  match fuel with
  | O => []
  | S k => (if n <? 10 then [] else show_dec k (n / 10)) ++ [48 + n mod 10]
  end.

(** controller/src/bin/xcvradm.rs:1519-1520, 1717-1726 *)
Definition WIDTH : nat := 4.
Definition POWER_WIDTH : nat := 5.
Definition ID_BYTE_WIDTH : nat := 5.
Definition ID_DEBUG_WIDTH : nat := 24.
Definition VENDOR_WIDTH : nat := 16.
Definition PART_WIDTH : nat := 16.
Definition REV_WIDTH : nat := 4.
Definition SERIAL_WIDTH : nat := 16.
Definition DATE_WIDTH : nat := 20.

(** controller/src/bin/xcvradm.rs:762-770 *)
Inductive PowerFields := FPowerPort | FPowerPower | FPowerOverride.
Definition power_field_name (f : PowerFields) : text :=
  match f with FPowerPort => T "port" | FPowerPower => T "power" | FPowerOverride => T "override" end.
(** Derived [Debug] of [PowerState] (controller/src/lib.rs:263-291). *)
Definition power_state_debug (s : PowerState) : text :=
  match s with PowerOff => T "Off" | PowerLow => T "Low" | PowerHigh => T "High" end.
(** controller/src/bin/xcvradm.rs:1547-1551 *)
Definition override_text (o : option bool) : text :=
  match o with None => T "-" | Some true => T "Yes" | Some false => T "No" end.
(** controller/src/bin/xcvradm.rs:1532-1575 *)
Definition print_power_mode (r : Result PowerMode) (k : OutputKind PowerFields) : list text :=
  table (T "Port  Power  Software-override") power_field_name
    (fun port m => align_right WIDTH (show_u8 port) ++ T "  " ++
                   align_left POWER_WIDTH (power_state_debug (pm_state m)) ++ T "  " ++
                   override_text (pm_override m))
    (fun port m f => match f with
                     | FPowerPort => show_u8 port
                     | FPowerPower => power_state_debug (pm_state m)
                     | FPowerOverride => override_text (pm_override m)
                     end)
    k (result_iter r).

(** controller/src/bin/xcvradm.rs:772-780 *)
Inductive IdentifyFields := FIdentPort | FIdentIdent | FIdentDescription.
Definition ident_field_name (f : IdentifyFields) : text :=
  match f with FIdentPort => T "port" | FIdentIdent => T "ident" | FIdentDescription => T "description" end.
(** controller/src/bin/xcvradm.rs:1728-1768 *)
Definition print_module_identifier (r : Result Identifier) (k : OutputKind IdentifyFields) : list text :=
  let ident id := T "0x" ++ hex02 (enum_to_u8 id) in
  table (T "Port Ident Description") ident_field_name
    (fun port id => align_right WIDTH (show_u8 port) ++ T " " ++ align_left ID_BYTE_WIDTH (ident id) ++ T " " ++
                    enum_display tbl_Identifier id)
    (fun port id f => match f with
                      | FIdentPort => show_u8 port
                      | FIdentIdent => ident id
                      | FIdentDescription => enum_display tbl_Identifier id
                      end)
    k (result_iter r).

(** Derived [Debug] of [Identifier] (decode/src/ident.rs:18-63): the name of the variant, with its
    byte in decimal for the catch-all variants. *)
Definition identifier_names : list (N * text) :=
  [(0x00, T "Unknown"); (0x01, T "Gbic"); (0x02, T "Soldered"); (0x03, T "Sfp"); (0x04, T "Xbi");
   (0x05, T "Xenpak"); (0x06, T "Xfp"); (0x07, T "Xff"); (0x08, T "XffE"); (0x09, T "Xpak");
   (0x0a, T "X2"); (0x0b, T "DwdmSfp"); (0x0c, T "Qsfp"); (0x0d, T "QsfpPlusSff8636");
   (0x0e, T "Cxp"); (0x0f, T "ShieldedMultiLane4"); (0x10, T "ShieldedMultiLane8");
   (0x11, T "Qsfp28"); (0x12, T "Cxp2"); (0x13, T "Cdfp"); (0x14, T "ShieldedMultiLane4Fanout");
   (0x15, T "ShieldedMultiLane8Fanout"); (0x16, T "Cdfp3"); (0x17, T "MicroQsfp");
   (0x18, T "QsfpDD"); (0x19, T "Qsfp8"); (0x1a, T "SfpDD"); (0x1b, T "Dsfp");
   (0x1c, T "X4MultiLink"); (0x1d, T "X8MiniLink"); (0x1e, T "QsfpPlusCmis")].
Definition identifier_debug (i : Identifier) : text :=
  match i with
  | Named c => match lookup c identifier_names with Some n => n | None => [] end
  | Other k x => match nth_error (et_other tbl_Identifier) k with
                 | Some (n, _) => n ++ T "(" ++ show_u8 x ++ T ")"
                 | None => []
                 end
  end.

(** controller/src/bin/xcvradm.rs:782-798 *)
Inductive VendorInfoFields :=
| FVendorPort | FVendorIdentifier | FVendorVendor | FVendorPart | FVendorRev | FVendorSerial
| FVendorManufacturedDate.
Definition vendor_field_name (f : VendorInfoFields) : text :=
  match f with
  | FVendorPort => T "port" | FVendorIdentifier => T "identifier" | FVendorVendor => T "vendor"
  | FVendorPart => T "part" | FVendorRev => T "rev" | FVendorSerial => T "serial"
  | FVendorManufacturedDate => T "manufactured-date"
  end.
(** controller/src/bin/xcvradm.rs:1789-1794 *)
Definition vendor_ident (x : VendorInfo) : text :=
  identifier_debug (vi_identifier x) ++ T " (0x" ++ hex02 (enum_to_u8 (vi_identifier x)) ++ T ")".
Definition vendor_date (x : VendorInfo) : text :=
  match v_date (vi_vendor x) with Some d => d | None => T "Unknown" end.
(** The format string of lines 1773-1777 and 1799-1808. *)
Definition vendor_line (port ident vendor part rev serial date : text) : text :=
  port ++ T " " ++ align_left ID_DEBUG_WIDTH ident ++ T " " ++ align_left VENDOR_WIDTH vendor ++ T " " ++
  align_left PART_WIDTH part ++ T " " ++ align_left REV_WIDTH rev ++ T " " ++
  align_left SERIAL_WIDTH serial ++ T " " ++ align_left DATE_WIDTH date.
(** controller/src/bin/xcvradm.rs:1770-1833 *)
Definition print_vendor_info (r : Result VendorInfo) (k : OutputKind VendorInfoFields) : list text :=
  table (vendor_line (T "Port") (T "Identifier") (T "Vendor") (T "Part") (T "Rev") (T "Serial") (T "Mfg date"))
    vendor_field_name
    (fun port x => let v := vi_vendor x in
       vendor_line (align_right WIDTH (show_u8 port)) (vendor_ident x) (v_name v) (v_part v) (v_revision v)
                   (v_serial v) (vendor_date x))
    (fun port x f => let v := vi_vendor x in
       match f with
       | FVendorPort => show_u8 port
       | FVendorIdentifier => vendor_ident x
       | FVendorVendor => v_name v
       | FVendorPart => v_part v
       | FVendorRev => v_revision v
       | FVendorSerial => v_serial v
       | FVendorManufacturedDate => vendor_date x
       end)
    k (result_iter r).

(** decode/src/memory_model.rs:41-57 *)
Definition page_display (p : Page) : outcome unit text :=
  page_index <-? opt_unwrap (page_number p) ;;
  Ok (T "0x" ++ hex02 page_index ++ match page_bank p with Some b => T "/" ++ show_u8 b | None => [] end).
(** decode/src/memory_model.rs:34-62 *)
Definition memory_model_display (x : MemoryModel) : outcome unit text :=
  match x with
  | Flat => Ok (T "Flat")
  | Paged pages => l <-? omapM page_display pages ;; Ok (T "Paged [" ++ join (T ",") l ++ T "]")
  end.
(** controller/src/bin/xcvradm.rs:811-817 *)
Inductive MemoryModelFields := FModelPort | FModelModel.
Definition model_field_name (f : MemoryModelFields) : text :=
  match f with FModelPort => T "port" | FModelModel => T "model" end.
(** controller/src/bin/xcvradm.rs:1835-1874.  The models are formatted before anything is printed;
    in the code the lines before one that panics are printed. *)
Definition print_module_memory_model (r : Result MemoryModel) (k : OutputKind MemoryModelFields)
    : outcome unit (list text) :=
  items <-? omapM (fun p => t <-? memory_model_display (snd p) ;; Ok (fst p, t)) (result_iter r) ;;
  Ok (table (T "Port Model") model_field_name
        (fun port t => align_right WIDTH (show_u8 port) ++ T " " ++ t)
        (fun port t f => match f with FModelPort => show_u8 port | FModelModel => t end)
        k items).

(** controller/src/bin/xcvradm.rs:1878-1883, 1889-1893 *)
Definition mac_text (m : Mac) : text :=
  join (T ":") (map hex02 [mac0 m; mac1 m; mac2 m; mac3 m; mac4 m; mac5 m]).
(** controller/src/bin/xcvradm.rs:1876-1897 *)
Definition print_mac_address_range (macs : MacAddrs) (summary : bool) : outcome unit (list text) :=
  if summary
  then Ok [T "Base:   " ++ mac_text (ma_base macs); T "Count:  " ++ show_dec 5 (ma_count macs);
           T "Stride: " ++ show_dec 3 (ma_stride macs)]
  else l <-? mac_iter macs ;; Ok (map mac_text l).

(** controller/src/bin/xcvradm.rs:827-833 *)
Inductive LedFields := FLedPort | FLedLed.
Definition led_field_name (f : LedFields) : text := match f with FLedPort => T "port" | FLedLed => T "led" end.
(** Derived [Debug] and [Display] of [LedState] (messages/src/message.rs:1036-1061). *)
Definition led_debug (s : LedState) : text :=
  match s with LedOff => T "Off" | LedOn => T "On" | LedBlink => T "Blink" end.
Definition led_display (s : LedState) : text :=
  match s with LedOff => T "off" | LedOn => T "on" | LedBlink => T "blink" end.
(** controller/src/bin/xcvradm.rs:1899-1931 *)
Definition print_led_state (r : Result LedState) (k : OutputKind LedFields) : list text :=
  table (T "Port LED") led_field_name
    (fun port s => align_right WIDTH (show_u8 port) ++ T " " ++ led_debug s)
    (fun port s f => match f with FLedPort => show_u8 port | FLedLed => led_display s end)
    k (result_iter r).
