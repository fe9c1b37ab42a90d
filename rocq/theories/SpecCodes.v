(** The names of SFF-8024's codes, in the order of the codes, written from the standard's tables
    (rev 4.10, tables 4-1 and 4-3 to 4-10) in the short wording the tool uses, and the classes of
    the codes the tool has no name for.  Ethernet compliance codes are from SFF-8636 table 6-17 and
    media types and data path states from CMIS. *)
From Coq Require Import String.
From Verif Require Import Tables.
Import ListNotations.
Local Open Scope string_scope.

(** Names for consecutive codes from [x] on; [None] where the tool names no code. *)
Fixpoint run_from (x : N) (l : list (option string)) : list (N * text) :=
  match l with
  | [] => []
  | Some s :: r => (x, T s) :: run_from (x + 1) r
  | None :: r => run_from (x + 1) r
  end.

Record code_standard := {
  cs_names : list (N * text);
  (** class and codes, for codes without a name; the rest is of class [cs_rest] *)
  cs_classes : list (string * list (N * N));
  cs_rest : string
}.

(** Table 4-1, module identifiers. *)
Definition std_identifiers := {|
  cs_names := run_from 0
   [Some "Unknown"; Some "GBIC"; Some "Soldered"; Some "SFP/SFP+/SFP28 (SFF-8472)"; Some "XBI";
    Some "XENPAK"; Some "XFP"; Some "XFF"; Some "XFP-E"; Some "XPAK"; Some "X2";
    Some "DWDM-SFP/SFP+"; Some "QSFP (INF-8438)"; Some "QSFP+ (SFF-8636)"; Some "CXP";
    Some "Shielded mini multi-lane 4X";
    (* 0x10 *)
    Some "Shielded mini multi-lane 8X"; Some "QSFP28 (SFF-8636)"; Some "CXP2";
    Some "CDFP (Style 1 or 2)"; Some "Shielded mini multi-lane 4X fanout";
    Some "Shielded mini multi-lane 8X fanout"; Some "CDFP (Style 3)"; Some "MicroQSFP";
    Some "QSFP-DD 8X Pluggable"; Some "OSFP 8X Pluggable";
    Some "SFP-DD 2X Double Density Pluggable"; Some "DSFP Dual Small Form Factor Pluggable";
    Some "x4 MiniLink/OcuLink"; Some "x8 MiniLink"; Some "QSFP+ (CMIS)"];
  cs_classes := [("Reserved", [(0x21, 0x7f)]); ("VendorSpecific", [(0x80, 0xff)])];
  cs_rest := "Unsupported" |}.

(** Table 4-3, connector types. *)
Definition std_connectors := {|
  cs_names :=
    run_from 0 [Some "Unknown or unspecified"; Some "Subscriber Connector (SC)"] ++
    run_from 7 [Some "Lucent Connector (LC)"] ++
    run_from 0x0c [Some "MPO 1x12"; Some "MPO 2x16"] ++
    run_from 0x22 [Some "RJ-45"; Some "No separable connector"] ++
    run_from 0x27 [Some "MPO 2x12"; Some "MPO 1x16"];
  cs_classes := [("Reserved", [(0x0e, 0x1f); (0x29, 0x7f)]); ("VendorSpecific", [(0x80, 0xff)])];
  cs_rest := "Other" |}.

(** Table 4-4, extended specification compliance codes. *)
Definition std_extended := {|
  cs_names := run_from 0
   [Some "Unspecified"; Some "100G AOC, retimed or 25GAUI C2M AOC (BER <= 5e-5)";
    Some "100GBASE-SR4 or 25GBASE-SR"; Some "100GBASE-LR4 or 25GBASE-LR";
    Some "100GBASE-ER4 or 25GBASE-ER"; Some "100GBASE-SR10"; Some "100G CWDM4";
    Some "100G PSM4 Parallel SMF"; Some "100G ACC, retimed or 25GAUI C2M ACC"; Some "Obsolete";
    None; Some "100GBASE-CR4, 25GBASE-CR CA-25G-L or 50GBASE-CR2 with RS FEC";
    Some "25GBASE-CR CA-25G-S or 50GBASE-CR2 with BASE-R FEC";
    Some "25GBASE-CR CA-25G-N or 50GBASE-CR2 with no FEC"; Some "10 Mb/s Single Pair Ethernet";
    None;
    (* 0x10 *)
    Some "40GBASE-ER4"; Some "4x10GBASE-SR"; Some "40G PSM4 Parallel SMF";
    Some "G959.1 profile P1I1-2D1"; Some "G959.1 profile P1S1-2D2";
    Some "G959.1 profile P1L1-2D2"; Some "10GBASE-T with SFI elecrical interface";
    Some "100G CLR4"; Some "100G AOC, retimed or 25GAUI C2M AOC (BER <= 10e-12)";
    Some "100G ACC, retimed or 25GAUI C2M ACC (BER <= 10e-12)"; Some "100GE-DWDM2";
    Some "100G 1550nm WDM"; Some "10GBASE-T Short Reach"; Some "5GBASE-T"; Some "2.5GBASE-T";
    Some "40G SWDM4";
    (* 0x20 *)
    Some "100G SWDM4"; Some "100G PAM4 BiDi"; Some "4WDM-10 MSA"; Some "4WDM-20 MSA";
    Some "4WDM-40 MSA"; Some "100GBASE-DR"; Some "100G-FR or 100GBASE-FR1, CAUI-4";
    Some "100G-LR or 100GBASE-LR1, CAUI-4"; Some "100GBASE-SR1, CAUI-4";
    Some "100GBASE-SR1, 200GBASE-SR2 or 400GBASE-SR4"; Some "100GBASE-FR1"; Some "100GBASE-LR1";
    Some "100G-LR1-20 MSA, CAUI-4"; Some "100G-ER1-30 MSA, CAUI-4";
    Some "100G-ER1-40 MSA, CAUI-4"; Some "100G-LR1-20 MSA";
    (* 0x30 *)
    Some "Active Copper Cable with 50GAUI, 100GAUI-2 or 200GAUI-4 C2M (BER <= 10e-6)";
    Some "Active Optical Cable with 50GAUI, 100GAUI-2 or 200GAUI-4 C2M (BER <= 10e-6)";
    Some "Active Copper Cable with 50GAUI, 100GAUI-2 or 200GAUI-4 C2M (BER <= 2.6e-4 or 10e-5)";
    Some "Active Optical Cable with 50GAUI, 100GAUI-2 or 200GAUI-4 C2M (BER <= 2.6e-4 or 10e-5)";
    Some "100G-ER1-30 MSA"; Some "100G-ER1-40 MSA";
    Some "100GBASE-VR1, 200GBASE-VR2 or 400GBASE-VR4"; Some "10GBASE-BR"; Some "25GBASE-BR";
    Some "50GBASE-BR"; Some "100GBASE-VR1, CAUI-4"; None; None; None; None;
    Some "100GBASE-CR1, 200GBASE-CR2 or 400GBASE-CR4";
    (* 0x40 *)
    Some "50GBASE-CR, 100GBASE-CR2 or 200GBASE-CR4";
    Some "50GBASE-SR, 100GBASE-SR2 or 200GBASE-SR4"; Some "50GBASE-FR or 200GBASE-DR4";
    Some "200GBASE-FR4"; Some "200G 1550nm PSM4"; Some "50GBASE-LR"; Some "200GBASE-LR4";
    Some "400GBASE-DR4"; Some "400GBASE-FR4"; Some "400GBASE-LR4-6"; Some "50GBASE-ER";
    Some "400G-LR4-10"; Some "400GBASE-ZR"] ++
    run_from 0x7f [Some "256GFC-SW4"; Some "64GFC"; Some "128GFC"];
  cs_classes := [];
  cs_rest := "Reserved" |}.

(** Table 4-5, host electrical interfaces. *)
Definition std_host_interfaces := {|
  cs_names := run_from 0
   [Some "Undefined"; Some "1000BASE-CX"; Some "XAUI"; Some "XFI"; Some "SFI";
    Some "25GAUI C2M"; Some "XLAUI C2M"; Some "XLPPI"; Some "LAUI-2 C2M"; Some "50GAUI-2 C2M";
    Some "50GAUI-1 C2M"; Some "CAUI-4 C2M"; Some "100GAUI-4 C2M"; Some "100GAUI-2 C2M";
    Some "200GAUI-8 C2M"; Some "200GAUI-4 C2M";
    (* 0x10 *)
    Some "400GAUI-16 C2M"; Some "400GAUI-8 C2M"; None; Some "10GBASE-CX4";
    Some "25GBASE-CR CA-25G-L"; Some "25GBASE-CR or 25GBASE-CR-S CA-25G-S";
    Some "25GBASE-CR or 25GBASE-CR-S CA-25G-N"; Some "40GBASE-CR4"; Some "50GBASE-CR";
    Some "100GBASE-CR10"; Some "100GBASE-CR4"; Some "100GBASE-CR2"; Some "200GBASE-CR4";
    Some "400G CR8"] ++
    run_from 0x41
   [Some "CAUI-4 C2M with out FEC"; Some "CAUI-4 C2M with RS(528, 514) FEC";
    Some "50GBASE-CR2 with RS(528, 514) FEC"; Some "50GBASE-CR2 with Firecode FEC";
    Some "50GBASE-CR2 with no FEC"; Some "100GBASE-CR1"; Some "200GBASE-CR2";
    Some "400GBASE-CR4"; Some "800G-ETC-CR8"; None; Some "100GAUI-1-S C2M";
    Some "100GAUI-1-L C2M"; Some "200GAUI-2-S C2M"; Some "200GAUI-2-L C2M";
    Some "400GAUI-4-S C2M";
    (* 0x50 *)
    Some "400GAUI-4-L C2M"; Some "800G S C2M"; Some "800G L C2M"] ++
    run_from 0xff [Some "End of list"];
  cs_classes := [("Reserved", [(0x12, 0x12); (0x30, 0x36); (0x54, 0xbf)]);
                 ("Custom", [(0xc0, 0xfe)])];
  cs_rest := "Other" |}.

(** Media types (CMIS). *)
Definition std_media_types := {|
  cs_names := run_from 0
   [Some "Undefined"; Some "Multi-mode fiber"; Some "Single-mode fiber"; Some "Passive copper";
    Some "Active cable"; Some "BASE-T"];
  cs_classes := [("Custom", [(0x40, 0x8f)])];
  cs_rest := "Reserved" |}.

(** Table 4-6, multi-mode fiber. *)
Definition std_mmf := {|
  cs_names := run_from 0
   [Some "Undefined"; Some "10GBASE-SW"; Some "10GBASE-SR"; Some "25GBASE-SR";
    Some "40GBASE-SR4"; Some "40GE SWDM4"; Some "40GE BiDi"; Some "50GBASE-SR";
    Some "100GBASE-SR10"; Some "100GBASE-SR4"; Some "100GE SWDM4"; Some "100GE BiDi";
    Some "100GBASE-SR2"; Some "100GBASE-SR1"; Some "200GBASE-SR4"; Some "400GBASE-SR16";
    (* 0x10 *)
    Some "400GBASE-SR8"; Some "400GBASE-SR4"; Some "800GBASE-SR8"] ++
    run_from 0x1a
   [Some "400GBASE-SR4.2"; Some "200GBASE-SR2"; None; Some "100GBASE-VR1"; Some "200GBASE-VR2";
    Some "400GBASE-VR4"; Some "800GBASE-VR8"];
  cs_classes := [];
  cs_rest := "Reserved" |}.

(** Table 4-7, single-mode fiber. *)
Definition std_smf := {|
  cs_names := run_from 0
   [Some "Undefined"; Some "10GBASE-LW"; Some "10GBASE-EW"; Some "10G-ZW"; Some "10GBASE-LR";
    Some "10GBASE-ER"; Some "10G-ZR"; Some "25GBASE-LR"; Some "25GBASE-ER"; Some "40GBASE-LR4";
    Some "40GBASE-FR"; Some "50GBASE-FR"; Some "50GBASE-LR"; Some "100GBASE-LR4";
    Some "100GBASE-ER4"; Some "100G PSM4";
    (* 0x10 *)
    Some "100G CWDM4"; Some "100G 4WDM-10"; Some "100G 4WDM-20"; Some "100G 4WDM-40";
    Some "100GBASE-DR"; Some "100G-FR / 100GBASE-FR1"; Some "100G-LR / 100GBASE-LR1";
    Some "200GBASE-DR4"; Some "200GBASE-FR4"; Some "200GBASE-LR4"; Some "400GBASE-FR8";
    Some "400GBASE-LR8"; Some "400GBASE-DR4"; Some "400G-FR4 / 400GBASE-FR4";
    Some "400G-LR4-10"] ++
    run_from 0x34 [Some "100G CWDM4-OCP"] ++
    run_from 0x40
   [Some "50GBASE-ER"; Some "200GBASE-ER4"; Some "400GBASE-ER8"; Some "400GBASE-LR4-6";
    Some "100GBASE-ZR"; None; None; None; None; None; Some "100G-LR1-20"; Some "100G-ER1-30";
    Some "100G-ER1-40"; Some "400GBASE-ZR"; Some "10GBASE-BR"; Some "25GBASE-BR";
    (* 0x50 *)
    Some "50GBASE-BR"; None; None; None; None; Some "400GBASE-DR4-2"; Some "800GBASE-DR8";
    Some "800GBASE-DR8-2"];
  cs_classes := [];
  cs_rest := "Reserved" |}.

(** Table 4-8, passive copper cables. *)
Definition std_passive := {|
  cs_names := run_from 0 [Some "Undefined"; Some "Copper cable"] ++
              run_from 0xbf [Some "Passive loopback"];
  cs_classes := [("Custom", [(0xc0, 0xff)])];
  cs_rest := "Reserved" |}.

(** Table 4-9, active cable assemblies. *)
Definition std_active := {|
  cs_names := run_from 0
   [Some "Undefined"; Some "Active Cable assembly with BER < 1e-12";
    Some "Active Cable assembly with BER < 5e-5"; Some "Active Cable assembly with BER < 2.6e-4";
    Some "Active Cable assembly with BER < 10e-6"] ++
    run_from 0xbf [Some "Active loopback"];
  cs_classes := [("Custom", [(0xc0, 0xff)])];
  cs_rest := "Reserved" |}.

(** Table 4-10, BASE-T. *)
Definition std_base_t := {|
  cs_names := run_from 0
   [Some "Undefined"; Some "1000BASE-T"; Some "2.5GBASE-T"; Some "5GBASE-T"; Some "10GBASE-T";
    Some "25GBASE-T"; Some "40GBASE-T"; Some "50GBASE-T"];
  cs_classes := [("Custom", [(0xc0, 0xff)])];
  cs_rest := "Reserved" |}.

Local Close Scope string_scope.

(** What the standard has to say about a code. *)
Definition std_class (s : code_standard) (x : N) : string :=
  match find (fun c => existsb (fun r => (fst r <=? x) && (x <=? snd r)) (snd c)) (cs_classes s) with
  | Some (c, _) => c
  | None => cs_rest s
  end.
Definition std_text (s : code_standard) (x : N) : text :=
  match find (fun e => fst e =? x) (cs_names s) with
  | Some (_, n) => n
  | None => T (std_class s x) ++ T " (0x" ++ hex02 x ++ T ")"
  end.

(** Each of the tool's tables with the standard's and the codes on which they differ. *)
Definition standards : list (enum_table * code_standard * (N -> bool)) :=
  [(tbl_Identifier, std_identifiers, fun x => x =? 0x19);
   (tbl_ConnectorType, std_connectors, fun x => (0x75 <=? x) && (x <=? 0x7f));
   (tbl_ExtendedSpecificationComplianceCode, std_extended,
      fun x => ((0x2d <=? x) && (x <=? 0x2e)) || ((0x30 <=? x) && (x <=? 0x35)));
   (tbl_HostElectricalInterfaceId, std_host_interfaces, fun x => (0xc0 <=? x) && (x <=? 0xcd));
   (tbl_MediaType, std_media_types, fun _ => false);
   (tbl_MmfMediaInterfaceId, std_mmf, fun _ => false);
   (tbl_SmfMediaInterfaceId, std_smf, fun _ => false);
   (tbl_PassiveCopperMediaInterfaceId, std_passive, fun _ => false);
   (tbl_ActiveCableMediaInterfaceId, std_active, fun _ => false);
   (tbl_BaseTMediaInterfaceId, std_base_t, fun _ => false)].

(** The text the tool shows for a byte it has decoded with a table. *)
Definition code_text (t : enum_table) (x : N) : option text :=
  option_map (enum_display t) (enum_from_u8 t x).

(** SFF-8636 table 6-17: one bit for each kind. *)
Definition std_ethernet : list (N * text) :=
  run_from 0 [Some "40G Active Cable"%string; Some "40GBASE-LR4"%string; Some "40GBASE-SR4"%string;
              Some "40GBASE-CR4"%string; Some "10GBASE-SR"%string; Some "10GBASE-LR"%string;
              Some "10GBASE-LRM"%string].

(** CMIS: data path states. *)
Definition std_states : list (N * text) :=
  run_from 1 [Some "Deactivated"%string; Some "Initializing"%string; Some "Deinitializing"%string;
              Some "Activated"%string; Some "Tx turning on"%string; Some "Tx turning off"%string;
              Some "Initialized"%string].
