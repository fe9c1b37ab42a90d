(** Code tables of decode/src (generated from the text of the [bitfield_enum!] invocations):
    for each enum the named codes with their display text, and the catch-all variants with the
    code ranges they match.  Match order is table order, named codes first
    (decode/src/utils.rs:120-128). *)
From Coq Require Import String.
From Verif Require Export Enum.
Import ListNotations.
Local Open Scope string_scope.

(** decode/src/ident.rs:18-63 *)
Definition tbl_Identifier : enum_table := {|
  et_named := [(0x00, T "Unknown");
    (0x01, T "GBIC");
    (0x02, T "Soldered");
    (0x03, T "SFP/SFP+/SFP28 (SFF-8472)");
    (0x04, T "XBI");
    (0x05, T "XENPAK");
    (0x06, T "XFP");
    (0x07, T "XFF");
    (0x08, T "XFP-E");
    (0x09, T "XPAK");
    (0x0a, T "X2");
    (0x0b, T "DWDM-SFP/SFP+");
    (0x0c, T "QSFP (INF-8438)");
    (0x0d, T "QSFP+ (SFF-8636)");
    (0x0e, T "CXP");
    (0x0f, T "Shielded mini multi-lane 4X");
    (0x10, T "Shielded mini multi-lane 8X");
    (0x11, T "QSFP28 (SFF-8636)");
    (0x12, T "CXP2");
    (0x13, T "CDFP (Style 1 or 2)");
    (0x14, T "Shielded mini multi-lane 4X fanout");
    (0x15, T "Shielded mini multi-lane 8X fanout");
    (0x16, T "CDFP (Style 3)");
    (0x17, T "MicroQSFP");
    (0x18, T "QSFP-DD 8X Pluggable");
    (0x19, T "QSFP 8X Pluggable");
    (0x1a, T "SFP-DD 2X Double Density Pluggable");
    (0x1b, T "DSFP Dual Small Form Factor Pluggable");
    (0x1c, T "x4 MiniLink/OcuLink");
    (0x1d, T "x8 MiniLink");
    (0x1e, T "QSFP+ (CMIS)")];
  et_other := [(T "Reserved", [(0x21, 0x7f)]); (T "VendorSpecific", [(0x80, 0xff)]); (T "Unsupported", [(0x00, 0xff)])] |}.

(** decode/src/ident.rs:312-392 *)
Definition tbl_ExtendedSpecificationComplianceCode : enum_table := {|
  et_named := [(0x00, T "Unspecified");
    (0x01, T "100G AOC, retimed or 25GAUI C2M AOC (BER <= 5e-5)");
    (0x02, T "100GBASE-SR4 or 25GBASE-SR");
    (0x03, T "100GBASE-LR4 or 25GBASE-LR");
    (0x04, T "100GBASE-ER4 or 25GBASE-ER");
    (0x05, T "100GBASE-SR10");
    (0x06, T "100G CWDM4");
    (0x07, T "100G PSM4 Parallel SMF");
    (0x08, T "100G ACC, retimed or 25GAUI C2M ACC");
    (0x09, T "Obsolete");
    (0x0b, T "100GBASE-CR4, 25GBASE-CR CA-25G-L or 50GBASE-CR2 with RS FEC");
    (0x0c, T "25GBASE-CR CA-25G-S or 50GBASE-CR2 with BASE-R FEC");
    (0x0d, T "25GBASE-CR CA-25G-N or 50GBASE-CR2 with no FEC");
    (0x0e, T "10 Mb/s Single Pair Ethernet");
    (0x10, T "40GBASE-ER4");
    (0x11, T "4x10GBASE-SR");
    (0x12, T "40G PSM4 Parallel SMF");
    (0x13, T "G959.1 profile P1I1-2D1");
    (0x14, T "G959.1 profile P1S1-2D2");
    (0x15, T "G959.1 profile P1L1-2D2");
    (0x16, T "10GBASE-T with SFI elecrical interface");
    (0x17, T "100G CLR4");
    (0x18, T "100G AOC, retimed or 25GAUI C2M AOC (BER <= 10e-12)");
    (0x19, T "100G ACC, retimed or 25GAUI C2M ACC (BER <= 10e-12)");
    (0x1a, T "100GE-DWDM2");
    (0x1b, T "100G 1550nm WDM");
    (0x1c, T "10GBASE-T Short Reach");
    (0x1d, T "5GBASE-T");
    (0x1e, T "2.5GBASE-T");
    (0x1f, T "40G SWDM4");
    (0x20, T "100G SWDM4");
    (0x21, T "100G PAM4 BiDi");
    (0x37, T "10GBASE-BR");
    (0x38, T "25GBASE-BR");
    (0x39, T "50GBASE-BR");
    (0x22, T "4WDM-10 MSA");
    (0x23, T "4WDM-20 MSA");
    (0x24, T "4WDM-40 MSA");
    (0x25, T "100GBASE-DR");
    (0x26, T "100G-FR or 100GBASE-FR1, CAUI-4");
    (0x27, T "100G-LR or 100GBASE-LR1, CAUI-4");
    (0x28, T "100GBASE-SR1, CAUI-4");
    (0x3a, T "100GBASE-VR1, CAUI-4");
    (0x29, T "100GBASE-SR1, 200GBASE-SR2 or 400GBASE-SR4");
    (0x36, T "100GBASE-VR1, 200GBASE-VR2 or 400GBASE-VR4");
    (0x2a, T "100GBASE-FR1");
    (0x2b, T "100GBASE-LR1");
    (0x2c, T "100G-LR1-20 MSA, CAUI-4");
    (0x2d, T "100G-LR1-30 MSA, CAUI-4");
    (0x2e, T "100G-LR1-40 MSA, CAUI-4");
    (0x2f, T "100G-LR1-20 MSA");
    (0x34, T "100G-LR1-30 MSA");
    (0x35, T "100G-LR1-40 MSA");
    (0x30, T "Active Copper Cable with 50GAUI, 200GAUI-2 or 200GAUI-4 C2M (BER <= 10e-6)");
    (0x31, T "Active Copper Cable with 50GAUI, 200GAUI-2 or 200GAUI-4 C2M (BER <= 10e-6) 2");
    (0x32, T "Active Copper Cable with 50GAUI, 200GAUI-2 or 200GAUI-4 C2M (BER <= 2.6e-4 or 10e-5)");
    (0x33, T "Active Copper Cable with 50GAUI, 200GAUI-2 or 200GAUI-4 C2M (BER <= 2.6e-4 or 10e-5) 2");
    (0x3f, T "100GBASE-CR1, 200GBASE-CR2 or 400GBASE-CR4");
    (0x40, T "50GBASE-CR, 100GBASE-CR2 or 200GBASE-CR4");
    (0x41, T "50GBASE-SR, 100GBASE-SR2 or 200GBASE-SR4");
    (0x42, T "50GBASE-FR or 200GBASE-DR4");
    (0x4a, T "50GBASE-ER");
    (0x43, T "200GBASE-FR4");
    (0x44, T "200G 1550nm PSM4");
    (0x45, T "50GBASE-LR");
    (0x46, T "200GBASE-LR4");
    (0x47, T "400GBASE-DR4");
    (0x48, T "400GBASE-FR4");
    (0x49, T "400GBASE-LR4-6");
    (0x4b, T "400G-LR4-10");
    (0x4c, T "400GBASE-ZR");
    (0x7f, T "256GFC-SW4");
    (0x80, T "64GFC");
    (0x81, T "128GFC")];
  et_other := [(T "Reserved", [(0x0a, 0x0a); (0x0f, 0x0f); (0x3b, 0x3e); (0x4d, 0x7e); (0x82, 0xff)])] |}.

(** decode/src/ident.rs:394-453 *)
Definition tbl_HostElectricalInterfaceId : enum_table := {|
  et_named := [(0x00, T "Undefined");
    (0x01, T "1000BASE-CX");
    (0x02, T "XAUI");
    (0x03, T "XFI");
    (0x04, T "SFI");
    (0x05, T "25GAUI C2M");
    (0x06, T "XLAUI C2M");
    (0x07, T "XLPPI");
    (0x08, T "LAUI-2 C2M");
    (0x09, T "50GAUI-2 C2M");
    (0x0a, T "50GAUI-1 C2M");
    (0x0b, T "CAUI-4 C2M");
    (0x41, T "CAUI-4 C2M with out FEC");
    (0x42, T "CAUI-4 C2M with RS(528, 514) FEC");
    (0x0c, T "100GAUI-4 C2M");
    (0x0d, T "100GAUI-2 C2M");
    (0x4b, T "100GAUI-1-S C2M");
    (0x4c, T "100GAUI-1-L C2M");
    (0x0e, T "200GAUI-8 C2M");
    (0x0f, T "200GAUI-4 C2M");
    (0x4d, T "200GAUI-2-S C2M");
    (0x4e, T "200GAUI-2-L C2M");
    (0x10, T "400GAUI-16 C2M");
    (0x11, T "400GAUI-8 C2M");
    (0x4f, T "400GAUI-4-S C2M");
    (0x50, T "400GAUI-4-L C2M");
    (0x51, T "800G S C2M");
    (0x52, T "800G L C2M");
    (0x13, T "10GBASE-CX4");
    (0x14, T "25GBASE-CR CA-25G-L");
    (0x15, T "25GBASE-CR or 25GBASE-CR-S CA-25G-S");
    (0x16, T "25GBASE-CR or 25GBASE-CR-S CA-25G-N");
    (0x17, T "40GBASE-CR4");
    (0x43, T "50GBASE-CR2 with RS(528, 514) FEC");
    (0x44, T "50GBASE-CR2 with Firecode FEC");
    (0x45, T "50GBASE-CR2 with no FEC");
    (0x18, T "50GBASE-CR");
    (0x19, T "100GBASE-CR10");
    (0x1a, T "100GBASE-CR4");
    (0x1b, T "100GBASE-CR2");
    (0x46, T "100GBASE-CR1");
    (0x1c, T "200GBASE-CR4");
    (0x47, T "200GBASE-CR2");
    (0x1d, T "400G CR8");
    (0x48, T "400GBASE-CR4");
    (0x49, T "800G-ETC-CR8");
    (0xff, T "End of list")];
  et_other := [(T "Reserved", [(0x12, 0x12); (0x30, 0x36); (0x54, 0xbf)]); (T "Custom", [(0xce, 0xfe)]); (T "Other", [(0x00, 0xff)])] |}.

(** decode/src/ident.rs:455-474 *)
Definition tbl_MediaType : enum_table := {|
  et_named := [(0x00, T "Undefined");
    (0x01, T "Multi-mode fiber");
    (0x02, T "Single-mode fiber");
    (0x03, T "Passive copper");
    (0x04, T "Active cable");
    (0x05, T "BASE-T")];
  et_other := [(T "Custom", [(0x40, 0x8f)]); (T "Reserved", [(0x00, 0xff)])] |}.

(** decode/src/ident.rs:522-555 *)
Definition tbl_MmfMediaInterfaceId : enum_table := {|
  et_named := [(0x00, T "Undefined");
    (0x01, T "10GBASE-SW");
    (0x02, T "10GBASE-SR");
    (0x03, T "25GBASE-SR");
    (0x04, T "40GBASE-SR4");
    (0x05, T "40GE SWDM4");
    (0x06, T "40GE BiDi");
    (0x07, T "50GBASE-SR");
    (0x08, T "100GBASE-SR10");
    (0x09, T "100GBASE-SR4");
    (0x0a, T "100GE SWDM4");
    (0x0b, T "100GE BiDi");
    (0x0c, T "100GBASE-SR2");
    (0x0d, T "100GBASE-SR1");
    (0x1d, T "100GBASE-VR1");
    (0x0e, T "200GBASE-SR4");
    (0x1b, T "200GBASE-SR2");
    (0x1e, T "200GBASE-VR2");
    (0x0f, T "400GBASE-SR16");
    (0x10, T "400GBASE-SR8");
    (0x11, T "400GBASE-SR4");
    (0x1f, T "400GBASE-VR4");
    (0x12, T "800GBASE-SR8");
    (0x20, T "800GBASE-VR8");
    (0x1a, T "400GBASE-SR4.2")];
  et_other := [(T "Reserved", [(0x00, 0xff)])] |}.

(** decode/src/ident.rs:557-612 *)
Definition tbl_SmfMediaInterfaceId : enum_table := {|
  et_named := [(0x00, T "Undefined");
    (0x01, T "10GBASE-LW");
    (0x02, T "10GBASE-EW");
    (0x03, T "10G-ZW");
    (0x04, T "10GBASE-LR");
    (0x05, T "10GBASE-ER");
    (0x4e, T "10GBASE-BR");
    (0x06, T "10G-ZR");
    (0x07, T "25GBASE-LR");
    (0x08, T "25GBASE-ER");
    (0x4f, T "25GBASE-BR");
    (0x09, T "40GBASE-LR4");
    (0x0a, T "40GBASE-FR");
    (0x0b, T "50GBASE-FR");
    (0x0c, T "50GBASE-LR");
    (0x40, T "50GBASE-ER");
    (0x50, T "50GBASE-BR");
    (0x0d, T "100GBASE-LR4");
    (0x0e, T "100GBASE-ER4");
    (0x0f, T "100G PSM4");
    (0x34, T "100G CWDM4-OCP");
    (0x10, T "100G CWDM4");
    (0x11, T "100G 4WDM-10");
    (0x12, T "100G 4WDM-20");
    (0x13, T "100G 4WDM-40");
    (0x14, T "100GBASE-DR");
    (0x15, T "100G-FR / 100GBASE-FR1");
    (0x16, T "100G-LR / 100GBASE-LR1");
    (0x4a, T "100G-LR1-20");
    (0x4b, T "100G-ER1-30");
    (0x4c, T "100G-ER1-40");
    (0x44, T "100GBASE-ZR");
    (0x17, T "200GBASE-DR4");
    (0x18, T "200GBASE-FR4");
    (0x19, T "200GBASE-LR4");
    (0x41, T "200GBASE-ER4");
    (0x1a, T "400GBASE-FR8");
    (0x1b, T "400GBASE-LR8");
    (0x42, T "400GBASE-ER8");
    (0x1c, T "400GBASE-DR4");
    (0x55, T "400GBASE-DR4-2");
    (0x1d, T "400G-FR4 / 400GBASE-FR4");
    (0x43, T "400GBASE-LR4-6");
    (0x1e, T "400G-LR4-10");
    (0x4d, T "400GBASE-ZR");
    (0x56, T "800GBASE-DR8");
    (0x57, T "800GBASE-DR8-2")];
  et_other := [(T "Reserved", [(0x00, 0xff)])] |}.

(** decode/src/ident.rs:614-625 *)
Definition tbl_PassiveCopperMediaInterfaceId : enum_table := {|
  et_named := [(0x00, T "Undefined");
    (0x01, T "Copper cable");
    (0xbf, T "Passive loopback")];
  et_other := [(T "Custom", [(0xc0, 0xff)]); (T "Reserved", [(0x02, 0xbf)])] |}.

(** decode/src/ident.rs:627-641 *)
Definition tbl_ActiveCableMediaInterfaceId : enum_table := {|
  et_named := [(0x00, T "Undefined");
    (0x01, T "Active Cable assembly with BER < 1e-12");
    (0x02, T "Active Cable assembly with BER < 5e-5");
    (0x03, T "Active Cable assembly with BER < 2.6e-4");
    (0x04, T "Active Cable assembly with BER < 10e-6");
    (0xbf, T "Active loopback")];
  et_other := [(T "Reserved", [(0x05, 0xbe)]); (T "Custom", [(0xc0, 0xff)])] |}.

(** decode/src/ident.rs:643-659 *)
Definition tbl_BaseTMediaInterfaceId : enum_table := {|
  et_named := [(0x00, T "Undefined");
    (0x01, T "1000BASE-T");
    (0x02, T "2.5GBASE-T");
    (0x03, T "5GBASE-T");
    (0x04, T "10GBASE-T");
    (0x05, T "25GBASE-T");
    (0x06, T "40GBASE-T");
    (0x07, T "50GBASE-T")];
  et_other := [(T "Custom", [(0xc0, 0xff)]); (T "Reserved", [(0x08, 0xbf)])] |}.

(** decode/src/datapath.rs:66-87 *)
Definition tbl_ConnectorType : enum_table := {|
  et_named := [(0x00, T "Unknown or unspecified");
    (0x01, T "Subscriber Connector (SC)");
    (0x07, T "Lucent Connector (LC)");
    (0x0c, T "MPO 1x12");
    (0x0d, T "MPO 2x16");
    (0x22, T "RJ-45");
    (0x23, T "No separable connector");
    (0x27, T "MPO 2x12");
    (0x28, T "MPO 1x16")];
  et_other := [(T "Reserved", [(0x0e, 0x1f); (0x29, 0x74)]); (T "VendorSpecific", [(0x80, 0xff)]); (T "Other", [(0x00, 0xff)])] |}.

Definition all_tables : list enum_table := [tbl_Identifier; tbl_ExtendedSpecificationComplianceCode; tbl_HostElectricalInterfaceId; tbl_MediaType; tbl_MmfMediaInterfaceId; tbl_SmfMediaInterfaceId; tbl_PassiveCopperMediaInterfaceId; tbl_ActiveCableMediaInterfaceId; tbl_BaseTMediaInterfaceId; tbl_ConnectorType].
