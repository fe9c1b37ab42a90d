(** Theorems for C81. *)
From Coq Require Import String.
From Verif Require Import Tables Types DecodeDatapath CodeText SpecCodes CodesProofs Tac.
Import ListNotations.

(** C81.  Full statement, false for four tables:
    [forall t s d x, In (t, s, d) standards -> x < 256 -> code_text t x = Some (std_text s x)].
    Identifier 0x19 is shown as a QSFP, connectors 0x75 to 0x7f are not shown as reserved, active
    optical cables 0x31 and 0x33 are shown as copper and custom host interfaces 0xc0 to 0xcd are not
    shown as custom. *)
Theorem C81_identifier_refuted : exists x, x < 256 /\
  code_text tbl_Identifier x <> Some (std_text std_identifiers x).
Proof. exists 0x19. split; [lia|]. vm_compute. discriminate. Qed.
Print Assumptions C81_identifier_refuted.
Theorem C81_connector_refuted : exists x, x < 256 /\
  code_text tbl_ConnectorType x <> Some (std_text std_connectors x).
Proof. exists 0x75. split; [lia|]. vm_compute. discriminate. Qed.
Print Assumptions C81_connector_refuted.
Theorem C81_cable_refuted : exists x, x < 256 /\
  code_text tbl_ExtendedSpecificationComplianceCode x <> Some (std_text std_extended x).
Proof. exists 0x31. split; [lia|]. vm_compute. discriminate. Qed.
Print Assumptions C81_cable_refuted.
Theorem C81_custom_refuted : exists x, x < 256 /\
  code_text tbl_HostElectricalInterfaceId x <> Some (std_text std_host_interfaces x).
Proof. exists 0xc0. split; [lia|]. vm_compute. discriminate. Qed.
Print Assumptions C81_custom_refuted.

(** Every code of every table is shown by the standard's name or class, but for exactly the codes
    listed beside the table in [standards]. *)
Theorem C81_names_partial : forall t s d x, In (t, s, d) standards -> x < 256 ->
  code_text t x = Some (std_text s x) <-> d x = false.
Proof. exact standard_names. Qed.
Print Assumptions C81_names_partial.
(** The same for the kinds of modules as they are read of them, and for the codes of their data paths. *)
Theorem C81_kinds_partial : forall x, x < 256 ->
  enum_display tbl_Identifier (ident_of_byte x) = std_text std_identifiers x <-> x <> 0x19.
Proof. exact kind_names. Qed.
Print Assumptions C81_kinds_partial.
Theorem C81_read_partial : forall t s d x, In (t, s, d) standards -> x < 256 ->
  enum_display t (enum_of t x) = std_text s x <-> d x = false.
Proof. exact total_names. Qed.
Print Assumptions C81_read_partial.
(** No table is left out. *)
Theorem C81_tables : forall t, In t all_tables -> exists s d, In (t, s, d) standards.
Proof. exact one_each. Qed.
Print Assumptions C81_tables.
(** Ethernet compliance bits. *)
Theorem C81_ethernet : forall i n, In (i, n) std_ethernet -> eth_display (2 ^ i) = n.
Proof. exact ethernet_names. Qed.
Print Assumptions C81_ethernet.
(** Data path states. *)
Theorem C81_states : forall x, x < 256 ->
  match find (fun e => fst e =? x mod 8) std_states with
  | Some (_, n) => exists s, dps_try_from x = Ok s /\ dps_display s = n
  | None => dps_try_from x = Err DeInvalidBitField
  end.
Proof. exact state_names. Qed.
Print Assumptions C81_states.
Example C81_witness :
  std_text std_smf 0x16 = T "100G-LR / 100GBASE-LR1" /\
  std_text std_host_interfaces 0xd0 = T "Custom (0xd0)" /\
  std_text std_identifiers 0x1e = T "QSFP+ (CMIS)" /\
  In (6, T "10GBASE-LRM") std_ethernet /\ (70 < length (cs_names std_extended))%nat.
Proof.
  repeat split; try reflexivity.
  - cbn [std_ethernet run_from]. do 6 right. left. reflexivity.
  - apply Nat.ltb_lt. reflexivity.
Qed.
