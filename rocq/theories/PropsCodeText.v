(** Theorems for C44 and C45. *)
From Coq Require Import String.
From Verif Require Import CodeText SpecText Tac CodeTextProofs.
Import ListNotations.

(** C44: every byte of every code table decodes, converts back to the same byte, and its printed
    name parses back to the same value. *)
Theorem C44_tables : forall t x, In t all_tables -> x < 256 ->
  exists e, enum_from_u8 t x = Some e /\ enum_to_u8 e = x /\
       enum_from_str t (enum_display t e) = Some e.
Proof. exact tables_lossless. Qed.
Print Assumptions C44_tables.
(** C44 for datapath states: the byte is defined by its low three bits, 0 is no state. *)
Theorem C44_datapath_states : forall x, x < 256 ->
  (x mod 8 = 0 -> dps_try_from x = Err DeInvalidBitField) /\
  (x mod 8 <> 0 -> exists s, dps_try_from x = Ok s /\ dps_to_u8 s = x mod 8 /\
     dps_from_str (dps_display s) = Some s).
Proof. exact dps_lossless. Qed.
Print Assumptions C44_datapath_states.
(** C44 for Ethernet compliance codes.  Full statement, false:
    [forall x, x < 256 -> eth_from_str (eth_display x) = Some x]. *)
Theorem C44_ethernet_refuted : exists x, x < 256 /\ eth_from_str (eth_display x) <> Some x.
Proof. exists 0. split; [lia|]. vm_compute. discriminate. Qed.
Print Assumptions C44_ethernet_refuted.
Theorem C44_ethernet_partial : forall x, lookup x eth_names <> None ->
  eth_from_str (eth_display x) = Some x.
Proof. exact eth_lossless. Qed.
Print Assumptions C44_ethernet_partial.
(** The exception is exact: no unnamed code parses back. *)
Theorem C44_ethernet_exact : forall x, x < 256 -> lookup x eth_names = None ->
  eth_from_str (eth_display x) = None.
Proof. exact eth_unknown_unparsed. Qed.
Print Assumptions C44_ethernet_exact.
Example C44_witness : length all_tables = 10%nat /\
  enum_from_str tbl_ConnectorType (T "VendorSpecific (0x8a)") = Some (Other 1 0x8a) /\
  enum_from_str tbl_ConnectorType (T "RJ-45") = Some (Named 0x22) /\ lookup 16 eth_names <> None.
Proof. repeat split; vm_compute; try reflexivity; discriminate. Qed.

(** C45: printing then parsing an OUI is the identity. *)
Theorem C45_roundtrip : forall o, oui0 o < 256 -> oui1 o < 256 -> oui2 o < 256 ->
  oui_from_str (oui_display o) = Ok o.
Proof. exact oui_roundtrip. Qed.
Print Assumptions C45_roundtrip.
(** C45, rejection.  Full statement, false: any text that parses is three dash-separated
    hexadecimal octets.  A plus sign is accepted in front of each octet. *)
Theorem C45_rejects_refuted : exists s o, oui_from_str s = Ok o /\
  ~ exists a b c, s = a ++ [45] ++ b ++ [45] ++ c /\
      hex_val a (oui0 o) /\ hex_val b (oui1 o) /\ hex_val c (oui2 o).
Proof.
  exists (T "+1-2-3"), (mkOui 1 2 3). split; [vm_compute; reflexivity|].
  intros (a & b & c & Hs & [Hn (ds & Ha & _)] & _).
  destruct a as [|x a]; [congruence|]. injection Hs as Hx _. subst.
  inversion Ha as [|? d ? ? Hd]; subst. vm_compute in Hd. discriminate.
Qed.
Print Assumptions C45_rejects_refuted.
Theorem C45_rejects_partial : forall s o, oui_from_str s = Ok o ->
  exists a b c, s = a ++ [45] ++ b ++ [45] ++ c /\
    (forall p v, In (p, v) [(a, oui0 o); (b, oui1 o); (c, oui2 o)] ->
       hex_val p v \/ exists r, p = 43 :: r /\ hex_val r v).
Proof. exact oui_parse_sound. Qed.
Print Assumptions C45_rejects_partial.
Example C45_witness : oui_display (mkOui 0xa8 0x40 0x25) = T "a8-40-25" /\
  oui_from_str (T "A8-4-25") = Ok (mkOui 0xa8 4 0x25) /\
  oui_from_str (T "a8-40") = Err DeInvalidOui.
Proof. repeat split; vm_compute; reflexivity. Qed.
