(** Theorems for C82, the serde forms of status values. *)
From Verif Require Import StatusSerde StatusSerdeProofs Tac.

(** C82: a serialised status is read back, in every width. *)
Theorem C82_roundtrip : forall w s, s < 256 -> status_visit w (status_serialize s) = Some s.
Proof. exact status_serde_roundtrip. Qed.
Print Assumptions C82_roundtrip.
Theorem C82_ext_roundtrip : forall w s, s < 512 -> ext_status_visit w (ext_status_serialize s) = Some s.
Proof. exact ext_serde_roundtrip. Qed.
Print Assumptions C82_ext_roundtrip.
(** C82: a number is read as the status with those bits or rejected. *)
Theorem C82_read : forall w v, status_visit w v = if v <? 256 then Some v else None.
Proof. exact status_visited. Qed.
Print Assumptions C82_read.
(** C82, full statement for extended status, false: [forall w v, ext_status_visit w v =
    if v <? 512 then Some v else None].  Offered as u64, as by JSON, undefined bits are dropped. *)
Theorem C82_ext_read_refuted : exists v s, ext_status_visit W64 v = Some s /\ s <> v.
Proof. exists 512, 0. split; [reflexivity|discriminate]. Qed.
Print Assumptions C82_ext_read_refuted.
Theorem C82_ext_read_partial : forall v, ext_status_visit W32 v = if v <? 512 then Some v else None.
Proof. exact ext_visited_32. Qed.
Print Assumptions C82_ext_read_partial.
(** The other widths keep the nine defined bits and drop the others. *)
Theorem C82_ext_read_truncates : forall w v, w <> W32 -> v < 2 ^ 32 ->
  exists s, ext_status_visit w v = Some s /\ forall i, N.testbit s i = (N.testbit v i && (i <? 9))%bool.
Proof. exact ext_truncated. Qed.
Print Assumptions C82_ext_read_truncates.
Example C82_witness :
  status_visit W64 0x83 = Some 0x83 /\ status_visit W32 0x100 = None /\
  ext_status_visit W64 0x703 = Some 0x103 /\ ext_status_visit W32 0x703 = None.
Proof. repeat split. Qed.
