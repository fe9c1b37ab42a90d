(** Proofs about the serde forms of status values. *)
From Verif Require Import StatusSerde Tac.

Lemma truncate_small v : v < 256 -> status_truncate v = v.
Proof. intro H. unfold status_truncate. change 0xff with (N.ones 8). rewrite N.land_ones. apply N.mod_small, H. Qed.
Lemma ext_truncate_small v : v < 512 -> ext_status_truncate v = v.
Proof. intro H. unfold ext_status_truncate. change 0x1ff with (N.ones 9). rewrite N.land_ones. apply N.mod_small, H. Qed.

Lemma status_visited w v : status_visit w v = if v <? 256 then Some v else None.
Proof.
  destruct w; cbn [status_visit]; [reflexivity| | |]; change (2 ^ 8) with 256;
    destruct (N.ltb_spec v 256); try reflexivity; now rewrite truncate_small.
Qed.
Lemma status_serde_roundtrip w s : s < 256 -> status_visit w (status_serialize s) = Some s.
Proof. intro H. rewrite status_visited. unfold status_serialize. destruct (N.ltb_spec s 256); [reflexivity|lia]. Qed.
Lemma ext_visited_small w v : v < 512 -> ext_status_visit w v = Some v.
Proof.
  intro H. destruct w; cbn [ext_status_visit]; unfold ext_status_from_bits;
    try (rewrite ext_truncate_small by exact H); change (2 ^ 32) with 4294967296;
    destruct (N.ltb_spec v 4294967296); try lia; try reflexivity.
  all: destruct (N.ltb_spec v 512); [reflexivity|lia].
Qed.
Lemma ext_serde_roundtrip w s : s < 512 -> ext_status_visit w (ext_status_serialize s) = Some s.
Proof. intro H. exact (ext_visited_small w s H). Qed.
Lemma ext_visited_32 v : ext_status_visit W32 v = if v <? 512 then Some v else None.
Proof. reflexivity. Qed.
Lemma ext_truncated w v : w <> W32 -> v < 2 ^ 32 -> 
  exists s, ext_status_visit w v = Some s /\ forall i, N.testbit s i = (N.testbit v i && (i <? 9))%bool.
Proof.
  intros Hw Hv. apply N.ltb_lt in Hv.
  assert (H : ext_status_visit w v = Some (ext_status_truncate v))
    by (destruct w; cbn [ext_status_visit]; rewrite ?Hv; congruence).
  exists (ext_status_truncate v). split; [exact H|]. intro i. unfold ext_status_truncate.
  rewrite N.land_spec. change 0x1ff with (N.ones 9). destruct (N.ltb_spec i 9).
  - rewrite N.ones_spec_low by lia. reflexivity.
  - rewrite N.ones_spec_high by lia. reflexivity.
Qed.
