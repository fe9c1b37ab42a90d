(** Proofs about which monitors are reported (C42, C48). *)
From Verif Require Import Tac SpecDecode DecodeProofs DecodeProofs2.
From Coq Require Import Lia.

Lemma monitor_reads_sff id : is_sff id = true ->
  monitor_reads id = Ok [mkRead sff_low 1 1; mkRead (sff_up 0) 220 1; mkRead sff_low 22 6;
    mkRead sff_low 34 8; mkRead sff_low 42 8; mkRead sff_low 50 8].
Proof. intros H. unfold monitor_reads. rewrite H. vm_compute. reflexivity. Qed.
Lemma monitor_reads_cmis id : is_sff id = false -> is_cmis id = true ->
  monitor_reads id = Ok [mkRead (cmis_up 1) 159 2; mkRead (cmis_up 1) 145 7; mkRead cmis_low 14 4;
    mkRead cmis_low 18 8; mkRead p11 154 8; mkRead p11 162 8; mkRead p11 170 8; mkRead p11 178 8;
    mkRead p11 186 8; mkRead p11 194 8].
Proof. intros H1 H2. unfold monitor_reads. rewrite H1, H2. vm_compute. reflexivity. Qed.

Lemma lbit0 b : negb (N.land b 1 =? 0) = N.testbit b 0.
Proof. exact (land_bit b 0). Qed.
Lemma lbit1 b : negb (N.land b 2 =? 0) = N.testbit b 1.
Proof. exact (land_bit b 1). Qed.
Lemma lbit2 b : negb (N.land b 4 =? 0) = N.testbit b 2.
Proof. exact (land_bit b 2). Qed.
Lemma lbit3 b : negb (N.land b 8 =? 0) = N.testbit b 3.
Proof. exact (land_bit b 3). Qed.
Lemma lbit4 b : negb (N.land b 16 =? 0) = N.testbit b 4.
Proof. exact (land_bit b 4). Qed.
Lemma lbit5 b : negb (N.land b 32 =? 0) = N.testbit b 5.
Proof. exact (land_bit b 5). Qed.
Lemma lbit6 b : negb (N.land b 64 =? 0) = N.testbit b 6.
Proof. exact (land_bit b 6). Qed.
Lemma lbit7 b : negb (N.land b 128 =? 0) = N.testbit b 7.
Proof. exact (land_bit b 7). Qed.
Ltac lbits := rewrite ?lbit0, ?lbit1, ?lbit2, ?lbit3, ?lbit4, ?lbit5, ?lbit6, ?lbit7.

Lemma cont1 mem p k : contents mem (mkRead p k 1) = [mem p k].
Proof. reflexivity. Qed.
Lemma absurd_implausible mem p k : byte_memory mem ->
  absurd (word_at_mem mem p k) = implausible (word_at_mem mem p k).
Proof.
  intros H. unfold absurd, implausible, raw, word_at_mem. cbn [fst snd].
  pose proof (H p k). pose proof (H p (k + 1)).
  destruct (N.eqb_spec (mem p k) 0), (N.eqb_spec (mem p (k + 1)) 0), (N.eqb_spec (mem p k) 0xff),
    (N.eqb_spec (mem p (k + 1)) 0xff), (N.eqb_spec (mem p k * 256 + mem p (k + 1)) 0),
    (N.eqb_spec (mem p k * 256 + mem p (k + 1)) 65535); cbn; try reflexivity; lia.
Qed.

Lemma sff_monitors_correct id mem : byte_memory mem -> is_sff id = true ->
  decoded monitor_reads monitor_parse id mem = Ok (sff_monitors_of mem).
Proof.
  intros Hb H. unfold decoded. rewrite monitor_reads_sff by assumption. unfold monitor_parse. rewrite H.
  cbn [map]. rewrite !cont1.
  change (contents mem (mkRead sff_low 22 6)) with
    [mem sff_low 22; mem sff_low 23; mem sff_low 24; mem sff_low 25; mem sff_low 26; mem sff_low 27].
  change (contents mem (mkRead sff_low 34 8)) with
    [mem sff_low 34; mem sff_low 35; mem sff_low 36; mem sff_low 37; mem sff_low 38; mem sff_low 39; mem sff_low 40; mem sff_low 41].
  change (contents mem (mkRead sff_low 42 8)) with
    [mem sff_low 42; mem sff_low 43; mem sff_low 44; mem sff_low 45; mem sff_low 46; mem sff_low 47; mem sff_low 48; mem sff_low 49].
  change (contents mem (mkRead sff_low 50 8)) with
    [mem sff_low 50; mem sff_low 51; mem sff_low 52; mem sff_low 53; mem sff_low 54; mem sff_low 55; mem sff_low 56; mem sff_low 57].
  unfold sff_monitors_of.
  change (words_at_mem mem sff_low 34 4) with
    [(mem sff_low 34, mem sff_low 35); (mem sff_low 36, mem sff_low 37); (mem sff_low 38, mem sff_low 39); (mem sff_low 40, mem sff_low 41)].
  change (words_at_mem mem sff_low 42 4) with
    [(mem sff_low 42, mem sff_low 43); (mem sff_low 44, mem sff_low 45); (mem sff_low 46, mem sff_low 47); (mem sff_low 48, mem sff_low 49)].
  change (words_at_mem mem sff_low 50 4) with
    [(mem sff_low 50, mem sff_low 51); (mem sff_low 52, mem sff_low 53); (mem sff_low 54, mem sff_low 55); (mem sff_low 56, mem sff_low 57)].
  rewrite <- !absurd_implausible by assumption.
  change (word_at_mem mem sff_low 22) with (mem sff_low 22, mem sff_low 23).
  change (word_at_mem mem sff_low 26) with (mem sff_low 26, mem sff_low 27).
  unfold sff_monitors. cbn [nth_read nth_byte nth_error obind].
  lbits.
  destruct (mem sff_low 1 <? 8), (N.testbit (mem (sff_up 0) 220) 5), (N.testbit (mem (sff_up 0) 220) 4),
    (N.testbit (mem (sff_up 0) 220) 3), (N.testbit (mem (sff_up 0) 220) 2);
  cbn [when omap obind word_at nth_error words map];
  unfold decode_temperature_if_reasonable, decode_voltage_if_reasonable;
  try (destruct (absurd (mem sff_low 22, mem sff_low 23)), (absurd (mem sff_low 26, mem sff_low 27)));
  reflexivity.
Qed.

Lemma area8 mem p k : contents mem (mkRead p k 8) =
  [mem p k; mem p (k + 1); mem p (k + 2); mem p (k + 3); mem p (k + 4); mem p (k + 5); mem p (k + 6); mem p (k + 7)].
Proof.
  rewrite contents_mk. change (N.to_nat 8) with 8%nat. unfold area. cbn [nrange map].
  rewrite <- !N.add_assoc. reflexivity.
Qed.
Lemma words8 mem p k : words_at_mem mem p k 8 =
  words (contents mem (mkRead p k 8) ++ contents mem (mkRead p (k + 8) 8)).
Proof.
  rewrite !area8. unfold words_at_mem. cbn [nrange map app words]. unfold word_at_mem.
  rewrite <- !N.add_assoc. rewrite N.add_0_r. reflexivity.
Qed.

Definition scale_code (mem : memory) : N := mem (cmis_up 1) 160 / 8 mod 4.
Lemma scale_bits b : N.land (N.shiftr b 3) 3 = b / 8 mod 4.
Proof. rewrite land3, N.shiftr_div_pow2. reflexivity. Qed.
Lemma cmis_monitors_correct id mem : is_sff id = false -> is_cmis id = true ->
  decoded monitor_reads monitor_parse id mem =
  match bias_scale (mem (cmis_up 1) 160) with
  | Some scale => Ok (cmis_monitors_of mem scale (any_aux mem))
  | None => Panic
  end.
Proof.
  intros H1 H2. unfold decoded. rewrite monitor_reads_cmis by assumption. unfold monitor_parse. rewrite H1, H2.
  cbn [map].
  change (contents mem (mkRead (cmis_up 1) 159 2)) with [mem (cmis_up 1) 159; mem (cmis_up 1) 160].
  change (contents mem (mkRead (cmis_up 1) 145 7)) with
    [mem (cmis_up 1) 145; mem (cmis_up 1) 146; mem (cmis_up 1) 147; mem (cmis_up 1) 148; mem (cmis_up 1) 149;
     mem (cmis_up 1) 150; mem (cmis_up 1) 151].
  change (contents mem (mkRead cmis_low 14 4)) with [mem cmis_low 14; mem cmis_low 15; mem cmis_low 16; mem cmis_low 17].
  change (contents mem (mkRead cmis_low 18 8)) with
    [mem cmis_low 18; mem cmis_low 19; mem cmis_low 20; mem cmis_low 21; mem cmis_low 22; mem cmis_low 23;
     mem cmis_low 24; mem cmis_low 25].
  unfold cmis_monitors. cbn [nth_read nth_byte nth_error obind]. lbits. rewrite scale_bits.
  replace (N.land (mem (cmis_up 1) 159) 31) with (mem (cmis_up 1) 159 mod 32)
    by (change 31 with (N.ones 5); now rewrite N.land_ones).
  fold (any_aux mem). unfold cmis_monitors_of, bias_scale.
  change (word_at_mem mem cmis_low 14) with (mem cmis_low 14, mem cmis_low 15).
  change (word_at_mem mem cmis_low 16) with (mem cmis_low 16, mem cmis_low 17).
  change (word_at_mem mem cmis_low 18) with (mem cmis_low 18, mem cmis_low 19).
  change (word_at_mem mem cmis_low 20) with (mem cmis_low 20, mem cmis_low 21).
  change (word_at_mem mem cmis_low 22) with (mem cmis_low 22, mem cmis_low 23).
  change (word_at_mem mem cmis_low 24) with (mem cmis_low 24, mem cmis_low 25).
  rewrite !words8. change (154 + 8) with 162. change (170 + 8) with 178. change (186 + 8) with 194.
  generalize (words (contents mem (mkRead p11 154 8) ++ contents mem (mkRead p11 162 8))) as tp.
  generalize (words (contents mem (mkRead p11 170 8) ++ contents mem (mkRead p11 178 8))) as tb.
  generalize (words (contents mem (mkRead p11 186 8) ++ contents mem (mkRead p11 194 8))) as rp.
  intros rp tb tp.
  unfold rx_power, decode_aux1, decode_aux2, decode_aux3.
  destruct (N.testbit (mem (cmis_up 1) 151) 4);
  destruct (N.testbit (mem (cmis_up 1) 159) 0), (N.testbit (mem (cmis_up 1) 159) 1), (N.testbit (mem (cmis_up 1) 159) 2),
   (N.testbit (mem (cmis_up 1) 159) 3), (N.testbit (mem (cmis_up 1) 159) 4), (N.testbit (mem (cmis_up 1) 159) 5);
   cbn [when omap obind word_at nth_error];
   destruct (mem (cmis_up 1) 160 / 8 mod 4) as [|[q|q|]]; try destruct q; reflexivity.
Qed.
