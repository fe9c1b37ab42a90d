(** Proofs about decoder reads, text fields, vendor data and memory models (C41-C43, C46). *)
From Verif Require Import Tac SpecDecode.
From Coq Require Import Lia.

Ltac Zify.zify_post_hook ::= Z.to_euclidean_division_equations.

Lemma land_bit b k : negb (N.land b (2 ^ k) =? 0) = N.testbit b k.
Proof.
  destruct (N.testbit b k) eqn:E.
  - apply negb_true_iff, N.eqb_neq. intros H.
    assert (H1 : N.testbit (N.land b (2 ^ k)) k = true) by (now rewrite N.land_spec, E, N.pow2_bits_true).
    rewrite H in H1. now rewrite N.bits_0 in H1.
  - apply negb_false_iff, N.eqb_eq. apply N.bits_inj. intros i. rewrite N.land_spec, N.bits_0.
    destruct (N.eq_dec k i) as [->|n]; [now rewrite E|]. rewrite N.pow2_bits_false by assumption. apply andb_false_r.
Qed.
Lemma land_bit0 b k : (N.land b (2 ^ k) =? 0) = negb (N.testbit b k).
Proof. rewrite <- land_bit. now rewrite negb_involutive. Qed.
Lemma bit_testbit b k : bit b k = N.testbit b k.
Proof. exact (land_bit b k). Qed.

(** ** Identifiers *)
Lemma kinds id : supported_kind id = true ->
  (is_sff id = true /\ sff_kind id = true) \/
  (is_sff id = false /\ sff_kind id = false /\ is_cmis id = true /\ cmis_kind id = true).
Proof.
  unfold supported_kind, sff_kind, cmis_kind, is_sff, is_cmis.
  destruct (benum_eqb id QsfpPlusSff8636 || benum_eqb id Qsfp28); [now left|].
  right. now repeat split.
Qed.
Lemma unsupported id : supported_kind id = false -> is_sff id = false /\ is_cmis id = false.
Proof.
  unfold supported_kind, sff_kind, cmis_kind, is_sff, is_cmis. intros H. now apply orb_false_elim in H.
Qed.

(** ** Reads *)
Definition read_check (iface_sff : bool) (rd : MemoryRead) : bool :=
  match rd_page rd with PageSff _ => iface_sff | PageCmis _ => negb iface_sff end
  && (1 <=? rd_len rd) && (rd_len rd <=? read_limit (rd_page rd))
  && (if is_lower (rd_page rd) then rd_offset rd + rd_len rd <=? 128
      else (128 <=? rd_offset rd) && (rd_offset rd + rd_len rd <=? 256))
  && match rd_page rd with
     | PageSff SffLower | PageCmis CmisLower => true
     | PageSff (SffUpper n) => n <=? 0x21
     | PageCmis (CmisUpper u) =>
         match cu_bank u with
         | None => cu_page u <=? 4
         | Some b => (0x10 <=? cu_page u) && (cu_page u <=? 0x3f) && (b <=? 3)
         end
     end.
Lemma read_check_ok sff rd : read_check sff rd = true ->
  access_ok (read_limit (rd_page rd)) (rd_page rd) (rd_offset rd) (rd_len rd) /\
  page_defined (rd_page rd) /\
  iface (rd_page rd) = if sff then Sff8636 else Cmis.
Proof.
  destruct rd as [p o l]. unfold read_check. cbn [rd_page rd_offset rd_len].
  rewrite !andb_true_iff. intros ((((H1 & H2) & H3) & H4) & H5).
  repeat split; try lia.
  - intros Hl. unfold lower_half in *. destruct p as [[|n]|[|u]]; cbn [is_lower] in H4; try lia;
    exfalso; destruct Hl; discriminate.
  - unfold lower_half in *. destruct p as [[|n]|[|u]]; cbn [is_lower] in H4; try lia; exfalso; auto.
  - unfold lower_half in *. destruct p as [[|n]|[|u]]; cbn [is_lower] in H4; try lia; exfalso; auto.
  - destruct p as [[|n]|[|u]]; cbn [page_defined]; try exact I.
    + left. lia.
    + unfold cmis_defined, SpecMessages.cmis_banked. destruct (cu_bank u); lia.
  - destruct p, sff; try reflexivity; discriminate.
Qed.

Definition reads_check (sff : bool) (reads : outcome DecodeError (list MemoryRead)) : bool :=
  match reads with Ok rds => forallb (read_check sff) rds && negb (Nat.eqb (length rds) 0) | _ => false end.
Lemma decoders_check : forallb (fun reads => reads_check true (reads QsfpPlusSff8636) && reads_check true (reads Qsfp28)
  && reads_check false (reads QsfpPlusCmis) && reads_check false (reads QsfpDD)) decoders = true.
Proof. vm_compute. reflexivity. Qed.

Lemma benum_eqb_true a b : benum_eqb a b = true -> a = b.
Proof.
  destruct a as [c|i x], b as [d|j y]; cbn; try discriminate.
  - intros H. f_equal. lia.
  - intros H. apply andb_prop in H. destruct H as [H1 H2]. apply PeanoNat.Nat.eqb_eq in H1. f_equal; [assumption|lia].
Qed.
Lemma supported_cases id : supported_kind id = true ->
  id = QsfpPlusSff8636 \/ id = Qsfp28 \/ id = QsfpPlusCmis \/ id = QsfpDD.
Proof.
  unfold supported_kind, sff_kind, cmis_kind. rewrite !orb_true_iff.
  intros [[H|H]|[H|H]]; apply benum_eqb_true in H; auto.
Qed.

Lemma reads_supported reads id : In reads decoders -> supported_kind id = true ->
  exists rds, reads id = Ok rds /\ rds <> [] /\
    Forall (fun rd => access_ok (read_limit (rd_page rd)) (rd_page rd) (rd_offset rd) (rd_len rd) /\
                      page_defined (rd_page rd) /\ speaks id (rd_page rd)) rds.
Proof.
  intros Hr Hid. pose proof decoders_check as H. rewrite forallb_forall in H. specialize (H reads Hr).
  apply andb_prop in H. destruct H as [H H4]. apply andb_prop in H. destruct H as [H H3].
  apply andb_prop in H. destruct H as [H1 H2].
  assert (G : forall sff, reads_check sff (reads id) = true ->
     management_interface id = Ok (if sff then Sff8636 else Cmis) ->
     exists rds, reads id = Ok rds /\ rds <> [] /\
    Forall (fun rd => access_ok (read_limit (rd_page rd)) (rd_page rd) (rd_offset rd) (rd_len rd) /\
                      page_defined (rd_page rd) /\ speaks id (rd_page rd)) rds).
  { intros sff Hc Hm. unfold reads_check in Hc. destruct (reads id) as [rds| |]; try discriminate.
    apply andb_prop in Hc. destruct Hc as [Hc Hn]. exists rds. split; [reflexivity|]. split.
    - destruct rds; [discriminate|discriminate].
    - apply Forall_forall. intros rd Hin. rewrite forallb_forall in Hc. specialize (Hc rd Hin).
      apply read_check_ok in Hc. destruct Hc as (Ha & Hp & Hi). repeat split; try apply Ha; try assumption.
      unfold speaks. rewrite Hm. f_equal. symmetry.
      destruct (rd_page rd), sff; try reflexivity; cbn in Hi; discriminate. }
  destruct (supported_cases id Hid) as [ -> | [ -> | [ -> | -> ]]].
  - apply (G true); [assumption|reflexivity].
  - apply (G true); [assumption|reflexivity].
  - apply (G false); [assumption|reflexivity].
  - apply (G false); [assumption|reflexivity].
Qed.
Lemma reads_unsupported reads id : In reads decoders -> supported_kind id = false ->
  reads id = Err (DeUnsupportedIdentifier id).
Proof.
  intros Hr Hid. destruct (unsupported id Hid) as [H1 H2].
  cbn [decoders In] in Hr. destruct Hr as [<-|[<-|[<-|[<-|[<-|[]]]]]];
  unfold vendor_reads, power_reads, memory_reads, monitor_reads, datapath_reads; now rewrite H1, H2.
Qed.

(** ** UTF-8 *)
Lemma step_char c r : scalar c -> utf8_step (utf8_char c ++ r) = Some (c, r).
Proof.
  intros H. unfold scalar in H. unfold utf8_char.
  destruct (N.ltb_spec c 0x80) as [H1|H1].
  { cbn [app utf8_step]. now replace (c <? 0x80) with true by lia. }
  destruct (N.ltb_spec c 0x800) as [H2|H2].
  { cbn [app utf8_step]. unfold is_cont.
    replace (0xC0 + c / 64 <? 0x80) with false by lia.
    replace ((0xC2 <=? 0xC0 + c / 64) && (0xC0 + c / 64 <=? 0xDF)) with true by lia.
    replace ((128 <=? 128 + c mod 64) && (128 + c mod 64 <=? 191)) with true by lia.
    f_equal. f_equal. lia. }
  destruct (N.ltb_spec c 0x10000) as [H3|H3].
  { cbn [app utf8_step]. unfold is_cont.
    replace (0xE0 + c / 4096 <? 0x80) with false by lia.
    replace ((0xC2 <=? 0xE0 + c / 4096) && (0xE0 + c / 4096 <=? 0xDF)) with false by lia.
    replace ((0xE0 <=? 0xE0 + c / 4096) && (0xE0 + c / 4096 <=? 0xEF)) with true by lia.
    replace ((128 <=? 128 + c mod 64) && (128 + c mod 64 <=? 191)) with true by lia.
    replace ((if 0xE0 + c / 4096 =? 0xE0 then 0xA0 else 0x80) <=? 0x80 + c / 64 mod 64) with true
      by (destruct (N.eqb_spec (0xE0 + c / 4096) 0xE0); lia).
    replace (0x80 + c / 64 mod 64 <=? (if 0xE0 + c / 4096 =? 0xED then 0x9F else 0xBF)) with true
      by (destruct (N.eqb_spec (0xE0 + c / 4096) 0xED); lia).
    cbn [andb]. f_equal. f_equal. lia. }
  { cbn [app utf8_step]. unfold is_cont.
    replace (0xF0 + c / 262144 <? 0x80) with false by lia.
    replace ((0xC2 <=? 0xF0 + c / 262144) && (0xF0 + c / 262144 <=? 0xDF)) with false by lia.
    replace ((0xE0 <=? 0xF0 + c / 262144) && (0xF0 + c / 262144 <=? 0xEF)) with false by lia.
    replace ((0xF0 <=? 0xF0 + c / 262144) && (0xF0 + c / 262144 <=? 0xF4)) with true by lia.
    replace ((128 <=? 128 + c mod 64) && (128 + c mod 64 <=? 191)) with true by lia.
    replace ((128 <=? 128 + c / 64 mod 64) && (128 + c / 64 mod 64 <=? 191)) with true by lia.
    replace ((if 0xF0 + c / 262144 =? 0xF0 then 0x90 else 0x80) <=? 0x80 + c / 4096 mod 64) with true
      by (destruct (N.eqb_spec (0xF0 + c / 262144) 0xF0); lia).
    replace (0x80 + c / 4096 mod 64 <=? (if 0xF0 + c / 262144 =? 0xF4 then 0x8F else 0xBF)) with true
      by (destruct (N.eqb_spec (0xF0 + c / 262144) 0xF4); lia).
    cbn [andb]. f_equal. f_equal. lia. }
Qed.
Lemma step_sound l c r : utf8_step l = Some (c, r) -> scalar c /\ l = utf8_char c ++ r.
Proof.
  unfold utf8_step, is_cont. destruct l as [|a l]; [discriminate|].
  destruct (N.ltb_spec a 0x80) as [H1|H1].
  { intros [= -> ->]. split; [unfold scalar; lia|]. unfold utf8_char. now replace (c <? 0x80) with true by lia. }
  destruct ((0xC2 <=? a) && (a <=? 0xDF)) eqn:H2.
  { destruct l as [|b l]; [discriminate|]. destruct ((128 <=? b) && (b <=? 191)) eqn:Hb; [|discriminate].
    intros [= <- <-]. split; [unfold scalar; lia|]. unfold utf8_char.
    replace ((a - 192) * 64 + (b - 128) <? 0x80) with false by lia.
    replace ((a - 192) * 64 + (b - 128) <? 0x800) with true by lia.
    cbn [app]. f_equal; [lia|]. f_equal. lia. }
  destruct ((0xE0 <=? a) && (a <=? 0xEF)) eqn:H3.
  { destruct l as [|b [|c' l]]; try discriminate.
    destruct (((if a =? 224 then 160 else 128) <=? b) && (b <=? (if a =? 237 then 159 else 191))
              && ((128 <=? c') && (c' <=? 191))) eqn:Hb; [|discriminate].
    intros [= <- <-].
    apply andb_prop in Hb. destruct Hb as [Hb Hc]. apply andb_prop in Hb. destruct Hb as [Hb1 Hb2].
    set (v := ((a - 224) * 64 + (b - 128)) * 64 + (c' - 128)).
    assert (Hv : (0x800 <= v < 0xD800 \/ 0xE000 <= v < 0x10000) /\ v / 4096 = a - 224 /\ v / 64 mod 64 = b - 128 /\ v mod 64 = c' - 128).
    { subst v. destruct (N.eqb_spec a 224), (N.eqb_spec a 237); lia. }
    destruct Hv as (Hv & E1 & E2 & E3).
    split; [unfold scalar; lia|]. unfold utf8_char.
    replace (v <? 0x80) with false by lia. replace (v <? 0x800) with false by lia.
    replace (v <? 0x10000) with true by lia. rewrite E1, E2, E3. cbn [app].
    f_equal; [lia|]. f_equal; [|f_equal; lia]. destruct (N.eqb_spec a 224); lia. }
  destruct ((0xF0 <=? a) && (a <=? 0xF4)) eqn:H4; [|discriminate].
  destruct l as [|b [|c' [|d l]]]; try discriminate.
  destruct (((if a =? 240 then 144 else 128) <=? b) && (b <=? (if a =? 244 then 143 else 191))
              && ((128 <=? c') && (c' <=? 191)) && ((128 <=? d) && (d <=? 191))) eqn:Hb; [|discriminate].
  intros [= <- <-].
  apply andb_prop in Hb. destruct Hb as [Hb Hd]. apply andb_prop in Hb. destruct Hb as [Hb Hc].
  apply andb_prop in Hb. destruct Hb as [Hb1 Hb2].
  set (v := (((a - 240) * 64 + (b - 128)) * 64 + (c' - 128)) * 64 + (d - 128)).
  assert (Hv : 0x10000 <= v < 0x110000 /\ v / 262144 = a - 240 /\ v / 4096 mod 64 = b - 128 /\ v / 64 mod 64 = c' - 128 /\ v mod 64 = d - 128).
  { subst v. destruct (N.eqb_spec a 240), (N.eqb_spec a 244); lia. }
  destruct Hv as (Hv & E1 & E2 & E3 & E4).
  split; [unfold scalar; lia|]. unfold utf8_char.
  replace (v <? 0x80) with false by lia. replace (v <? 0x800) with false by lia.
  replace (v <? 0x10000) with false by lia. rewrite E1, E2, E3, E4. cbn [app].
  f_equal; [lia|]. f_equal; [destruct (N.eqb_spec a 240); lia|]. f_equal; [lia|]. f_equal. lia.
Qed.
Lemma char_nonempty c : exists a r, utf8_char c = a :: r.
Proof. unfold utf8_char. destruct (c <? 128), (c <? 2048), (c <? 65536); eauto. Qed.

Lemma prefix_text fuel l : (length l <= fuel)%nat ->
  starts_with_text l (fst (utf8_prefix fuel l)) /\
  l = utf8 (fst (utf8_prefix fuel l)) ++ snd (utf8_prefix fuel l).
Proof.
  revert l. induction fuel as [|k IH]; intros l H.
  - destruct l; [|cbn in H; lia]. split; [|reflexivity]. exists []. repeat split; [constructor|].
    intros c r _ E. destruct (char_nonempty c) as (a & q & Hq). rewrite Hq in E. discriminate.
  - cbn [utf8_prefix]. destruct (utf8_step l) as [[c r]|] eqn:E.
    + apply step_sound in E. destruct E as [Hs ->].
      destruct (char_nonempty c) as (a & q & Hq).
      assert (Hl : (length r <= k)%nat) by (rewrite app_length, Hq in H; cbn in H; lia).
      destruct (IH r Hl) as [(rest & E1 & Hf & Hn) E2].
      destruct (utf8_prefix k r) as [t rest']. cbn [fst snd] in *. split.
      * exists rest. repeat split; [|now constructor|assumption]. unfold utf8. cbn [flat_map]. rewrite <- app_assoc.
        f_equal. exact E1.
      * unfold utf8. cbn [flat_map]. rewrite <- app_assoc. f_equal. exact E2.
    + cbn [fst snd]. split; [|reflexivity]. exists l. repeat split; [constructor|].
      intros c r Hs ->. rewrite step_char in E by assumption. discriminate.
Qed.
Lemma starts_unique b t u : starts_with_text b t -> starts_with_text b u -> t = u.
Proof.
  intros (r1 & E1 & F1 & N1) (r2 & E2 & F2 & N2). rewrite E1 in E2. clear E1 b.
  revert u r1 r2 E2 F1 F2 N1 N2. unfold utf8.
  induction t as [|c t IH]; intros u r1 r2 E2 F1 F2 N1 N2.
  - destruct u as [|d u]; [reflexivity|]. exfalso. inversion F2 as [|? ? Hd Hu]; subst.
    cbn [flat_map app] in E2. rewrite <- app_assoc in E2. exact (N1 _ _ Hd E2).
  - inversion F1 as [|? ? Hc Ht]; subst. destruct u as [|d u].
    + exfalso. cbn [flat_map app] in E2. rewrite <- app_assoc in E2. symmetry in E2. exact (N2 _ _ Hc E2).
    + inversion F2 as [|? ? Hd Hu]; subst. cbn [flat_map] in E2. rewrite <- !app_assoc in E2.
      assert (S1 := step_char c (flat_map utf8_char t ++ r1) Hc).
      rewrite E2 in S1. rewrite step_char in S1 by assumption. injection S1 as -> Er.
      f_equal. eapply IH; eauto.
Qed.

Lemma trim_start_spec s : exists b, s = b ++ trim_start s /\ Forall (fun c => is_whitespace c = true) b /\
  forall c v, trim_start s = c :: v -> is_whitespace c = false.
Proof.
  induction s as [|x s IH].
  - exists []. repeat split; [constructor|discriminate].
  - cbn [trim_start]. destruct (is_whitespace x) eqn:E.
    + destruct IH as (b & E1 & F & N1). exists (x :: b). repeat split; [cbn; now rewrite <- E1|now constructor|exact N1].
    + exists []. repeat split; [constructor|]. intros c v [= <- _]. exact E.
Qed.
Lemma trim_end_spec s : trimmed s (trim_end s).
Proof.
  unfold trim_end. destruct (trim_start_spec (rev s)) as (b & E & F & N1).
  exists (rev b). repeat split.
  - rewrite <- rev_app_distr, <- E. now rewrite rev_involutive.
  - now apply Forall_rev.
  - intros v c Hv. apply (f_equal (@rev N)) in Hv. rewrite rev_involutive, rev_app_distr in Hv. cbn in Hv.
    eapply N1. exact Hv.
Qed.
Lemma trimmed_unique t u v : trimmed t u -> trimmed t v -> u = v.
Proof.
  intros (b & -> & F & N1) (b' & E & F' & N2). revert b' E F'.
  induction b as [|x b IH] using rev_ind; intros b' E F'.
  - rewrite app_nil_r in E. destruct b' as [|y b'] using rev_ind; [now rewrite app_nil_r in E|].
    rewrite app_assoc in E. apply Forall_app in F'. destruct F' as [_ F']. inversion F'; subst.
    rewrite (N1 _ _ eq_refl) in *. discriminate.
  - apply Forall_app in F. destruct F as [F Fx]. inversion Fx; subst.
    destruct b' as [|y b'] using rev_ind.
    + rewrite app_nil_r, app_assoc in E. rewrite (N2 (u ++ b) x) in *; [discriminate|now symmetry].
    + rewrite !app_assoc in E. apply app_inj_tail in E. destruct E as [E ->].
      apply Forall_app in F'. destruct F' as [F' _]. now apply (IH F b').
Qed.
Lemma ascii_to_string_stored b : stored_text b (ascii_to_string b).
Proof.
  exists (fst (utf8_valid_prefix b)). split; [|apply trim_end_spec].
  now apply prefix_text.
Qed.
Lemma stored_unique b u v : stored_text b u -> stored_text b v -> u = v.
Proof.
  intros (t & H1 & H2) (t' & H3 & H4). rewrite (starts_unique _ _ _ H3 H1) in H4.
  exact (trimmed_unique _ _ _ H2 H4).
Qed.

Lemma from_utf8_spec b t : from_utf8 b = Some t <-> Forall scalar t /\ b = utf8 t.
Proof.
  unfold from_utf8. destruct (prefix_text (length b) b (le_n _)) as [(rest & E1 & F & N1) E2].
  fold (utf8_valid_prefix b) in *. destruct (utf8_valid_prefix b) as [u r]. cbn [fst snd] in *.
  assert (r = rest) by (rewrite E1 in E2; now apply app_inv_head in E2). subst rest. split.
  - destruct r; [|discriminate]. intros [= <-]. split; [assumption|]. now rewrite E1, app_nil_r.
  - intros [Ft Et]. assert (u = t).
    { eapply (starts_unique b); [now exists r|]. exists []. repeat split; [now rewrite app_nil_r|assumption|].
      intros c q _ E. destruct (char_nonempty c) as (a & q' & Hq). rewrite Hq in E. discriminate. }
    subst u. destruct r; [reflexivity|]. exfalso. rewrite E1 in Et. rewrite <- (app_nil_r (utf8 t)) in Et at 2.
    apply app_inv_head in Et. discriminate.
Qed.

(** A field of ASCII characters. *)
Lemma utf8_ascii t : Forall (fun c => c < 128) t -> utf8 t = t.
Proof.
  induction 1 as [|c t H _ IH]; [reflexivity|]. unfold utf8 in *. cbn [flat_map]. rewrite IH. unfold utf8_char. cbv beta in H.
  apply N.ltb_lt in H. now rewrite H.
Qed.
Lemma stored_ascii b u : Forall (fun c => c < 128) b -> stored_text b u -> trimmed b u.
Proof.
  intros Hb (t & Hs & Ht).
  assert (starts_with_text b b).
  { exists []. repeat split.
    - now rewrite utf8_ascii, app_nil_r.
    - eapply Forall_impl; [|exact Hb]. intros c Hc. cbv beta in Hc. left. lia.
    - intros c q _ E. destruct (char_nonempty c) as (a & q' & Hq). rewrite Hq in E. discriminate. }
  rewrite (starts_unique _ _ _ H Hs). exact Ht.
Qed.
