(** Proofs for C99, part 5: calls for several modules and calls for one. *)
From Verif Require Export ApartProofs4.
From Verif Require Import Tac Spec ModuleIdProofs ModuleIdProps ResultsProofs ControllerProofs ControllerProofs3 ControllerProofs4 ControllerProofs5
  ControllerProofs6 LiveProofs LiveProofs2 LiveProofs3 ControllerSim ControllerProofs9 Queries.
Import ListNotations.
Open Scope N_scope.

Lemma rrep_same {P} m1 m2 f1 f2 (r1 r2 : Result P) i : rrep m1 f1 r1 -> rrep m2 f2 r2 -> N.testbit m1 i = true -> N.testbit m2 i = true ->
  f1 i = f2 i -> same_report r1 r2 i.
Proof.
  intros [_ R1] [_ R2] B1 B2 E. destruct (R1 i) as [G1 E1], (R2 i) as [G2 E2]. rewrite B1 in G1, E1. rewrite B2 in G2, E2. rewrite <- E in G2, E2. split.
  - intros x. rewrite !succeeds_get. now rewrite G1, G2.
  - intros e. rewrite !fails_get. now rewrite E1, E2.
Qed.
Lemma lrep_same {P} m1 m2 f1 f2 (r1 r2 : Result P) i : lrep m1 f1 r1 -> lrep m2 f2 r2 -> N.testbit m1 i = true -> N.testbit m2 i = true ->
  f1 i = f2 i -> same_data r1 r2 i.
Proof.
  intros (g1 & R1 & A1) (g2 & R2 & A2) B1 B2 E. specialize (A1 i). specialize (A2 i).
  assert (K : forall x, g1 i = inl x <-> g2 i = inl x) by (intros x; rewrite A1, A2, E by assumption; reflexivity). split.
  - intros x. rewrite !succeeds_get. destruct R1 as [_ R1], R2 as [_ R2]. destruct (R1 i) as [G1 _], (R2 i) as [G2 _]. rewrite B1 in G1. rewrite B2 in G2.
    rewrite G1, G2. specialize (K x). clear - K. destruct (g1 i) as [y|], (g2 i) as [z|]; (split; intros Q; [pose proof (fun H => proj1 K H)|pose proof (fun H => proj2 K H)]); try discriminate; injection Q as ->; f_equal; firstorder congruence.
  - unfold failed. rewrite !member_testbit, (rrep_failed _ _ _ i R1), (rrep_failed _ _ _ i R2), B1, B2. cbn [andb].
    destruct (g1 i) as [x|], (g2 i) as [y|]; try reflexivity; [pose proof (proj1 (K x) eq_refl)|pose proof (proj2 (K y) eq_refl)]; discriminate.
Qed.

Section Alike.
  Context {X P : Type} (rep : N -> (N -> P + TransceiverError) -> Result P -> Prop) (same : Result P -> Result P -> N -> Prop).
  Context (Hsame : forall m1 m2 f1 f2 (r1 r2 : Result P) i, rep m1 f1 r1 -> rep m2 f2 r2 -> N.testbit m1 i = true -> N.testbit m2 i = true ->
    f1 i = f2 i -> same r1 r2 i).
  Context (c : N -> ctl (St := N -> X) (Result P)) (fine : N -> X -> Prop) (F : N -> X -> P + TransceiverError) (G : N -> X -> X).
  Context (Hc : forall m, mask_ok m = true -> fate rep m (c m) fine F G).

  Lemma one_ok i : i < 64 -> mask_ok (2 ^ i) = true.
  Proof. intros H. apply mask_ok_lt. apply N.pow_lt_mono_r; lia. Qed.
  Lemma ok_fine m w w' r : mask_ok m = true -> c m w = (w', Ok r) ->
    (forall i, N.testbit m i = true -> fine i (w_sp w i)) /\ rep m (fun i => F i (w_sp w i)) r /\ moved m G w w'.
  Proof.
    intros Hm E. destruct (Hc m Hm w) as [(w1 & r1 & E1 & H)|(K & _)]; [|destruct (K _ _ E)].
    rewrite E in E1. injection E1 as <- <-. exact H.
  Qed.
  Lemma fine_ok m w : mask_ok m = true -> m <> 0 -> (forall i, N.testbit m i = true -> fine i (w_sp w i)) -> exists w' r, c m w = (w', Ok r).
  Proof.
    intros Hm Hz Hf. destruct (Hc m Hm w) as [(w1 & r1 & E1 & _)|(_ & K)]; [eauto|]. destruct (K Hz) as (i & Bi & Nf). destruct (Nf (Hf i Bi)).
  Qed.
  Lemma fine_one i w : i < 64 -> fine i (w_sp w i) -> exists w' r, c (2 ^ i) w = (w', Ok r).
  Proof.
    intros Hi Hf. apply fine_ok; [now apply one_ok|now apply N.pow_nonzero|]. intros j Bj. rewrite N.pow2_bits_eqb in Bj. apply N.eqb_eq in Bj. now subst.
  Qed.
  Lemma alike_fate : alike same c.
  Proof.
    split; [|split].
    - intros m w w' r Hm E i w0 Hi Es. rewrite <- mask_ok_lt in Hm. rewrite member_testbit in Hi.
      assert (H64 : i < 64) by (now apply (proj1 (mask_ok_testbit m) Hm)).
      destruct (ok_fine m w w' r Hm E) as (Hf & R & M).
      destruct (fine_one i w0 H64) as (w1 & r1 & E1); [rewrite Es; auto|]. exists w1, r1. split; [exact E1|].
      destruct (ok_fine _ _ _ _ (one_ok i H64) E1) as (_ & R1 & M1).
      assert (Bi : N.testbit (2 ^ i) i = true) by apply N.pow2_bits_true. split.
      + rewrite M1, M, Bi, Hi. now rewrite Es.
      + apply (Hsame _ _ _ _ _ _ i R R1 Hi Bi). now rewrite Es.
    - intros m1 m2 w w' r H1 H2 Dj E Z1 Z2. rewrite <- mask_ok_lt in H1, H2.
      assert (Hm : mask_ok (N.lor m1 m2) = true) by (rewrite mask_ok_lor, H1; exact H2).
      destruct (ok_fine _ w w' r Hm E) as (Hf & R & M).
      assert (Dj' : forall i, N.testbit m2 i = true -> N.testbit m1 i = false).
      { intros i B2. destruct (N.testbit m1 i) eqn:B1; [|reflexivity]. destruct (Dj i); now apply member_testbit. }
      destruct (fine_ok m1 w H1 Z1) as (w1 & r1 & E1). { intros i Bi. apply Hf. now rewrite N.lor_spec, Bi. }
      destruct (ok_fine _ _ _ _ H1 E1) as (_ & R1 & M1).
      destruct (fine_ok m2 w1 H2 Z2) as (w2 & r2 & E2). { intros i Bi. rewrite M1, (Dj' i Bi). apply Hf. now rewrite N.lor_spec, Bi, orb_true_r. }
      destruct (ok_fine _ _ _ _ H2 E2) as (_ & R2 & M2).
      exists w1, r1, w2, r2. split; [exact E1|]. split; [exact E2|]. split; [|split].
      + intros i. rewrite M2, M1, M, N.lor_spec. specialize (Dj' i). destruct (N.testbit m1 i), (N.testbit m2 i); cbn [orb]; try reflexivity.
        specialize (Dj' eq_refl). discriminate.
      + intros i Hi. rewrite member_testbit in Hi. apply (Hsame _ _ _ _ _ _ i R R1); [now rewrite N.lor_spec, Hi|exact Hi|reflexivity].
      + intros i Hi. rewrite member_testbit in Hi. apply (Hsame _ _ _ _ _ _ i R R2); [now rewrite N.lor_spec, Hi, orb_true_r|exact Hi|].
        cbv beta. now rewrite M1, (Dj' i Hi).
    - intros m w Hm Hz. rewrite <- mask_ok_lt in Hm. split.
      + intros (w' & r & E) i Hi. rewrite member_testbit in Hi. destruct (ok_fine _ _ _ _ Hm E) as (Hf & _).
        apply fine_one; [now apply (proj1 (mask_ok_testbit m) Hm)|auto].
      + intros H. apply (fine_ok m w Hm Hz). intros i Bi. destruct (H i) as (w1 & r1 & E1); [now apply member_testbit|].
        assert (H64 : i < 64) by (now apply (proj1 (mask_ok_testbit m) Hm)).
        destruct (ok_fine _ _ _ _ (one_ok i H64) E1) as (Hf & _). apply Hf. apply N.pow2_bits_true.
  Qed.
End Alike.

Section Calls.
  Context {X : Type} (b : bay X) (Hb : bay_ok b).
  Local Notation sp := (honest_sp (apart b)).
  Lemma alike_pt {P} (c : N -> ctl (St := N -> X) (Result P)) F G : (forall m, mask_ok m = true -> pt m (c m) F G) -> alike same_report c.
  Proof. intros H. apply (alike_fate rrep same_report (fun m1 m2 f1 f2 r1 r2 i => rrep_same m1 m2 f1 f2 r1 r2 i) c (fun _ _ => True) F G). intros m Hm. now apply pt_fate, H. Qed.
  Lemma alike_strict {P} (c : N -> ctl (St := N -> X) (Result P)) fine F G : (forall m, mask_ok m = true -> fate rrep m (c m) fine F G) -> alike same_report c.
  Proof. exact (alike_fate rrep same_report (fun m1 m2 f1 f2 r1 r2 i => rrep_same m1 m2 f1 f2 r1 r2 i) c fine F G). Qed.
  Lemma alike_loose {P} (c : N -> ctl (St := N -> X) (Result P)) fine F G : (forall m, mask_ok m = true -> fate lrep m (c m) fine F G) -> alike same_data c.
  Proof. exact (alike_fate lrep same_data (fun m1 m2 f1 f2 r1 r2 i => lrep_same m1 m2 f1 f2 r1 r2 i) c fine F G). Qed.
  Local Ltac acked q := eapply (alike_pt _ (ApartProofs.says b (fun _ => tt) (q 0) None) (ApartProofs.goes b (q 0) None)); intros m Hm;
    exact (pt_assert b Hb m (q m) eq_refl (fun _ _ => eq_refl) eq_refl Hm).

  Lemma simple_alike :
    alike same_report (assert_reset sp) /\ alike same_report (deassert_reset sp) /\ alike same_report (assert_lpmode sp) /\
    alike same_report (deassert_lpmode sp) /\ alike same_report (enable_power sp) /\ alike same_report (disable_power sp) /\
    alike same_report (clear_power_fault sp) /\ alike same_report (clear_disable_latch sp) /\
    (forall l, alike same_report (fun m => set_leds sp m l)) /\
    alike same_report (ctl_status sp) /\ alike same_report (extended_status sp) /\ alike same_report (leds sp) /\
    alike same_report (reset sp) /\ alike same_report (fun m => set_power sp m PowerOff) /\ alike same_report (identifier sp).
  Proof.
    split; [acked HAssertReset|]. split; [acked HDeassertReset|]. split; [acked HAssertLpMode|]. split; [acked HDeassertLpMode|].
    split; [acked HEnablePower|]. split; [acked HDisablePower|]. split; [acked HClearPowerFault|]. split; [acked HClearDisableLatch|].
    split. { intros l. acked (fun m => HSetLedState m l). }
    split. { exact (alike_pt _ (ApartProofs.says b (hd 0) (HStatus 0) None) (ApartProofs.goes b (HStatus 0) None) (fun m => pt_status b Hb m)). }
    split. { exact (alike_pt _ (ApartProofs.says b le_value (HExtendedStatus 0) None) (ApartProofs.goes b (HExtendedStatus 0) None) (fun m => pt_extended b Hb m)). }
    split. { exact (alike_pt _ (ApartProofs.says b led_of (HLedState 0) None) (ApartProofs.goes b (HLedState 0) None) (fun m => pt_leds b Hb m)). }
    split. { exact (alike_pt _ _ _ (fun m => pt_reset b Hb m)). }
    split. { exact (alike_pt _ _ _ (fun m => pt_off b Hb m)). }
    exact (alike_pt _ _ _ (fun m => pt_identifier b Hb m)).
  Qed.
  Lemma memory_alike :
    (forall rd, rd_len rd <= 255 -> alike same_report (fun m => ctl_read sp m rd)) /\
    (forall wr data, alike same_report (fun m => ctl_write sp m wr data)).
  Proof.
    split.
    - intros rd Hl. exact (alike_strict _ _ _ _ (fun m Hm => fate_read b Hb m rd Hm Hl)).
    - intros wr data. exact (alike_strict _ _ _ _ (fun m Hm => fate_write b Hb m wr data Hm)).
  Qed.
  Lemma queries_alike :
    alike same_data (power_control sp) /\ alike same_data (vendor_info sp) /\ alike same_data (memory_model sp) /\
    alike same_data (monitors sp) /\ alike same_data (datapath sp) /\ alike same_data (power sp).
  Proof.
    assert (Q : forall P reads (parse : Identifier -> list (list N) -> outcome DecodeError P), (forall id rds, reads id = Ok rds -> ApartProofs3.sized rds) ->
      alike same_data (parse_modules_by_identifier sp reads parse)).
    { intros P reads parse Hr. exact (alike_loose _ _ _ _ (fun m Hm => fate_query b Hb reads parse Hr m Hm)). }
    split; [|split; [|split; [|split; [|split]]]].
    1: apply Q; exact power_lengths.
    1-4: apply Q; intros id rds E; eapply decoders_len; [|exact E]; unfold decoders; cbn; auto 10.
    exact (alike_loose _ _ _ _ (fun m Hm => fate_power b Hb m Hm)).
  Qed.
End Calls.
