(** Proofs about the printed monitors (C66): numbers. *)
From Coq Require Import ZArith QArith Lqa SpecFloat String Lia.
From Verif Require Import Tac SpecMonitor FloatProofs DecodeProofs4 TableProofs TableProofs2.
Import ListNotations.
Open Scope N_scope.

(** ** Rounding to four places *)
Lemma round_even_ok n d : 0 < d -> 2 * n <= 2 * (round_even n d * d) + d /\ 2 * (round_even n d * d) <= 2 * n + d.
Proof.
  intros Hd. unfold round_even. pose proof (N.div_mod n d ltac:(lia)) as E. pose proof (N.mod_lt n d ltac:(lia)) as L.
  set (q := n / d) in *. set (r := n mod d) in *. clearbody q r.
  destruct (N.compare_spec (2 * r) d); [destruct (N.even q)| |]; nia.
Qed.
Lemma fixed_round x v : f32_value x = Some v -> (0 < v)%Q -> exists q, fixed4 x = dec4 q /\
  (20000 * v - 1 <= 2 * inject_Z (Z.of_N q))%Q /\ (2 * inject_Z (Z.of_N q) <= 20000 * v + 1)%Q.
Proof.
  destruct x as [s|s| |s m e]; cbn [f32_value]; [intros [= <-] H; now apply Qlt_irrefl in H|discriminate|discriminate|].
  intros [= E] H. destruct s.
  { exfalso. subst v. destruct (Z.leb 0 e) eqn:L.
    - apply Z.leb_le in L. pose proof (Z.pow_pos_nonneg 2 e ltac:(lia) L).
      unfold Qlt, inject_Z in H. cbn [Qnum Qden] in H. nia.
    - unfold Qlt in H. cbn [Qnum Qden] in H. lia. }
  cbn [fixed4 sign_text app]. eexists. split; [reflexivity|]. subst v. destruct (Z.leb 0 e) eqn:L.
  - apply Z.leb_le in L. rewrite N2Z.inj_mul, N2Z.inj_mul, N2Z.inj_pow, Z2N.id by exact L.
    unfold Qle, Qminus, Qplus, Qmult, Qopp, inject_Z. cbn [Qnum Qden]. rewrite !Z.mul_1_r. cbn [Z.of_N]. lia.
  - apply Z.leb_gt in L. set (D := 2 ^ Z.to_N (- e)). assert (HD : 0 < D) by (apply N.neq_0_lt_0, N.pow_nonzero; lia).
    assert (ED : (2 ^ (- e))%Z = Z.of_N D) by (unfold D; rewrite N2Z.inj_pow, Z2N.id by lia; reflexivity).
    rewrite ED. destruct D as [|d]; [lia|]. cbn [Z.of_N Z.to_pos].
    destruct (round_even_ok (N.pos m * 10000) (N.pos d) HD) as [A B]. set (q := round_even _ _) in *. clearbody q.
    unfold Qle, Qminus, Qplus, Qmult, Qopp, inject_Z. cbn [Qnum Qden].
    rewrite ?Pos.mul_1_l, ?Pos.mul_1_r, ?Z.mul_1_r, ?Pos2Z.inj_mul. nia.
Qed.
(** A bound linear in the counter gives the number printed. *)
Lemma fixed_linear x (n c e : N) l u : 0 < n -> n < 65536 -> e <= 1 ->
  between x (inject_Z (Z.of_N n) * l) (inject_Z (Z.of_N n) * u) -> (0 < l)%Q ->
  (inject_Z (Z.of_N c) - (1 + 2 * inject_Z (Z.of_N e)) / 131072 <= 10000 * l)%Q ->
  (10000 * u <= inject_Z (Z.of_N c) + (1 + 2 * inject_Z (Z.of_N e)) / 131072)%Q ->
  exists q, fixed4 x = dec4 q /\ q <= c * n + e /\ c * n <= q + e.
Proof.
  intros H0 Hn He (v & Ev & L & U) Pl Hl Hu. assert (Hv : (0 < v)%Q).
  { eapply Qlt_le_trans; [|exact L]. apply Qmult_lt_0_compat; [|exact Pl]. unfold Qlt, inject_Z. cbn. lia. }
  destruct (fixed_round x v Ev Hv) as (q & Eq & A & B). exists q. split; [exact Eq|].
  set (nq := inject_Z (Z.of_N n)) in *.
  assert (N1 : (0 <= nq)%Q) by (unfold nq, Qle, inject_Z; cbn; lia).
  assert (N2 : (nq <= 65535)%Q) by (unfold nq, Qle, inject_Z; cbn; lia).
  set (ce := ((1 + 2 * inject_Z (Z.of_N e)) / 131072)%Q) in *.
  assert (C1 : (nq * (inject_Z (Z.of_N c) - ce) <= nq * (10000 * l))%Q) by (rewrite !(Qmult_comm nq); now apply Qmult_le_compat_r).
  assert (C2 : (nq * (10000 * u) <= nq * (inject_Z (Z.of_N c) + ce))%Q) by (rewrite !(Qmult_comm nq); now apply Qmult_le_compat_r).
  assert (Pe : (0 <= ce)%Q).
  { unfold ce. apply Qle_shift_div_l; [reflexivity|]. rewrite Qmult_0_l. assert (0 <= inject_Z (Z.of_N e))%Q by (unfold Qle, inject_Z; cbn; lia). lra. }
  assert (C3 : (nq * ce <= 65535 * ce)%Q) by now apply Qmult_le_compat_r.
  assert (C4 : (2 * (65535 * ce) + 1 < 2 + 2 * inject_Z (Z.of_N e))%Q).
  { unfold ce. assert (e = 0 \/ e = 1) as [-> | ->] by lia; reflexivity. }
  assert (Ec : (nq * inject_Z (Z.of_N c) == inject_Z (Z.of_N (c * n)))%Q).
  { unfold nq. rewrite <- inject_Z_mult. now rewrite N2Z.inj_mul, Z.mul_comm. }
  assert (K1 : (2 * inject_Z (Z.of_N q) < 2 * inject_Z (Z.of_N (c * n)) + 2 + 2 * inject_Z (Z.of_N e))%Q).
  { rewrite <- Ec. eapply Qle_lt_trans; [exact B|]. lra. }
  assert (K2 : (2 * inject_Z (Z.of_N (c * n)) < 2 * inject_Z (Z.of_N q) + 2 + 2 * inject_Z (Z.of_N e))%Q).
  { rewrite <- Ec. lra. }
  unfold Qlt, Qplus, Qmult, inject_Z in K1, K2. cbn [Qnum Qden] in K1, K2. rewrite ?Pos.mul_1_l, ?Z.mul_1_r in K1, K2. lia.
Qed.

(** ** The digits *)
Lemma pad_dec f : f < 10000 -> [48 + f / 1000; 48 + f / 100 mod 10; 48 + f / 10 mod 10; 48 + f mod 10] = pad 4 (number_shown f).
Proof.
  intros H. assert (hd : forall x, hex_digit (x mod 10) = 48 + x mod 10).
  { intros x. unfold hex_digit. pose proof (N.mod_lt x 10 ltac:(lia)). destruct (N.ltb_spec (x mod 10) 10); lia. }
  unfold number_shown. cbn [digits_of]. rewrite !hd.
  rewrite !N.div_div by lia. change (10 * 10) with 100. change (100 * 10) with 1000.
  assert (H3 : f / 1000 < 10) by (apply N.div_lt_upper_bound; lia).
  destruct (N.ltb_spec f 10) as [A|A].
  { cbn. rewrite !(N.div_small f) by lia. reflexivity. }
  destruct (N.ltb_spec (f / 10) 10) as [B|B].
  { assert (f < 100) by (pose proof (N.div_mod f 10); lia). cbn. rewrite (N.div_small f 1000), (N.div_small f 100) by lia. reflexivity. }
  destruct (N.ltb_spec (f / 100) 10) as [C|C].
  { assert (f < 1000) by (pose proof (N.div_mod f 100); lia). cbn. rewrite (N.div_small f 1000) by lia. reflexivity. }
  destruct (N.ltb_spec (f / 1000) 10) as [D|D]; [|lia]. cbn. now rewrite (N.mod_small (f / 1000)) by lia.
Qed.
Lemma dec4_shown n : n < 2 ^ 40 -> dec4 n = decimal4 n.
Proof.
  intros H. unfold dec4, decimal4. cbv zeta. rewrite pad_dec by (apply N.mod_lt; lia).
  assert (L : n / 10000 < 10 ^ 16). { apply N.div_lt_upper_bound; [lia|]. eapply N.lt_trans; [exact H|reflexivity]. }
  rewrite dec_digits, (digits_fuel 10 ltac:(lia) 40 16 (n / 10000)); [| |exact L|lia|lia]; [unfold number_shown; reflexivity|].
  eapply N.lt_trans; [exact L|reflexivity].
Qed.
Lemma plain_decimal n : plain (decimal4 n).
Proof.
  unfold decimal4, pad. apply plain_app; [apply plain_number|]. apply plain_app; [apply plainb_ok; reflexivity|].
  apply plain_app; [|apply plain_number]. apply Forall_forall. intros c Hc. apply repeat_spec in Hc. lia.
Qed.
Lemma plain_decimals l : plain (decimals l).
Proof. apply plain_join; [apply plainb_ok; reflexivity|]. apply Forall_map, Forall_forall. intros n _. apply plain_decimal. Qed.

(** ** The monitors *)
Ltac lin B := eapply fixed_linear in B; [|assumption|assumption| |reflexivity|vm_compute; discriminate|vm_compute; discriminate]; [|lia].
Lemma power_shown w : byte_word w -> fixed4 (decode_optical_power w) = decimal4 (raw w).
Proof.
  intros H. apply raw_lt in H. unfold decode_optical_power. rewrite u16_raw. set (n := raw w) in *. clearbody n.
  destruct (N.eq_dec n 0) as [->|Hn]; [vm_compute; reflexivity|]. assert (P : 0 < n) by lia.
  pose proof (power_lin n P H) as B. apply (fixed_linear _ n 1 0) in B; try assumption; try lia; try (vm_compute; congruence).
  destruct B as (q & -> & B1 & B2). assert (q = n) as -> by lia. apply dec4_shown. eapply N.lt_trans; [exact H|reflexivity].
Qed.
Lemma bias_counter w : byte_word w -> fixed4 (decode_bias_current w) = decimal4 (20 * raw w).
Proof.
  intros H. apply raw_lt in H. unfold decode_bias_current. rewrite u16_raw. set (n := raw w) in *. clearbody n.
  destruct (N.eq_dec n 0) as [->|Hn]; [vm_compute; reflexivity|]. assert (P : 0 < n) by lia.
  destruct (bias_lin n P H) as [_ B]. apply (fixed_linear _ n 20 0) in B; try assumption; try lia; try (vm_compute; congruence).
  destruct B as (q & -> & B1 & B2). assert (q = 20 * n) as -> by lia. apply dec4_shown.
  apply N.lt_trans with (20 * 65536); [lia|reflexivity].
Qed.
Lemma bias_scaled_counter w k : byte_word w -> k = 1 \/ k = 2 \/ k = 4 ->
  exists q, fixed4 (f32_mul (decode_bias_current w) (f32_of_Z (Z.of_N k))) = decimal4 q /\
    q <= 20 * k * raw w + bias_error k /\ 20 * k * raw w <= q + bias_error k.
Proof.
  intros H Hk. apply raw_lt in H. unfold decode_bias_current. rewrite u16_raw. set (n := raw w) in *. clearbody n.
  destruct (N.eq_dec n 0) as [->|Hn].
  { exists 0. destruct Hk as [ -> | [ -> | -> ]]; (split; [vm_compute; reflexivity|cbn; lia]). }
  assert (P : 0 < n) by lia. pose proof (bias_scaled_lin n k P H Hk) as B.
  apply (fixed_linear _ n (20 * k) (bias_error k)) in B; try assumption;
    try (destruct Hk as [ -> | [ -> | -> ]]; vm_compute; congruence).
  destruct B as (q & -> & B1 & B2). exists q. split; [|auto]. apply dec4_shown.
  apply N.lt_trans with (80 * 65536 + 2); [|reflexivity]. assert (bias_error k <= 1) by (unfold bias_error; destruct (k =? 4); lia). nia.
Qed.
