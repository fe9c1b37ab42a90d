(** Rounding of the standard library's [f32] operations (SpecFloat at precision 24, exponent limit
    128): error bounds used for the monitor values (C47). *)
From Coq Require Import ZArith QArith Qabs Qpower SpecFloat Lia Lqa.
From Verif Require Import SpecDecode.
Open Scope Z_scope.

(** ** Digits *)
Lemma digits_pos p : 2 ^ (Zpos (digits2_pos p) - 1) <= Zpos p < 2 ^ Zpos (digits2_pos p).
Proof.
  induction p as [p IH|p IH|]; cbn [digits2_pos]; [| |cbn; lia];
    rewrite Pos2Z.inj_succ; replace (Z.succ (Zpos (digits2_pos p)) - 1) with (Zpos (digits2_pos p)) by lia;
    assert (H : 2 ^ Z.succ (Zpos (digits2_pos p)) = 2 * 2 ^ Zpos (digits2_pos p)) by (apply Z.pow_succ_r; lia);
    assert (H' : 2 ^ Zpos (digits2_pos p) = 2 * 2 ^ (Zpos (digits2_pos p) - 1))
      by (rewrite <- Z.pow_succ_r by lia; f_equal; lia); lia.
Qed.
Lemma digits_unique m d : 0 < d -> 2 ^ (d - 1) <= m < 2 ^ d -> Zdigits2 m = d.
Proof.
  intros Hd H. assert (0 < 2 ^ (d - 1)) by (apply Z.pow_pos_nonneg; lia).
  destruct m as [|p|p]; [lia| |lia]. cbn [Zdigits2]. pose proof (digits_pos p) as G.
  destruct (Z.lt_trichotomy (Zpos (digits2_pos p)) d) as [L|[E|L]]; [|exact E|].
  - assert (2 ^ Zpos (digits2_pos p) <= 2 ^ (d - 1)) by (apply Z.pow_le_mono_r; lia). lia.
  - assert (2 ^ d <= 2 ^ (Zpos (digits2_pos p) - 1)) by (apply Z.pow_le_mono_r; lia). lia.
Qed.

(** ** Shifting right while keeping track of the lost part *)
(** [A / B] lies in the unit starting at [shr_m], where the two bits say. *)
Definition rec_ok (x : shr_record) (A B : Z) : Prop :=
  let d := A - shr_m x * B in
  0 <= shr_m x /\
  match shr_r x, shr_s x with
  | false, false => d = 0
  | false, true => 0 < 2 * d < B
  | true, false => 2 * d = B
  | true, true => B < 2 * d < 2 * B
  end.
Lemma shr_1_ok x A B : 0 < B -> rec_ok x A B -> rec_ok (shr_1 x) A (2 * B).
Proof.
  intros HB. destruct x as [m r s]. unfold rec_ok. cbn [shr_m shr_r shr_s]. intros [Hm H].
  destruct m as [|[p|p|]|p]; [| | | |lia]; cbn [shr_1 shr_m shr_r shr_s];
    (split; [lia|]); destruct r, s; cbn [orb]; lia.
Qed.
Lemma iter_pos_ok p : forall x A B, 0 < B -> rec_ok x A B -> rec_ok (SpecFloat.iter_pos shr_1 p x) A (B * 2 ^ Zpos p).
Proof.
  induction p as [p IH|p IH|]; intros x A B HB H; cbn [SpecFloat.iter_pos].
  - assert (0 < B * 2) by lia. assert (0 < 2 ^ Zpos p) by (apply Z.pow_pos_nonneg; lia).
    replace (B * 2 ^ Zpos (p~1)) with (2 * B * 2 ^ Zpos p * 2 ^ Zpos p).
    2: { rewrite (Pos2Z.inj_xI p). replace (2 * Zpos p + 1) with (1 + Zpos p + Zpos p) by lia.
         rewrite !Z.pow_add_r by lia. change (2 ^ 1) with 2. ring. }
    apply IH; [nia|]. apply IH; [lia|]. now apply shr_1_ok.
  - assert (0 < 2 ^ Zpos p) by (apply Z.pow_pos_nonneg; lia).
    replace (B * 2 ^ Zpos (p~0)) with (B * 2 ^ Zpos p * 2 ^ Zpos p).
    2: { rewrite (Pos2Z.inj_xO p). replace (2 * Zpos p) with (Zpos p + Zpos p) by lia.
         rewrite !Z.pow_add_r by lia. ring. }
    apply IH; [nia|]. now apply IH.
  - replace (B * 2 ^ 1) with (2 * B) by (change (2 ^ 1) with 2; ring). now apply shr_1_ok.
Qed.
Definition loc_ok (m : Z) (l : location) (A B : Z) : Prop := rec_ok (shr_record_of_loc m l) A B.
Lemma rne_ok x A B : 0 < B -> rec_ok x A B ->
  let M := round_nearest_even (shr_m x) (loc_of_shr_record x) in
  - B <= 2 * (A - M * B) <= B /\ shr_m x <= M <= shr_m x + 1.
Proof.
  intros HB. destruct x as [m r s]. unfold rec_ok. cbn [shr_m shr_r shr_s]. intros [Hm H].
  destruct r, s; cbn [loc_of_shr_record round_nearest_even]; try (destruct (Z.even m)); nia.
Qed.

(** ** The second normalisation only undoes a carry *)
Definition finish (s : bool) (M e : Z) : spec_float :=
  let '(mrs, e') := shr_fexp 24 128 M e loc_Exact in
  match shr_m mrs with
  | Z0 => S754_zero s
  | Zpos m => if Zle_bool e' (128 - 24) then S754_finite s m e' else S754_infinity s
  | _ => S754_nan
  end.
Lemma finish_same s p e : Zpos p < 2 ^ 24 -> -149 <= e <= 104 -> finish s (Zpos p) e = S754_finite s p e.
Proof.
  intros Hp He. unfold finish, shr_fexp. cbn [shr_record_of_loc].
  assert (Hd : Zdigits2 (Zpos p) <= 24).
  { cbn [Zdigits2]. pose proof (digits_pos p) as G. destruct (Z_le_gt_dec (Zpos (digits2_pos p)) 24) as [L|L]; [exact L|].
    assert (2 ^ 24 <= 2 ^ (Zpos (digits2_pos p) - 1)) by (apply Z.pow_le_mono_r; lia). lia. }
  assert (Hs : fexp 24 128 (Zdigits2 (Zpos p) + e) - e <= 0) by (unfold fexp, emin; lia).
  assert (E : shr {| shr_m := Zpos p; shr_r := false; shr_s := false |} e (fexp 24 128 (Zdigits2 (Zpos p) + e) - e) =
              ({| shr_m := Zpos p; shr_r := false; shr_s := false |}, e)).
  { unfold shr. destruct (fexp 24 128 (Zdigits2 (Zpos p) + e) - e) as [|n|n]; [reflexivity|lia|reflexivity]. }
  rewrite E. cbn [shr_m]. replace (e <=? 128 - 24) with true by (symmetry; apply Z.leb_le; lia). reflexivity.
Qed.
Lemma finish_carry s e : -149 <= e <= 103 -> finish s (2 ^ 24) e = S754_finite s 8388608 (e + 1).
Proof.
  intros He. unfold finish, shr_fexp. replace (Zdigits2 (2 ^ 24)) with 25 by reflexivity.
  replace (fexp 24 128 (25 + e) - e) with 1 by (unfold fexp, emin; lia).
  cbn [shr_record_of_loc shr SpecFloat.iter_pos]. change (2 ^ 24) with (Zpos 16777216). cbn [shr_1 shr_m].
  replace (e + 1 <=? 128 - 24) with true by (symmetry; apply Z.leb_le; lia). reflexivity.
Qed.

(** ** Rounding *)
Lemma round_core s mx ex l A B : 0 < B -> 0 < mx -> loc_ok mx l A B ->
  -125 <= Zdigits2 mx + ex <= 127 -> ex <= 104 -> l = loc_Exact \/ 2 ^ 23 <= mx ->
  exists m n, binary_round_aux 24 128 s mx ex l = S754_finite s m (ex + n) /\ 0 <= n /\ Zpos m < 2 ^ 24 /\
    ((n = 0 /\ A = Zpos m * B) \/
     (2 ^ 23 <= Zpos m /\ - (2 ^ n * B) <= 2 * (A - Zpos m * 2 ^ n * B) <= 2 ^ n * B)).
Proof.
  intros HB Hmx Hl Hr He Hx.
  assert (Hdig : 2 ^ (Zdigits2 mx - 1) <= mx < 2 ^ Zdigits2 mx /\ 0 < Zdigits2 mx).
  { destruct mx as [|p|p]; try lia. split; [apply digits_pos|]. cbn. lia. }
  destruct Hdig as [Hdig Hd0].
  change (binary_round_aux 24 128 s mx ex l) with
    (let '(mrs, e') := shr_fexp 24 128 mx ex l in
     finish s (round_nearest_even (shr_m mrs) (loc_of_shr_record mrs)) e').
  unfold shr_fexp at 1. set (d := Zdigits2 mx) in *.
  assert (Hf : fexp 24 128 (d + ex) - ex = d - 24) by (unfold fexp, emin; lia). rewrite Hf.
  (* short exact mantissas stay as they are *)
  destruct (Z_lt_le_dec d 24) as [Hshort|Hlong].
  { assert (El : l = loc_Exact).
    { destruct Hx as [E|E]; [exact E|]. exfalso.
      assert (2 ^ d <= 2 ^ 23) by (apply Z.pow_le_mono_r; lia). lia. }
    subst l. assert (E : shr (shr_record_of_loc mx loc_Exact) ex (d - 24) = (shr_record_of_loc mx loc_Exact, ex)).
    { unfold shr. destruct (d - 24) as [|q|q] eqn:Eq; [reflexivity|lia|reflexivity]. }
    rewrite E. cbn [shr_record_of_loc shr_m loc_of_shr_record round_nearest_even].
    assert (Hm24 : mx < 2 ^ 24) by (assert (2 ^ d <= 2 ^ 24) by (apply Z.pow_le_mono_r; lia); lia).
    destruct mx as [|p|p]; try lia.
    destruct (Z_le_gt_dec (-149) ex) as [Hlo|Hlo].
    - rewrite finish_same by lia. exists p, 0. rewrite Z.add_0_r. split; [reflexivity|]. split; [lia|]. split; [exact Hm24|].
      left. split; [reflexivity|]. unfold loc_ok, rec_ok in Hl. cbn [shr_record_of_loc shr_m shr_r shr_s] in Hl. lia.
    - exfalso. lia. }
  (* otherwise shift by d - 24 *)
  set (k := d - 24) in *. assert (Hk : 0 <= k) by lia.
  assert (HP : 0 < 2 ^ k) by (apply Z.pow_pos_nonneg; lia).
  assert (Hsh : exists x, shr (shr_record_of_loc mx l) ex k = (x, ex + k) /\ rec_ok x A (B * 2 ^ k)).
  { unfold shr. destruct k as [|q|q] eqn:Ek.
    - eexists. split; [rewrite Z.add_0_r; reflexivity|]. rewrite Z.mul_1_r. exact Hl.
    - eexists. split; [reflexivity|]. now apply iter_pos_ok.
    - lia. }
  destruct Hsh as (x & -> & Hrec).
  pose proof (rne_ok x A (B * 2 ^ k) ltac:(nia) Hrec) as [Herr HM].
  assert (Hm1 : 2 ^ 23 <= shr_m x < 2 ^ 24).
  { assert (Hd1 : 2 ^ (d - 1) = 2 ^ 23 * 2 ^ k) by (rewrite <- Z.pow_add_r by lia; f_equal; lia).
    assert (Hd2 : 2 ^ d = 2 ^ 24 * 2 ^ k) by (rewrite <- Z.pow_add_r by lia; f_equal; lia).
    assert (G1 : mx * B <= A < (mx + 1) * B).
    { unfold loc_ok, rec_ok in Hl. destruct l as [|[]]; cbn [shr_record_of_loc shr_m shr_r shr_s] in Hl; nia. }
    assert (G2 : shr_m x * (B * 2 ^ k) <= A < (shr_m x + 1) * (B * 2 ^ k)).
    { unfold rec_ok in Hrec. destruct (shr_r x), (shr_s x); nia. }
    rewrite Hd1, Hd2 in Hdig. split.
    - assert (2 ^ 23 * 2 ^ k < (shr_m x + 1) * 2 ^ k) by nia. nia.
    - assert (shr_m x * 2 ^ k < mx + 1) by nia. nia. }
  set (M := round_nearest_even (shr_m x) (loc_of_shr_record x)) in *. cbv zeta in Herr.
  destruct (Z.eq_dec M (2 ^ 24)) as [Hc|Hc].
  - rewrite Hc, finish_carry by lia. exists 8388608%positive, (k + 1). rewrite Z.add_assoc. split; [reflexivity|].
    split; [lia|]. split; [reflexivity|]. right. split; [reflexivity|].
    rewrite Z.pow_add_r by lia. change (2 ^ 1) with 2. rewrite Hc in Herr. change (2 ^ 24) with (8388608 * 2) in Herr. nia.
  - destruct M as [|p|p] eqn:EM; try lia. rewrite finish_same by lia. exists p, k. split; [reflexivity|].
    split; [lia|]. split; [lia|]. right. split; [lia|]. nia.
Qed.

(** A mantissa of at most 24 digits stays as it is. *)
Lemma round_exact s p ex : Zpos p < 2 ^ 24 -> -149 <= ex <= 104 ->
  binary_round_aux 24 128 s (Zpos p) ex loc_Exact = S754_finite s p ex.
Proof.
  intros Hp He. change (binary_round_aux 24 128 s (Zpos p) ex loc_Exact) with
    (let '(mrs, e') := shr_fexp 24 128 (Zpos p) ex loc_Exact in
     finish s (round_nearest_even (shr_m mrs) (loc_of_shr_record mrs)) e').
  unfold shr_fexp at 1.
  assert (Hd : Zpos (digits2_pos p) <= 24).
  { pose proof (digits_pos p) as G. destruct (Z_le_gt_dec (Zpos (digits2_pos p)) 24) as [L|L]; [exact L|].
    assert (2 ^ 24 <= 2 ^ (Zpos (digits2_pos p) - 1)) by (apply Z.pow_le_mono_r; lia). lia. }
  assert (E : shr (shr_record_of_loc (Zpos p) loc_Exact) ex (fexp 24 128 (Zdigits2 (Zpos p) + ex) - ex) =
              (shr_record_of_loc (Zpos p) loc_Exact, ex)).
  { unfold shr. cbn [Zdigits2]. destruct (fexp 24 128 (Zpos (digits2_pos p) + ex) - ex) as [|n|n] eqn:En; [reflexivity| |reflexivity].
    exfalso. unfold fexp, emin in En. lia. }
  rewrite E. cbn [shr_record_of_loc shr_m loc_of_shr_record round_nearest_even]. now apply finish_same.
Qed.

(** ** Values *)
Definition v2 (m e : Z) : Q := inject_Z m * Qpower 2 e.
Lemma two_pos e : (0 < Qpower 2 e)%Q.
Proof. apply Qpower_0_lt. reflexivity. Qed.
Lemma pow_int n : 0 <= n -> (Qpower 2 n == inject_Z (2 ^ n))%Q.
Proof. intros H. change 2%Q with (inject_Z 2). symmetry. now apply Zpower_Qpower. Qed.
Lemma v2_shift m e n : 0 <= n -> (v2 m (e + n) == inject_Z (m * 2 ^ n) * Qpower 2 e)%Q.
Proof.
  intros Hn. unfold v2. rewrite Qpower_plus by discriminate. rewrite (pow_int n Hn), inject_Z_mult. ring.
Qed.
Lemma value_v2 s m e : exists v, f32_value (S754_finite s m e) = Some v /\ (v == v2 (if s then Zneg m else Zpos m) e)%Q.
Proof.
  cbn [f32_value]. set (z := if s then Zneg m else Zpos m). eexists. split; [reflexivity|]. unfold v2.
  destruct (Z.leb_spec 0 e) as [H|H].
  - rewrite pow_int by exact H. now rewrite inject_Z_mult.
  - replace e with (- (- e)) at 2 by lia. rewrite Qpower_opp, pow_int by lia.
    assert (Hp : 0 < 2 ^ (- e)) by (apply Z.pow_pos_nonneg; lia).
    destruct (2 ^ (- e)) as [|p|p] eqn:E; try lia. cbn [Z.to_pos].
    unfold Qeq, Qmult, Qinv, inject_Z. cbn [Qnum Qden]. lia.
Qed.
Lemma v2_value x s m e : x = S754_finite s m e -> exists v, f32_value x = Some v /\ (v == v2 (if s then Zneg m else Zpos m) e)%Q.
Proof. intros ->. apply value_v2. Qed.

(** A normal positive number with exponent between [lo] and [hi]. *)
Definition norm (x : f32) (lo hi : Z) : Prop :=
  exists m e, x = S754_finite false m e /\ 2 ^ 23 <= Zpos m < 2 ^ 24 /\ lo <= e <= hi.
(** [x] is between [a] and [b]. *)
Definition between (x : f32) (a b : Q) : Prop := exists v, f32_value x = Some v /\ (a <= v)%Q /\ (v <= b)%Q.
(** The relative error of one rounding. *)
Definition eps : Q := 1 # 16777215.

Lemma error_Q A m n : 0 <= n -> 2 ^ 23 <= m -> - 2 ^ n <= 2 * (A - m * 2 ^ n) <= 2 ^ n ->
  (inject_Z A * (1 - eps) <= inject_Z (m * 2 ^ n))%Q /\ (inject_Z (m * 2 ^ n) <= inject_Z A * (1 + eps))%Q.
Proof.
  intros Hn Hm H. assert (Hp : 0 < 2 ^ n) by (apply Z.pow_pos_nonneg; lia). set (P := 2 ^ n) in *. clearbody P.
  set (R := m * P) in *.
  assert (G : 2 ^ 23 * P <= R) by nia. clearbody R. change (2 ^ 23) with 8388608 in G.
  unfold eps. split; unfold Qle, Qmult, Qminus, Qplus, Qopp, inject_Z; cbn [Qnum Qden]; lia.
Qed.

Lemma mul_norm x y lo hi lo' hi' a b a' b' : norm x lo hi -> norm y lo' hi' ->
  -149 <= lo + lo' + 22 -> hi + hi' <= 79 -> (0 <= a)%Q -> (0 <= a')%Q ->
  between x a b -> between y a' b' ->
  norm (f32_mul x y) (lo + lo' + 22) (hi + hi' + 25) /\
  between (f32_mul x y) (a * a' * (1 - eps)) (b * b' * (1 + eps)).
Proof.
  intros (mx & ex & -> & Hmx & Hex) (my & ey & -> & Hmy & Hey) Hlo Hhi Ha Ha' (vx & Ex & Lx & Ux) (vy & Ey & Ly & Uy).
  unfold f32_mul. cbn [SFmul xorb]. rewrite Pos2Z.inj_mul. set (A := Zpos mx * Zpos my).
  assert (HA : 2 ^ 46 <= A < 2 ^ 48) by (unfold A; change (2 ^ 46) with (2 ^ 23 * 2 ^ 23); change (2 ^ 48) with (2 ^ 24 * 2 ^ 24); nia).
  assert (Hd : Zdigits2 A = 47 \/ Zdigits2 A = 48).
  { destruct (Z_lt_le_dec A (2 ^ 47)); [left|right]; apply digits_unique; lia. }
  destruct (round_core false A (ex + ey) loc_Exact A 1) as (m & n & E & Hn & Hm & Hcase).
  { lia. } { lia. } { unfold loc_ok, rec_ok. cbn [shr_record_of_loc shr_m shr_r shr_s]. lia. }
  { lia. } { lia. } { now left. }
  rewrite E. destruct Hcase as [[-> HAm]|[Hm23 Herr]]; [exfalso; change (2 ^ 24) with 16777216 in *; lia|].
  rewrite Z.mul_1_r in Herr.
  assert (Hnr : 22 <= n <= 25).
  { split.
    - destruct (Z_le_gt_dec 22 n) as [L|L]; [exact L|]. exfalso. assert (2 ^ n <= 2 ^ 21) by (apply Z.pow_le_mono_r; lia).
      assert (0 < 2 ^ n) by (apply Z.pow_pos_nonneg; lia). assert (Zpos m * 2 ^ n <= 2 ^ 24 * 2 ^ 21) by nia.
      change (2 ^ 24 * 2 ^ 21) with (2 ^ 45) in *. lia.
    - destruct (Z_le_gt_dec n 25) as [L|L]; [exact L|]. exfalso. assert (2 ^ 26 <= 2 ^ n) by (apply Z.pow_le_mono_r; lia).
      assert (2 ^ 23 * 2 ^ n <= Zpos m * 2 ^ n) by nia. lia. }
  assert (Herr' : - 2 ^ n <= 2 * (A - Z.pos m * 2 ^ n) <= 2 ^ n) by (rewrite !Z.mul_1_r in Herr; exact Herr).
  split.
  - exists m, (ex + ey + n). split; [reflexivity|]. split; [lia|lia].
  - destruct (value_v2 false mx ex) as (wx & Wx & Vx). rewrite Wx in Ex. injection Ex as ->.
    destruct (value_v2 false my ey) as (wy & Wy & Vy). rewrite Wy in Ey. injection Ey as ->.
    destruct (value_v2 false m (ex + ey + n)) as (v & W & V). exists v. split; [exact W|].
    rewrite V, v2_shift by lia. destruct (error_Q A (Zpos m) n Hn Hm23 Herr') as [L U].
    assert (Hprod : (vx * vy == inject_Z A * Qpower 2 (ex + ey))%Q).
    { rewrite Vx, Vy. unfold v2, A. rewrite inject_Z_mult, Qpower_plus by (intro HH; discriminate HH). ring. }
    assert (Hp : (0 < Qpower 2 (ex + ey))%Q) by apply two_pos.
    assert (Hvx : (a * a' <= vx * vy)%Q) by (apply Qmult_le_compat_nonneg; split; assumption).
    assert (Hvb : (vx * vy <= b * b')%Q).
    { assert (0 <= vx)%Q by (apply Qle_trans with a; assumption). assert (0 <= vy)%Q by (apply Qle_trans with a'; assumption).
      apply Qmult_le_compat_nonneg; split; assumption. }
    rewrite Hprod in Hvx, Hvb. generalize dependent (Qpower 2 (ex + ey)). intros P _ Hp Hvx Hvb. split.
    + apply Qle_trans with (inject_Z A * (1 - eps) * P)%Q.
      * setoid_replace (inject_Z A * (1 - eps) * P)%Q with ((inject_Z A * P) * (1 - eps))%Q by ring.
        apply Qmult_le_compat_r; [exact Hvx|]. vm_compute; discriminate.
      * apply Qmult_le_compat_r; [exact L|]. now apply Qlt_le_weak.
    + apply Qle_trans with (inject_Z A * (1 + eps) * P)%Q.
      * apply Qmult_le_compat_r; [exact U|]. now apply Qlt_le_weak.
      * setoid_replace (inject_Z A * (1 + eps) * P)%Q with ((inject_Z A * P) * (1 + eps))%Q by ring.
        apply Qmult_le_compat_r; [exact Hvb|]. vm_compute; discriminate.
Qed.

(** ** Integers *)
Lemma shift_pos_mul d p : Zpos (shift_pos d p) = Zpos p * 2 ^ Zpos d.
Proof. rewrite shift_pos_correct, Z.pow_pos_fold. ring. Qed.
Lemma digits_small p d : Zpos p < 2 ^ Zpos d -> Zpos (digits2_pos p) <= Zpos d.
Proof.
  intros H. pose proof (digits_pos p) as G. destruct (Z_le_gt_dec (Zpos (digits2_pos p)) (Zpos d)) as [L|L]; [exact L|].
  assert (2 ^ Zpos d <= 2 ^ (Zpos (digits2_pos p) - 1)) by (apply Z.pow_le_mono_r; lia). lia.
Qed.
(** Integers below 2^16 are exact: 24 digits, the exponent between -23 and -8. *)
Lemma of_pos_exact s p : Zpos p < 2 ^ 16 ->
  exists m e, binary_round 24 128 s p 0 = S754_finite s m e /\ 2 ^ 23 <= Zpos m < 2 ^ 24 /\ -23 <= e <= -8 /\
    Zpos m = Zpos p * 2 ^ (- e).
Proof.
  intros Hp. pose proof (digits_small p 16 Hp) as Hd. pose proof (digits_pos p) as G.
  set (d := Zpos (digits2_pos p)) in *. assert (Hd1 : 1 <= d) by (unfold d; lia).
  unfold binary_round. fold d. replace (fexp 24 128 (d + 0)) with (d - 24) by (unfold fexp, emin; lia).
  unfold shl_align. rewrite Z.sub_0_r.
  destruct (d - 24) as [|q|q] eqn:Eq; try lia.
  set (m := shift_pos q p).
  assert (Hm : Zpos m = Zpos p * 2 ^ (24 - d)) by (unfold m; rewrite shift_pos_mul; do 2 f_equal; lia).
  assert (Hmr : 2 ^ 23 <= Zpos m < 2 ^ 24).
  { rewrite Hm. replace (2 ^ 23) with (2 ^ (d - 1) * 2 ^ (24 - d)) by (rewrite <- Z.pow_add_r by lia; f_equal; lia).
    replace (2 ^ 24) with (2 ^ d * 2 ^ (24 - d)) by (rewrite <- Z.pow_add_r by lia; f_equal; lia).
    assert (0 < 2 ^ (24 - d)) by (apply Z.pow_pos_nonneg; lia). nia. }
  assert (Hdig : Zdigits2 (Zpos m) = 24) by (apply digits_unique; lia).
  rewrite round_exact by lia. exists m, (Zneg q). split; [reflexivity|]. split; [exact Hmr|].
  split; [lia|]. rewrite Hm. do 2 f_equal. lia.
Qed.
Lemma of_N_norm n : 0 < n < 2 ^ 16 -> norm (f32_of_Z n) (-23) (-8) /\ between (f32_of_Z n) (inject_Z n) (inject_Z n).
Proof.
  intros H. destruct n as [|p|p]; try lia. unfold f32_of_Z. cbn [binary_normalize].
  destruct (of_pos_exact false p ltac:(lia)) as (m & e & -> & Hm & He & Hv). split; [exists m, e; auto|].
  destruct (value_v2 false m e) as (v & W & V). exists v. split; [exact W|].
  assert (G : (v == inject_Z (Zpos p))%Q).
  { rewrite V. unfold v2. rewrite Hv. rewrite inject_Z_mult, <- pow_int by lia.
    rewrite Qpower_opp. field. intros E. pose proof (two_pos e) as T. rewrite E in T. discriminate. }
  rewrite G. split; apply Qle_refl.
Qed.
Lemma norm_const x m e : x = S754_finite false m e -> 2 ^ 23 <= Zpos m < 2 ^ 24 -> norm x e e.
Proof. intros H1 H2. exists m, e. repeat split; auto; lia. Qed.
Lemma between_const x v : f32_value x = Some v -> between x v v.
Proof. intros H. exists v. split; [exact H|]. split; apply Qle_refl. Qed.

(** ** Division *)
Lemma error_Q_div A B m n : 0 < B -> 0 <= n -> 2 ^ 23 <= m -> - (2 ^ n * B) <= 2 * (A - m * 2 ^ n * B) <= 2 ^ n * B ->
  (inject_Z A * (1 - eps) <= inject_Z (m * 2 ^ n) * inject_Z B)%Q /\
  (inject_Z (m * 2 ^ n) * inject_Z B <= inject_Z A * (1 + eps))%Q.
Proof.
  intros HB Hn Hm H. assert (Hp : 0 < 2 ^ n) by (apply Z.pow_pos_nonneg; lia). set (P := 2 ^ n) in *. clearbody P.
  rewrite <- inject_Z_mult. set (R := m * P * B) in *.
  assert (G : 2 ^ 23 * (P * B) <= R) by (unfold R; nia). assert (0 < P * B) by nia. set (S := P * B) in *. clearbody R S.
  change (2 ^ 23) with 8388608 in G.
  unfold eps. split; unfold Qle, Qmult, Qminus, Qplus, Qopp, inject_Z; cbn [Qnum Qden]; lia.
Qed.
Lemma new_location_ok A B : 0 < B -> loc_ok (A / B) (new_location B (A mod B)) A B \/ A < 0.
Proof.
  intros HB. destruct (Z_lt_le_dec A 0) as [Hn|Hn]; [now right|left].
  pose proof (Z.div_mod A B ltac:(lia)) as E. pose proof (Z.mod_pos_bound A B HB) as R.
  assert (Hq : 0 <= A / B) by (apply Z.div_pos; lia).
  set (q := A / B) in *. set (r := A mod B) in *. clearbody q r.
  unfold loc_ok, rec_ok, new_location.
  assert (Hev : Z.even B = true -> exists k, B = 2 * k) by (intros H; apply Z.even_spec in H; exact H).
  destruct (Z.even B) eqn:Ev.
  - unfold new_location_even. pose proof (Zeq_bool_if r 0) as Z0. destruct (Zeq_bool r 0).
    + cbn [shr_record_of_loc shr_m shr_r shr_s]. nia.
    + destruct (Z.compare_spec (2 * r) B); cbn [shr_record_of_loc shr_m shr_r shr_s]; nia.
  - assert (Hodd : Z.odd B = true) by (rewrite <- Z.negb_even, Ev; reflexivity). apply Z.odd_spec in Hodd.
    destruct Hodd as (k & Hk).
    unfold new_location_odd. pose proof (Zeq_bool_if r 0) as Z0. destruct (Zeq_bool r 0).
    + cbn [shr_record_of_loc shr_m shr_r shr_s]. nia.
    + destruct (Z.compare_spec (2 * r + 1) B); cbn [shr_record_of_loc shr_m shr_r shr_s]; nia.
Qed.
Lemma div_norm x y lo hi lo' hi' a b c : norm x lo hi -> norm y lo' hi' ->
  -149 <= lo - hi' - 24 -> hi - lo' <= 100 -> (0 < c)%Q ->
  between x a b -> between y c c ->
  between (f32_div x y) (a / c * (1 - eps)) (b / c * (1 + eps)).
Proof.
  intros (mx & ex & -> & Hmx & Hex) (my & ey & -> & Hmy & Hey) Hlo Hhi Hc (vx & Ex & Lx & Ux) (vy & Ey & Ly & Uy).
  unfold f32_div. cbn [SFdiv xorb]. unfold SFdiv_core_binary.
  replace (Zdigits2 (Zpos mx)) with 24 by (symmetry; apply digits_unique; lia).
  replace (Zdigits2 (Zpos my)) with 24 by (symmetry; apply digits_unique; lia).
  replace (Z.min (fexp 24 128 (24 + ex - (24 + ey))) (ex - ey)) with (ex - ey - 24) by (unfold fexp, emin; lia).
  cbv zeta. replace (ex - ey - (ex - ey - 24)) with 24 by lia.
  rewrite Z.shiftl_mul_pow2 by lia. set (A := Zpos mx * 2 ^ 24).
  pose proof (Z_div_mod A (Zpos my) ltac:(lia)) as DM. unfold Z.div, Z.modulo in *.
  pose proof (new_location_ok A (Zpos my) ltac:(lia)) as Hloc. unfold Z.div, Z.modulo in Hloc.
  destruct (Z.div_eucl A (Zpos my)) as [q r]. destruct DM as [DM1 DM2].
  assert (HA : 2 ^ 47 <= A < 2 ^ 48) by (unfold A; change (2 ^ 47) with (2 ^ 23 * 2 ^ 24); change (2 ^ 48) with (2 ^ 24 * 2 ^ 24); nia).
  assert (Hq : 2 ^ 23 <= q < 2 ^ 25).
  { change (2 ^ 47) with (2 ^ 23 * 2 ^ 24) in HA. change (2 ^ 48) with (2 ^ 23 * 2 ^ 25) in HA. nia. }
  destruct Hloc as [Hloc|Hloc]; [|lia].
  assert (Hd : Zdigits2 q = 24 \/ Zdigits2 q = 25).
  { destruct (Z_lt_le_dec q (2 ^ 24)); [left|right]; apply digits_unique; lia. }
  destruct (round_core false q (ex - ey - 24) (new_location (Zpos my) r) A (Zpos my)) as (m & n & E & Hn & Hm & Hcase);
    [lia|lia|exact Hloc|lia|lia|right; lia|].
  rewrite E.
  assert (Hcase' : 2 ^ 23 <= Zpos m /\ - (2 ^ n * Zpos my) <= 2 * (A - Zpos m * 2 ^ n * Zpos my) <= 2 ^ n * Zpos my).
  { destruct Hcase as [[-> H]|H]; [|exact H]. change (2 ^ 0) with 1. split; [|lia]. assert (q = Zpos m) by nia. lia. }
  destruct Hcase' as [Hm23 Herr].
  destruct (value_v2 false mx ex) as (wx & Wx & Vx). rewrite Wx in Ex. injection Ex as ->.
  destruct (value_v2 false my ey) as (wy & Wy & Vy). rewrite Wy in Ey. injection Ey as ->.
  destruct (value_v2 false m (ex - ey - 24 + n)) as (v & W & V). exists v. split; [exact W|].
  destruct (error_Q_div A (Zpos my) (Zpos m) n ltac:(lia) Hn Hm23 Herr) as [L U].
  assert (Hvy : (vy == c)%Q) by (apply Qle_antisym; assumption).
  assert (Hrel : (v * c == inject_Z (Zpos m * 2 ^ n) * inject_Z (Zpos my) * Qpower 2 (ex - 24))%Q).
  { rewrite <- Hvy, Vy, V, v2_shift by lia. unfold v2.
    replace (ex - 24) with (ex - ey - 24 + ey) by lia. rewrite Qpower_plus by (intro HH; discriminate HH). ring. }
  assert (Hxa : (vx == inject_Z A * Qpower 2 (ex - 24))%Q).
  { rewrite Vx. unfold v2, A. rewrite inject_Z_mult, <- pow_int by lia.
    replace ex with (ex - 24 + 24) at 1 by lia. rewrite Qpower_plus by (intro HH; discriminate HH). ring. }
  assert (Hp : (0 < Qpower 2 (ex - 24))%Q) by apply two_pos.
  rewrite Hxa in Lx, Ux. clear Hxa. set (P := Qpower 2 (ex - 24)) in *. clearbody P.
  assert (Hp' : (0 <= P)%Q) by now apply Qlt_le_weak.
  assert (B1 : (a * (1 - eps) <= v * c)%Q).
  { rewrite Hrel. apply Qle_trans with (inject_Z A * (1 - eps) * P)%Q.
    - setoid_replace (inject_Z A * (1 - eps) * P)%Q with ((inject_Z A * P) * (1 - eps))%Q by ring.
      apply Qmult_le_compat_r; [exact Lx|]. vm_compute; discriminate.
    - apply Qmult_le_compat_r; assumption. }
  assert (B2 : (v * c <= b * (1 + eps))%Q).
  { rewrite Hrel. apply Qle_trans with (inject_Z A * (1 + eps) * P)%Q.
    - apply Qmult_le_compat_r; assumption.
    - setoid_replace (inject_Z A * (1 + eps) * P)%Q with ((inject_Z A * P) * (1 + eps))%Q by ring.
      apply Qmult_le_compat_r; [exact Ux|]. vm_compute; discriminate. }
  assert (Hcne : ~ (c == 0)%Q) by (intros G; rewrite G in Hc; discriminate).
  split.
  - setoid_replace (a / c * (1 - eps))%Q with (a * (1 - eps) / c)%Q by (field; exact Hcne). now apply Qle_shift_div_r.
  - setoid_replace (b / c * (1 + eps))%Q with (b * (1 + eps) / c)%Q by (field; exact Hcne). now apply Qle_shift_div_l.
Qed.

(** ** Sixteenth-bit integers in units of 1/256 are exact *)
Lemma mul_256_exact z : - 2 ^ 15 <= z < 2 ^ 15 -> is_value (f32_mul (f32_of_Z z) TEMP_RESOLUTION) (z # 256).
Proof.
  intros Hz. destruct (Z.eq_dec z 0) as [->|Hz0].
  { exists 0%Q. split; vm_compute; reflexivity. }
  assert (Hs : exists (s : bool) p, z = (if s then Zneg p else Zpos p) /\ f32_of_Z z = binary_round 24 128 s p 0).
  { destruct z as [|p|p]; [lia|exists false, p|exists true, p]; split; reflexivity. }
  destruct Hs as (s & p & Ez & ->).
  destruct (of_pos_exact s p ltac:(destruct s; lia)) as (m & e & -> & Hm & He & Hv).
  replace TEMP_RESOLUTION with (S754_finite false 8388608 (-31)) by (vm_compute; reflexivity).
  unfold f32_mul. cbn [SFmul]. rewrite Bool.xorb_false_r, Pos2Z.inj_mul. set (A := Zpos m * 8388608).
  assert (HA : 2 ^ 46 <= A < 2 ^ 47) by (unfold A; change 8388608 with (2 ^ 23); change (2 ^ 46) with (2 ^ 23 * 2 ^ 23); change (2 ^ 47) with (2 ^ 24 * 2 ^ 23); nia).
  assert (Hd : Zdigits2 A = 47) by (apply digits_unique; lia).
  destruct (round_core s A (e + -31) loc_Exact A 1) as (m' & n & E & Hn & Hm' & Hcase);
    [lia|lia|unfold loc_ok, rec_ok; cbn [shr_record_of_loc shr_m shr_r shr_s]; lia|lia|lia|now left|].
  rewrite E. destruct Hcase as [[-> HAm]|[Hm23 Herr]]; [exfalso; change (2 ^ 24) with 16777216 in *; lia|].
  rewrite !Z.mul_1_r in Herr.
  assert (Hnr : n <= 25).
  { destruct (Z_le_gt_dec n 25) as [L|L]; [exact L|]. exfalso. assert (2 ^ 26 <= 2 ^ n) by (apply Z.pow_le_mono_r; lia).
    assert (2 ^ 23 * 2 ^ n <= Zpos m' * 2 ^ n) by nia. lia. }
  assert (Hexact : A = Zpos m' * 2 ^ n).
  { assert (Hdiv : exists k, A = k * 2 ^ n).
    { exists (Zpos p * 2 ^ (- e + 23 - n)). unfold A. rewrite Hv. change 8388608 with (2 ^ 23).
      rewrite <- !Z.mul_assoc, <- !Z.pow_add_r by lia. f_equal. f_equal. lia. }
    destruct Hdiv as (k & Hk). assert (HP : 0 < 2 ^ n) by (apply Z.pow_pos_nonneg; lia). rewrite Hk in Herr |- *.
    assert (k = Zpos m'); [|now subst k]. clear - Herr HP. nia. }
  destruct (value_v2 s m' (e + -31 + n)) as (v & W & V). exists v. split; [exact W|]. rewrite V.
  replace (if s then Zneg m' else Zpos m') with ((if s then -1 else 1) * Zpos m') by (destruct s; reflexivity).
  rewrite v2_shift by lia. rewrite <- Z.mul_assoc, <- Hexact. unfold A. rewrite Hv.
  change 8388608 with (2 ^ 23). rewrite !inject_Z_mult, <- !pow_int by lia.
  setoid_replace (inject_Z (if s then -1 else 1) * (inject_Z (Z.pos p) * Qpower 2 (- e) * Qpower 2 23) * Qpower 2 (e + -31))%Q
    with (inject_Z (if s then -1 else 1) * inject_Z (Z.pos p) * (Qpower 2 (- e) * Qpower 2 23 * Qpower 2 (e + -31)))%Q by ring.
  rewrite <- !Qpower_plus by (intro HH; discriminate HH). replace (- e + 23 + (e + -31)) with (-8) by lia.
  subst z. replace (Qpower 2 (-8)) with (1 # 256)%Q by (vm_compute; reflexivity).
  destruct s; unfold Qeq, Qmult, inject_Z; cbn [Qnum Qden]; lia.
Qed.
