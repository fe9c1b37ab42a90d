(** Monitor values (C47). *)
From Coq Require Import ZArith QArith Qabs SpecFloat Lia.
From Verif Require Import SpecDecode FloatProofs.
Open Scope N_scope.

Lemma raw_lt w : byte_word w -> raw w < 65536.
Proof. unfold byte_word, raw. lia. Qed.
Lemma u16_raw w : u16_be w = raw w.
Proof. unfold u16_be, raw. lia. Qed.

Lemma below_trans x y z : below x y -> below y z -> below x z.
Proof.
  intros (u & v & E1 & E2 & L1) (v' & t & E3 & E4 & L2). rewrite E2 in E3. injection E3 as <-.
  exists u, t. repeat split; try assumption. now apply Qlt_trans with v.
Qed.

(** Numbers near two different multiples of [k] below 2^16 [k] are ordered. *)
Lemma near_below x y (k : positive) (s a b : N) : 0 < s -> a < b -> b < 65536 ->
  near_value x (Z.of_N s * Z.of_N a # k) -> near_value y (Z.of_N s * Z.of_N b # k) -> below x y.
Proof.
  intros Hs Hab Hb (u & Eu & _ & U) (v & Ev & V & _). exists u, v. split; [exact Eu|]. split; [exact Ev|].
  eapply Qle_lt_trans; [exact U|]. eapply Qlt_le_trans; [|exact V].
  set (A := (Z.of_N s * Z.of_N a)%Z). set (B := (Z.of_N s * Z.of_N b)%Z).
  assert (G : (A * 4194305 < B * 4194303)%Z).
  { unfold A, B. rewrite <- !Z.mul_assoc. apply Zmult_lt_compat_l; lia. }
  setoid_replace ((A # k) + (A # k) * (1 # 4194304))%Q with (A * 4194305 # k * 4194304)%Q
    by (unfold Qeq, Qplus, Qmult; cbn [Qnum Qden]; rewrite !Pos2Z.inj_mul; ring).
  setoid_replace ((B # k) - (B # k) * (1 # 4194304))%Q with (B * 4194303 # k * 4194304)%Q
    by (unfold Qeq, Qminus, Qplus, Qmult, Qopp; cbn [Qnum Qden]; rewrite !Pos2Z.inj_mul; ring).
  unfold Qlt. cbn [Qnum Qden]. apply Zmult_lt_compat_r; [lia|exact G].
Qed.

(** A bound linear in the counter gives a near value. *)
Lemma linear_near x (n : N) (k : positive) (s : N) (l u : Q) :
  between x (inject_Z (Z.of_N n) * l) (inject_Z (Z.of_N n) * u) ->
  (((Z.of_N s # k) - (Z.of_N s # k) * (1 # 4194304)) <= l)%Q ->
  (u <= ((Z.of_N s # k) + (Z.of_N s # k) * (1 # 4194304)))%Q ->
  near_value x (Z.of_N s * Z.of_N n # k).
Proof.
  intros (v & E & L & U) Hl Hu. exists v. split; [exact E|].
  assert (Hq : (Z.of_N s * Z.of_N n # k == inject_Z (Z.of_N n) * (Z.of_N s # k))%Q).
  { unfold Qeq, Qmult, inject_Z. cbn [Qnum Qden]. lia. }
  assert (Hn : (0 <= inject_Z (Z.of_N n))%Q) by (unfold Qle, inject_Z; cbn; lia).
  rewrite Hq. set (N0 := inject_Z (Z.of_N n)) in *. set (q := (Z.of_N s # k)%Q) in *. split.
  - apply Qle_trans with (N0 * l)%Q; [|exact L].
    setoid_replace (N0 * q - N0 * q * (1 # 4194304))%Q with ((q - q * (1 # 4194304)) * N0)%Q by ring.
    rewrite (Qmult_comm N0 l). now apply Qmult_le_compat_r.
  - apply Qle_trans with (N0 * u)%Q; [exact U|].
    setoid_replace (N0 * q + N0 * q * (1 # 4194304))%Q with ((q + q * (1 # 4194304)) * N0)%Q by ring.
    rewrite (Qmult_comm N0 u). now apply Qmult_le_compat_r.
Qed.
Lemma near_zero (k : positive) s : near_value (S754_zero s) (0 # k).
Proof. exists 0%Q. split; [reflexivity|]. split; unfold Qle; cbn; lia. Qed.
Lemma near_zero_mul (k : positive) s (x : N) : near_value (S754_zero s) (Z.of_N x * Z.of_N 0 # k).
Proof. replace (Z.of_N x * Z.of_N 0)%Z with 0%Z by lia. apply near_zero. Qed.

Lemma counter n : 0 < n -> n < 65536 ->
  norm (f32_of_u16 n) (-23) (-8) /\ between (f32_of_u16 n) (inject_Z (Z.of_N n)) (inject_Z (Z.of_N n)).
Proof. intros H1 H2. unfold f32_of_u16. apply of_N_norm. change (2 ^ 16)%Z with 65536%Z. lia. Qed.
Lemma counter_nonneg n : (0 <= inject_Z (Z.of_N n))%Q.
Proof. unfold Qle, inject_Z. cbn. lia. Qed.

(** The constants. *)
Ltac const p := split; [apply norm_const with p; [vm_compute; reflexivity|split; vm_compute; [discriminate|reflexivity]]
                       |apply between_const; vm_compute; reflexivity].
Lemma volt_const : norm SUPPLY_VOLTAGE_RESOLUTION (-37) (-37) /\
  between SUPPLY_VOLTAGE_RESOLUTION (13743895 # 137438953472) (13743895 # 137438953472).
Proof. const 13743895%positive. Qed.
Lemma power_const : norm OPTICAL_POWER_RESOLUTION (-47) (-47) /\
  between OPTICAL_POWER_RESOLUTION (14073749 # 140737488355328) (14073749 # 140737488355328).
Proof. const 14073749%positive. Qed.
Lemma bias_const : norm TX_BIAS_CURRENT_RESOLUTION (-42) (-42) /\
  between TX_BIAS_CURRENT_RESOLUTION (8796093 # 4398046511104) (8796093 # 4398046511104).
Proof. const 8796093%positive. Qed.
Lemma thousand_const : norm (f32_of_Z 1000) (-14) (-14) /\ between (f32_of_Z 1000) (16384000 # 16384) (16384000 # 16384).
Proof. const 16384000%positive. Qed.
Lemma scale_const k : k = 1 \/ k = 2 \/ k = 4 -> norm (f32_of_Z (Z.of_N k)) (-23) (-8) /\
  between (f32_of_Z (Z.of_N k)) (inject_Z (Z.of_N k)) (inject_Z (Z.of_N k)).
Proof. intros H. apply of_N_norm. change (2 ^ 16)%Z with 65536%Z. lia. Qed.
Lemma max_const : norm (f32_of_Z 32767) (-9) (-9) /\ between (f32_of_Z 32767) (16776704 # 512) (16776704 # 512).
Proof. const 16776704%positive. Qed.

Lemma between_eq x a b a' b' : between x a b -> (a' == a)%Q -> (b == b')%Q -> between x a' b'.
Proof. intros (v & E & L & U) Ha Hb. exists v. split; [exact E|]. rewrite Ha, <- Hb. now split. Qed.

Ltac nonneg := match goal with |- (0 <= _)%Q => idtac end; repeat (apply Qmult_le_0_compat; [|vm_compute; discriminate]); first [apply counter_nonneg | vm_compute; discriminate].

(** ** Values near the documented ones *)
Lemma voltage_lin n : 0 < n -> n < 65536 ->
  between (f32_mul (f32_of_u16 n) SUPPLY_VOLTAGE_RESOLUTION)
    (inject_Z (Z.of_N n) * ((13743895 # 137438953472) * (1 - eps))) (inject_Z (Z.of_N n) * ((13743895 # 137438953472) * (1 + eps))).
Proof.
  intros H1 H2. destruct (counter n H1 H2) as [N1 B1], volt_const as [N2 B2].
  edestruct mul_norm with (1 := N1) (2 := N2) (7 := B1) (8 := B2) as [_ B]; try lia; try nonneg.
  eapply between_eq; [exact B|ring|ring].
Qed.
Lemma power_lin n : 0 < n -> n < 65536 ->
  between (f32_mul (f32_mul (f32_of_u16 n) OPTICAL_POWER_RESOLUTION) WATT_TO_MW)
    (inject_Z (Z.of_N n) * ((14073749 # 140737488355328) * (1 - eps) * (16384000 # 16384) * (1 - eps)))
    (inject_Z (Z.of_N n) * ((14073749 # 140737488355328) * (1 + eps) * (16384000 # 16384) * (1 + eps))).
Proof.
  intros H1 H2. destruct (counter n H1 H2) as [N1 B1], power_const as [N2 B2], thousand_const as [N3 B3].
  edestruct mul_norm with (1 := N1) (2 := N2) (7 := B1) (8 := B2) as [N4 B4]; try lia; try nonneg.
  edestruct mul_norm with (1 := N4) (2 := N3) (7 := B4) (8 := B3) as [_ B]; try lia; try nonneg.
  unfold WATT_TO_MW. eapply between_eq; [exact B|ring|ring].
Qed.
Lemma bias_lin n : 0 < n -> n < 65536 ->
  let x := f32_mul (f32_mul (f32_of_u16 n) TX_BIAS_CURRENT_RESOLUTION) AMP_TO_MA in
  norm x (-35) (-14) /\
  between x (inject_Z (Z.of_N n) * ((8796093 # 4398046511104) * (1 - eps) * (16384000 # 16384) * (1 - eps)))
    (inject_Z (Z.of_N n) * ((8796093 # 4398046511104) * (1 + eps) * (16384000 # 16384) * (1 + eps))).
Proof.
  intros H1 H2. cbv zeta. destruct (counter n H1 H2) as [N1 B1], bias_const as [N2 B2], thousand_const as [N3 B3].
  edestruct mul_norm with (1 := N1) (2 := N2) (7 := B1) (8 := B2) as [N4 B4]; try lia; try nonneg.
  edestruct mul_norm with (1 := N4) (2 := N3) (7 := B4) (8 := B3) as [N5 B]; try lia; try nonneg.
  unfold AMP_TO_MA. split; [exact N5|]. eapply between_eq; [exact B|ring|ring].
Qed.
Lemma bias_scaled_lin n k : 0 < n -> n < 65536 -> k = 1 \/ k = 2 \/ k = 4 ->
  between (f32_mul (f32_mul (f32_mul (f32_of_u16 n) TX_BIAS_CURRENT_RESOLUTION) AMP_TO_MA) (f32_of_Z (Z.of_N k)))
    (inject_Z (Z.of_N n) * ((8796093 # 4398046511104) * (1 - eps) * (16384000 # 16384) * (1 - eps) * inject_Z (Z.of_N k) * (1 - eps)))
    (inject_Z (Z.of_N n) * ((8796093 # 4398046511104) * (1 + eps) * (16384000 # 16384) * (1 + eps) * inject_Z (Z.of_N k) * (1 + eps))).
Proof.
  intros H1 H2 Hk. destruct (bias_lin n H1 H2) as [N1 B1], (scale_const k Hk) as [N2 B2].
  edestruct mul_norm with (1 := N1) (2 := N2) (7 := B1) (8 := B2) as [_ B]; try lia; try nonneg.
  eapply between_eq; [exact B|ring|ring].
Qed.
Lemma tec_lin n : 0 < n -> n < 65536 ->
  between (f32_div (f32_of_u16 n) (f32_of_Z 32767))
    (inject_Z (Z.of_N n) * (/ (16776704 # 512) * (1 - eps))) (inject_Z (Z.of_N n) * (/ (16776704 # 512) * (1 + eps))).
Proof.
  intros H1 H2. destruct (counter n H1 H2) as [N1 B1], max_const as [N2 B2].
  eapply between_eq; [eapply div_norm with (1 := N1) (2 := N2); [..|exact B1|exact B2]; try lia; reflexivity| |];
    unfold Qdiv; ring.
Qed.

Ltac linear H := eapply linear_near; [exact H|vm_compute; discriminate|vm_compute; discriminate].
Ltac zero := match goal with |- near_value ?x _ => let y := eval vm_compute in x in change x with y end.
Lemma one_mul (n : N) (k : positive) : (Z.of_N n # k = Z.of_N 1 * Z.of_N n # k)%Q.
Proof. now rewrite Z.mul_1_l. Qed.

Lemma temperature_exact w : byte_word w -> is_value (decode_temperature w) (signed w # 256).
Proof.
  intros H. unfold decode_temperature.
  assert (E : i16_be w = signed w /\ (- 2 ^ 15 <= signed w < 2 ^ 15)%Z).
  { pose proof (raw_lt w H) as L. unfold i16_be, signed. rewrite u16_raw. change (2 ^ 15)%Z with 32768%Z.
    destruct (Z.ltb_spec (Z.of_N (raw w)) 32768); destruct (N.ltb_spec (raw w) 32768); lia. }
  destruct E as [-> E]. now apply mul_256_exact.
Qed.
Lemma voltage_near w : byte_word w -> near_value (decode_supply_voltage w) (Z.of_N (raw w) # 10000).
Proof.
  intros H. apply raw_lt in H. unfold decode_supply_voltage. rewrite u16_raw. set (n := raw w) in *. clearbody n. rewrite one_mul.
  destruct (N.eq_dec n 0) as [->|Hn]; [zero; apply near_zero_mul|].
  assert (P : 0 < n) by lia. linear (voltage_lin n P H).
Qed.
Lemma power_near w : byte_word w -> near_value (decode_optical_power w) (Z.of_N (raw w) # 10000).
Proof.
  intros H. apply raw_lt in H. unfold decode_optical_power. rewrite u16_raw. set (n := raw w) in *. clearbody n. rewrite one_mul.
  destruct (N.eq_dec n 0) as [->|Hn]; [zero; apply near_zero_mul|].
  assert (P : 0 < n) by lia. linear (power_lin n P H).
Qed.
Lemma bias_near w : byte_word w -> near_value (decode_bias_current w) (Z.of_N (raw w) # 500).
Proof.
  intros H. apply raw_lt in H. unfold decode_bias_current. rewrite u16_raw. set (n := raw w) in *. clearbody n. rewrite one_mul.
  destruct (N.eq_dec n 0) as [->|Hn]; [zero; apply near_zero_mul|].
  assert (P : 0 < n) by lia. destruct (bias_lin n P H) as [_ B]. linear B.
Qed.
Lemma bias_scaled_near w k : byte_word w -> k = 1 \/ k = 2 \/ k = 4 ->
  near_value (f32_mul (decode_bias_current w) (f32_of_Z (Z.of_N k))) (Z.of_N k * Z.of_N (raw w) # 500).
Proof.
  intros H Hk. apply raw_lt in H. unfold decode_bias_current. rewrite u16_raw. set (n := raw w) in *. clearbody n.
  destruct (N.eq_dec n 0) as [->|Hn].
  { destruct Hk as [ -> | [ -> | -> ]]; zero; apply near_zero_mul. }
  assert (P : 0 < n) by lia. pose proof (bias_scaled_lin n k P H Hk) as B.
  destruct Hk as [ -> | [ -> | -> ]]; linear B.
Qed.
Lemma tec_near w : byte_word w -> near_value (decode_tec w) (Z.of_N (raw w) # 32767).
Proof.
  intros H. apply raw_lt in H. unfold decode_tec. rewrite u16_raw. set (n := raw w) in *. clearbody n. rewrite one_mul.
  destruct (N.eq_dec n 0) as [->|Hn]; [zero; apply near_zero_mul|].
  assert (P : 0 < n) by lia. linear (tec_lin n P H).
Qed.

(** ** Monotonicity *)
Lemma byte_word_below w w' : byte_word w' -> raw w < raw w' -> raw w < 65536 /\ raw w' < 65536.
Proof. intros H L. pose proof (raw_lt w' H). lia. Qed.
Lemma temperature_mono w w' : byte_word w -> byte_word w' -> (signed w < signed w')%Z ->
  below (decode_temperature w) (decode_temperature w').
Proof.
  intros H H' Hlt. destruct (temperature_exact w H) as (v & Ev & Hv), (temperature_exact w' H') as (v' & Ev' & Hv').
  exists v, v'. repeat split; try assumption. rewrite Hv, Hv'. unfold Qlt. cbn [Qnum Qden]. lia.
Qed.
Lemma voltage_mono w w' : byte_word w -> byte_word w' -> raw w < raw w' -> below (decode_supply_voltage w) (decode_supply_voltage w').
Proof.
  intros H H' Hlt. apply near_below with 10000%positive 1 (raw w) (raw w'); auto using raw_lt; try lia.
  all: rewrite <- one_mul; now apply voltage_near.
Qed.
Lemma power_mono w w' : byte_word w -> byte_word w' -> raw w < raw w' -> below (decode_optical_power w) (decode_optical_power w').
Proof.
  intros H H' Hlt. apply near_below with 10000%positive 1 (raw w) (raw w'); auto using raw_lt; try lia.
  all: rewrite <- one_mul; now apply power_near.
Qed.
Lemma bias_mono w w' : byte_word w -> byte_word w' -> raw w < raw w' -> below (decode_bias_current w) (decode_bias_current w').
Proof.
  intros H H' Hlt. apply near_below with 500%positive 1 (raw w) (raw w'); auto using raw_lt; try lia.
  all: rewrite <- one_mul; now apply bias_near.
Qed.
Lemma tec_mono w w' : byte_word w -> byte_word w' -> raw w < raw w' -> below (decode_tec w) (decode_tec w').
Proof.
  intros H H' Hlt. apply near_below with 32767%positive 1 (raw w) (raw w'); auto using raw_lt; try lia.
  all: rewrite <- one_mul; now apply tec_near.
Qed.
Lemma bias_scaled_mono w w' k : byte_word w -> byte_word w' -> k = 1 \/ k = 2 \/ k = 4 -> raw w < raw w' ->
  below (f32_mul (decode_bias_current w) (f32_of_Z (Z.of_N k))) (f32_mul (decode_bias_current w') (f32_of_Z (Z.of_N k))).
Proof.
  intros H H' Hk Hlt. apply near_below with 500%positive k (raw w) (raw w'); auto using raw_lt; try lia.
  all: now apply bias_scaled_near.
Qed.

(** Two roundings: 3 counts of 100 microvolts do not give the [f32] nearest to 0.0003. *)
Lemma voltage_not_nearest : ~ nearest (decode_supply_voltage (0, 3)) (3 # 10000).
Proof.
  intros (v & Ev & H). vm_compute in Ev. injection Ev as <-.
  specialize (H (S754_finite false 10307922 (-35)) (10307922 # 34359738368)%Q eq_refl eq_refl).
  apply Qle_bool_iff in H. vm_compute in H. discriminate.
Qed.
(** The current of a thermoelectric cooler is signed in CMIS; the code reads it unsigned. *)
Lemma tec_never_negative w : byte_word w -> exists v, f32_value (decode_tec w) = Some v /\ (0 <= v)%Q.
Proof.
  intros H. destruct (tec_near w H) as (v & Ev & L & _). exists v. split; [exact Ev|].
  eapply Qle_trans; [|exact L]. unfold Qle, Qminus, Qplus, Qmult, Qopp. cbn [Qnum Qden]. lia.
Qed.
