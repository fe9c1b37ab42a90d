(** Model of decode/src/monitors.rs and of [decode_with_scale] (decode/src/utils.rs:19-46).

    [f32] is IEEE-754 binary32 with round to nearest even, as defined by the standard library's
    [Coq.Floats.SpecFloat] with 24 bits of precision and maximal exponent 128. *)
From Coq Require Import SpecFloat.
From Verif Require Export DecodeVendor DecodeMemory.

Definition f32 := spec_float.
Definition f32_of_Z (z : Z) : f32 := binary_normalize 24 128 z 0 false.
Definition f32_mul : f32 -> f32 -> f32 := SFmul 24 128.
Definition f32_div : f32 -> f32 -> f32 := SFdiv 24 128.
(** A decimal literal [m / d]: the nearest [f32].  Both arguments are below 2^24, so they are exact
    and the division rounds once. *)
Definition f32_lit (m d : Z) : f32 := f32_div (f32_of_Z m) (f32_of_Z d).

(** decode/src/monitors.rs:211-229 *)
Definition TX_BIAS_CURRENT_RESOLUTION : f32 := f32_lit 2 1000000.
Definition TEMP_RESOLUTION : f32 := f32_div (f32_of_Z 1) (f32_of_Z 256).
Definition SUPPLY_VOLTAGE_RESOLUTION : f32 := f32_lit 100 1000000.
Definition OPTICAL_POWER_RESOLUTION : f32 := f32_lit 1 10000000.
Definition WATT_TO_MW : f32 := f32_of_Z 1000.
Definition AMP_TO_MA : f32 := f32_of_Z 1000.

(** [[u8; 2]] *)
Definition word := (N * N)%type.
(** [u16::from_be_bytes], [i16::from_be_bytes] *)
Definition u16_be (w : word) : N := 256 * fst w + snd w.
Definition i16_be (w : word) : Z :=
  let u := Z.of_N (u16_be w) in if Z.ltb u 32768 then u else (u - 65536)%Z.
Definition f32_of_u16 (n : N) : f32 := f32_of_Z (Z.of_N n).

(** decode/src/monitors.rs:231-233 *)
Definition absurd (w : word) : bool :=
  ((fst w =? 0) && (snd w =? 0)) || ((fst w =? 0xff) && (snd w =? 0xff)).
(** decode/src/monitors.rs:246-248 with decode/src/utils.rs:44-46 at [i16] *)
Definition decode_temperature (w : word) : f32 := f32_mul (f32_of_Z (i16_be w)) TEMP_RESOLUTION.
(** decode/src/monitors.rs:261-264 *)
Definition decode_supply_voltage (w : word) : f32 :=
  f32_mul (f32_of_u16 (u16_be w)) SUPPLY_VOLTAGE_RESOLUTION.
(** decode/src/monitors.rs:238-244, 253-259 *)
Definition decode_temperature_if_reasonable (w : word) : option f32 :=
  if absurd w then None else Some (decode_temperature w).
Definition decode_voltage_if_reasonable (w : word) : option f32 :=
  if absurd w then None else Some (decode_supply_voltage w).
(** decode/src/monitors.rs:266-269 *)
Definition decode_optical_power (w : word) : f32 :=
  f32_mul (f32_mul (f32_of_u16 (u16_be w)) OPTICAL_POWER_RESOLUTION) WATT_TO_MW.
(** decode/src/monitors.rs:271-274 *)
Definition decode_bias_current (w : word) : f32 :=
  f32_mul (f32_mul (f32_of_u16 (u16_be w)) TX_BIAS_CURRENT_RESOLUTION) AMP_TO_MA.

(** decode/src/monitors.rs:99-105, 152-208 *)
Inductive ReceiverPower := Average (x : f32) | PeakToPeak (x : f32).
Inductive Aux1Monitor := Aux1Custom (w : word) | Aux1TecCurrent (x : f32).
Inductive Aux2Monitor := Aux2LaserTemperature (x : f32) | Aux2TecCurrent (x : f32).
Inductive Aux3Monitor := Aux3LaserTemperature (x : f32) | Aux3AdditionalSupplyVoltage (x : f32).

(** decode/src/monitors.rs:276-300 *)
Definition decode_tec (w : word) : f32 := f32_div (f32_of_u16 (u16_be w)) (f32_of_Z 32767).
Definition decode_aux1 (w : word) (is_tec : bool) : Aux1Monitor :=
  if is_tec then Aux1TecCurrent (decode_tec w) else Aux1Custom w.
Definition decode_aux2 (w : word) (is_tec : bool) : Aux2Monitor :=
  if is_tec then Aux2TecCurrent (decode_tec w) else Aux2LaserTemperature (decode_temperature w).
Definition decode_aux3 (w : word) (is_vcc2 : bool) : Aux3Monitor :=
  if is_vcc2 then Aux3AdditionalSupplyVoltage (decode_supply_voltage w)
  else Aux3LaserTemperature (decode_temperature w).

(** decode/src/monitors.rs:124-150, 26-74 *)
Record AuxMonitors := mkAux
  { am_aux1 : option Aux1Monitor; am_aux2 : option Aux2Monitor; am_aux3 : option Aux3Monitor;
    am_custom : option word }.
Record Monitors := mkMonitors
  { mo_temperature : option f32; mo_supply_voltage : option f32;
    mo_receiver_power : option (list ReceiverPower); mo_bias_current : option (list f32);
    mo_transmitter_power : option (list f32); mo_aux : option AuxMonitors }.

(** decode/src/monitors.rs:303-435 *)
Definition monitor_reads (id : Identifier) : outcome DecodeError (list MemoryRead) :=
  if is_sff id then
    status <-? ounwrap (read_new (PageSff SffLower) 1 1) ;;
    p <-? ounwrap (sff_upper_new 0) ;;
    support <-? ounwrap (read_new (PageSff p) 220 1) ;;
    module_wide <-? ounwrap (read_new (PageSff SffLower) 22 6) ;;
    per_lane <-? omapM (fun i => ounwrap (read_new (PageSff SffLower) (34 + 8 * i) 8)) (nrange 0 3) ;;
    Ok ([status; support; module_wide] ++ per_lane)
  else if is_cmis id then
    p <-? ounwrap (cmis_new_unbanked 1) ;;
    support <-? ounwrap (read_new (PageCmis (CmisUpper p)) 159 2) ;;
    measured_values <-? ounwrap (read_new (PageCmis (CmisUpper p)) 145 7) ;;
    main_module_wide <-? ounwrap (read_new (PageCmis CmisLower) 14 4) ;;
    aux_monitors <-? ounwrap (read_new (PageCmis CmisLower) 18 8) ;;
    q <-? ounwrap (cmis_new_banked 0x11 0) ;;
    per_lane <-? omapM (fun start => ounwrap (read_new (PageCmis (CmisUpper q)) start 8))
                       (step_by 154 (154 + 8 * 2 * 3) 8) ;;
    Ok ([support; measured_values; main_module_wide; aux_monitors] ++ per_lane)
  else Err (DeUnsupportedIdentifier id).

(** [reads.next().ok_or(Error::ParseFailed)?] for the [k]th read: reads are consumed in order and
    none is skipped. *)
Definition nth_read (reads : list (list N)) (k : nat) : outcome DecodeError (list N) :=
  match nth_error reads k with Some r => Ok r | None => Err DeParseFailed end.
(** [.get(k).ok_or(Error::ParseFailed)?] *)
Definition nth_byte (l : list N) (k : nat) : outcome DecodeError N :=
  match nth_error l k with Some b => Ok b | None => Err DeParseFailed end.
(** [[l[k], l[k + 1]]]: panics when out of range. *)
Definition word_at (l : list N) (k : nat) : outcome DecodeError word :=
  match nth_error l k, nth_error l (S k) with Some a, Some b => Ok (a, b) | _, _ => Panic end.
(** [.chunks_exact(2).map(|c| [c[0], c[1]])] *)
Fixpoint words (l : list N) : list word :=
  match l with a :: b :: r => (a, b) :: words r | _ => [] end.
(** [if supported { Some(f(..)) } else { None }] *)
Definition when {A} (supported : bool) (x : outcome DecodeError A) : outcome DecodeError (option A) :=
  if supported then omap Some x else Ok None.

Definition rx_power (is_average : bool) (w : word) : ReceiverPower :=
  if is_average then Average (decode_optical_power w) else PeakToPeak (decode_optical_power w).

(** decode/src/monitors.rs:439-542 *)
Definition sff_monitors (reads : list (list N)) : outcome DecodeError Monitors :=
  status <-? (l <-? nth_read reads 0 ;; nth_byte l 0) ;;
  let is_pre_rev2p8 := status <? 0x08 in
  byte <-? (l <-? nth_read reads 1 ;; nth_byte l 0) ;;
  let temp_supported := negb (N.land byte 32 =? 0) in
  let supply_voltage_supported := negb (N.land byte 16 =? 0) in
  let rx_power_is_average := negb (N.land byte 8 =? 0) in
  let tx_power_supported := negb (N.land byte 4 =? 0) in
  module_wide <-? nth_read reads 2 ;;
  temperature <-?
    (if is_pre_rev2p8 then omap decode_temperature_if_reasonable (word_at module_wide 0)
     else when temp_supported (omap decode_temperature (word_at module_wide 0))) ;;
  supply_voltage <-?
    (if is_pre_rev2p8 then omap decode_voltage_if_reasonable (word_at module_wide 4)
     else when supply_voltage_supported (omap decode_supply_voltage (word_at module_wide 4))) ;;
  rx <-? nth_read reads 3 ;;
  let receiver_power := Some (map (rx_power rx_power_is_average) (words rx)) in
  tx_bias <-? nth_read reads 4 ;;
  tx_power <-? nth_read reads 5 ;;
  Ok (mkMonitors temperature supply_voltage receiver_power
        (if tx_power_supported then Some (map decode_bias_current (words tx_bias)) else None)
        (if tx_power_supported then Some (map decode_optical_power (words tx_power)) else None)
        None).

(** decode/src/monitors.rs:543-694 *)
Definition cmis_monitors (reads : list (list N)) : outcome DecodeError Monitors :=
  support <-? nth_read reads 0 ;;
  byte <-? nth_byte support 0 ;;
  let custom_supported := negb (N.land byte 32 =? 0) in
  let aux3_supported := negb (N.land byte 16 =? 0) in
  let aux2_supported := negb (N.land byte 8 =? 0) in
  let aux1_supported := negb (N.land byte 4 =? 0) in
  let any_aux_supported := negb (N.land byte 31 =? 0) in
  let voltage_supported := negb (N.land byte 2 =? 0) in
  let temp_supported := negb (N.land byte 1 =? 0) in
  byte1 <-? nth_byte support 1 ;;
  tx_bias_scale <-? (match N.land (N.shiftr byte1 3) 3 with
                     | 0 => Ok (f32_of_Z 1) | 1 => Ok (f32_of_Z 2) | 2 => Ok (f32_of_Z 4)
                     | _ => Panic
                     end) ;;
  let rx_power_supported := negb (N.land byte1 4 =? 0) in
  let tx_power_supported := negb (N.land byte1 2 =? 0) in
  let tx_bias_supported := negb (N.land byte1 1 =? 0) in
  description <-? nth_read reads 1 ;;
  observable <-? nth_byte description 0 ;;
  let aux3_is_vcc2 := negb (N.land observable 4 =? 0) in
  let aux2_is_tec := negb (N.land observable 2 =? 0) in
  let aux1_is_tec := negb (N.land observable 1 =? 0) in
  rx_type <-? nth_byte description 6 ;;
  let rx_power_is_average := negb (N.land rx_type 16 =? 0) in
  module_wide <-? nth_read reads 2 ;;
  temperature <-? when temp_supported (omap decode_temperature (word_at module_wide 0)) ;;
  supply_voltage <-? when voltage_supported (omap decode_supply_voltage (word_at module_wide 2)) ;;
  aux <-? nth_read reads 3 ;;
  aux1 <-? when aux1_supported (omap (fun w => decode_aux1 w aux1_is_tec) (word_at aux 0)) ;;
  aux2 <-? when aux2_supported (omap (fun w => decode_aux2 w aux2_is_tec) (word_at aux 2)) ;;
  aux3 <-? when aux3_supported (omap (fun w => decode_aux3 w aux3_is_vcc2) (word_at aux 4)) ;;
  custom <-? when custom_supported (word_at aux 6) ;;
  let aux_monitors := if any_aux_supported then Some (mkAux aux1 aux2 aux3 custom) else None in
  tx_power1 <-? nth_read reads 4 ;;
  tx_power2 <-? nth_read reads 5 ;;
  tx_bias1 <-? nth_read reads 6 ;;
  tx_bias2 <-? nth_read reads 7 ;;
  rx_power1 <-? nth_read reads 8 ;;
  rx_power2 <-? nth_read reads 9 ;;
  Ok (mkMonitors temperature supply_voltage
        (if rx_power_supported
         then Some (map (rx_power rx_power_is_average) (words (rx_power1 ++ rx_power2))) else None)
        (if tx_bias_supported
         then Some (map (fun w => f32_mul (decode_bias_current w) tx_bias_scale)
                        (words (tx_bias1 ++ tx_bias2))) else None)
        (if tx_power_supported
         then Some (map decode_optical_power (words (tx_power1 ++ tx_power2))) else None)
        aux_monitors).

(** decode/src/monitors.rs:437-698 *)
Definition monitor_parse (id : Identifier) (reads : list (list N)) : outcome DecodeError Monitors :=
  if is_sff id then sff_monitors reads
  else if is_cmis id then cmis_monitors reads
  else Err (DeUnsupportedIdentifier id).
