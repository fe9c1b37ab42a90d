(** Model of the monitors printed by controller/src/bin/xcvradm.rs (1934-2146).  Standard output is a
    list of lines.  [{}] of an [f32] (the shortest decimal that reads back as the same number) is
    the parameter [show_f32]; [{:.4}] is modelled. *)
From Coq Require Import SpecFloat String.
From Verif Require Export CliTables DecodeMonitors.
Import ListNotations.

(** [{:.4}] of an [f32]: the exact value times 10000, rounded to the nearest integer, ties to even. *)
Definition round_even (n d : N) : N :=
  let q := n / d in
  match 2 * (n mod d) ?= d with Lt => q | Gt => q + 1 | Eq => if N.even q then q else q + 1 end.
Definition sign_text (s : bool) : text := if s then T "-" else [].
(** [n / 10000] *)
Definition dec4 (n : N) : text :=
  let f := n mod 10000 in
  show_dec 40 (n / 10000) ++ T "." ++ [48 + f / 1000; 48 + f / 100 mod 10; 48 + f / 10 mod 10; 48 + f mod 10].
Definition fixed4 (x : f32) : text :=
  match x with
  | S754_nan => T "NaN"
  | S754_infinity s => sign_text s ++ T "inf"
  | S754_zero s => sign_text s ++ dec4 0
  | S754_finite s m e =>
      let n := N.pos m * 10000 in
      sign_text s ++ dec4 (if Z.leb 0 e then n * 2 ^ Z.to_N e else round_even n (2 ^ Z.to_N (- e)))
  end.

(** controller/src/bin/xcvradm.rs:1934-1939 *)
Definition display_list (l : list f32) : text := join [44] (map fixed4 l).
(** decode/src/monitors.rs:107-115 *)
Definition rx_value (x : ReceiverPower) : f32 := match x with Average v => v | PeakToPeak v => v end.

(** controller/src/bin/xcvradm.rs:836-855 *)
Inductive MonitorFields :=
| FMonPort | FMonTemperature | FMonSupplyVoltage | FMonAverageRxPower | FMonTxBias | FMonTxPower
| FMonAux1 | FMonAux2 | FMonAux3.
Definition monitor_field_name (f : MonitorFields) : text :=
  match f with
  | FMonPort => T "port" | FMonTemperature => T "temperature" | FMonSupplyVoltage => T "supply-voltage"
  | FMonAverageRxPower => T "average-rx-power" | FMonTxBias => T "tx-bias" | FMonTxPower => T "tx-power"
  | FMonAux1 => T "aux1" | FMonAux2 => T "aux2" | FMonAux3 => T "aux3"
  end.

Section Show.
  Context (show_f32 : f32 -> text).

  (** controller/src/bin/xcvradm.rs:2110-2122 *)
  Definition aux1_monitor_value (m : option Aux1Monitor) : text * option text :=
    match m with
    | Some (Aux1TecCurrent c) => (T "Aux 1, TEC current (mA)", Some (show_f32 c))
    | Some (Aux1Custom (a, b)) =>
        (T "Aux 1, Custom", Some (T "[0x" ++ hex02 a ++ T ",0x" ++ hex02 b ++ T "]"))
    | None => (T "Aux 1", None)
    end.
  (** controller/src/bin/xcvradm.rs:2124-2133 *)
  Definition aux2_monitor_value (m : option Aux2Monitor) : text * option text :=
    match m with
    | Some (Aux2TecCurrent c) => (T "Aux 2, TEC current (mA)", Some (show_f32 c))
    | Some (Aux2LaserTemperature t) => (T "Aux 2, Laser temp (C)", Some (show_f32 t))
    | None => (T "Aux 2", None)
    end.
  (** controller/src/bin/xcvradm.rs:2135-2146 *)
  Definition aux3_monitor_value (m : option Aux3Monitor) : text * option text :=
    match m with
    | Some (Aux3LaserTemperature t) => (T "Aux 3, Laser temp (C)", Some (show_f32 t))
    | Some (Aux3AdditionalSupplyVoltage v) => (T "Aux 3, Supply voltage 2 (V)", Some (show_f32 v))
    | None => (T "Aux 3", None)
    end.
  (** [monitor.aux_monitors.and_then(..)] *)
  Definition aux {A} (f : AuxMonitors -> option A) (x : Monitors) : option A :=
    match mo_aux x with Some a => f a | None => None end.

  Definition NAME_WIDTH : nat := 22.
  (** [println!("  {:>NAME_WIDTH$}: {}", ..)]; [None] is "--". *)
  Definition monitor_line (name : text) (value : option text) : text :=
    T "  " ++ align_right NAME_WIDTH name ++ T ": " ++ match value with Some v => v | None => T "--" end.
  Definition bracketed (l : list f32) : text := T "[" ++ display_list l ++ T "]".
  (** controller/src/bin/xcvradm.rs:1956-2039: one port; [rx_pow[0]] panics when there is no lane. *)
  Definition monitor_block (port : N) (x : Monitors) : outcome unit (list text) :=
    rx <-? match mo_receiver_power x with
           | Some [] => Panic
           | Some (p :: l) =>
               Ok (monitor_line (match p with Average _ => T "Avg Rx power (mW)" | PeakToPeak _ => T "P-P Rx power (mW)" end)
                     (Some (bracketed (map rx_value (p :: l)))))
           | None => Ok (monitor_line (T "Rx power (mW)") None)
           end ;;
    let a1 := aux1_monitor_value (aux am_aux1 x) in
    let a2 := aux2_monitor_value (aux am_aux2 x) in
    let a3 := aux3_monitor_value (aux am_aux3 x) in
    Ok [T "Port " ++ show_u8 port;
        monitor_line (T "Temperature (C)") (option_map show_f32 (mo_temperature x));
        monitor_line (T "Supply voltage (V)") (option_map show_f32 (mo_supply_voltage x));
        rx;
        monitor_line (T "Tx bias (mA)") (option_map bracketed (mo_bias_current x));
        monitor_line (T "Tx power (mW)") (option_map bracketed (mo_transmitter_power x));
        monitor_line (fst a1) (snd a1);
        monitor_line (fst a2) (snd a2);
        monitor_line (fst a3) (snd a3)].
  (** The loop of lines 1954-2043 with its flag [need_newline]. *)
  Fixpoint monitor_blocks (need_newline : bool) (items : list (N * Monitors)) : outcome unit (list text) :=
    match items with
    | [] => Ok []
    | (port, x) :: r =>
        b <-? monitor_block port x ;;
        t <-? monitor_blocks true r ;;
        Ok ((if need_newline then [[]] else []) ++ b ++ t)
    end.
  (** controller/src/bin/xcvradm.rs:2051-2099 *)
  Definition or_empty (o : option text) : text := match o with Some t => t | None => [] end.
  Definition monitor_field (port : N) (x : Monitors) (f : MonitorFields) : text :=
    match f with
    | FMonPort => show_u8 port
    | FMonTemperature => or_empty (option_map show_f32 (mo_temperature x))
    | FMonSupplyVoltage => or_empty (option_map show_f32 (mo_supply_voltage x))
    | FMonAverageRxPower => or_empty (option_map (fun l => display_list (map rx_value l)) (mo_receiver_power x))
    | FMonTxBias => or_empty (option_map display_list (mo_bias_current x))
    | FMonTxPower => or_empty (option_map display_list (mo_transmitter_power x))
    | FMonAux1 => or_empty (snd (aux1_monitor_value (aux am_aux1 x)))
    | FMonAux2 => or_empty (snd (aux2_monitor_value (aux am_aux2 x)))
    | FMonAux3 => or_empty (snd (aux3_monitor_value (aux am_aux3 x)))
    end.
  (** controller/src/bin/xcvradm.rs:1941-2108 *)
  Definition print_monitors (r : Result Monitors) (k : OutputKind MonitorFields) : outcome unit (list text) :=
    match k with
    | OutDefault _ => monitor_blocks false (result_iter r)
    | OutParseable h fs sep =>
        Ok ((if h then parseable_header monitor_field_name fs sep else []) ++
            match fs with
            | [] => []
            | _ => map (fun p => join sep (map (monitor_field (fst p) (snd p)) fs)) (result_iter r)
            end)
    end.
End Show.
