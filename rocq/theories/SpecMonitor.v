(** Specification vocabulary for the printed monitors (C66). *)
From Coq Require Import SpecFloat String.
From Verif Require Export SpecTable CliMonitors.
Import ListNotations.
Open Scope N_scope.

(** The number [n / 10000] in decimal. *)
Definition decimal4 (n : N) : text := number_shown (n / 10000) ++ T "." ++ pad 4 (number_shown (n mod 10000)).
(** A list of numbers of ten-thousandths. *)
Definition decimals (l : list N) : text := join [44] (map decimal4 l).

(** What is shown about one module: a text for each monitor it has; receiver power with whether it is an
    average, auxiliary monitors with what they measure. *)
Record readout := mkReadout
  { ro_temperature : option text; ro_voltage : option text; ro_rx : option (bool * text);
    ro_bias : option text; ro_tx : option text;
    ro_aux1 : option (text * text); ro_aux2 : option (text * text); ro_aux3 : option (text * text) }.

(** ** The readout of a memory *)
(** The standards' units: optical power 0.1 uW, bias current 2 uA times a scale, here in units of
    0.0001 mW and 0.0001 mA. *)
Definition powers_shown (ws : list word) : text := decimals (map raw ws).
(** With scale 4 the last digit may be off by one. *)
Definition bias_error (scale : N) : N := if scale =? 4 then 1 else 0.
Definition bias_shown (scale : N) (ws : list word) (t : text) : Prop :=
  exists l, t = decimals l /\
    Forall2 (fun w n => n <= 20 * scale * raw w + bias_error scale /\ 20 * scale * raw w <= n + bias_error scale) ws l.
Definition opt_shown (c : bool) (R : text -> Prop) (o : option text) : Prop :=
  if c then exists t, o = Some t /\ R t else o = None.
Definition word_shown (w : word) : text :=
  T "[0x" ++ hex_shown (fst w) ++ T ",0x" ++ hex_shown (snd w) ++ T "]".
Definition scale_of (mem : memory) : N := 2 ^ (mem (cmis_up 1) 160 / 8 mod 4).

Section Show.
  (** [show] is the text of an [f32]. *)
  Context (show : f32 -> text).
  (** SFF-8636: support bits at page 0 byte 220. *)
  Definition sff_readout (mem : memory) (o : readout) : Prop :=
    let old := mem sff_low 1 <? 8 in
    let s := mem (sff_up 0) 220 in
    let t := word_at_mem mem sff_low 22 in
    let v := word_at_mem mem sff_low 26 in
    ro_temperature o = shown (if old then negb (implausible t) else N.testbit s 5) (show (decode_temperature t)) /\
    ro_voltage o = shown (if old then negb (implausible v) else N.testbit s 4) (show (decode_supply_voltage v)) /\
    ro_rx o = Some (N.testbit s 3, powers_shown (words_at_mem mem sff_low 34 4)) /\
    opt_shown (N.testbit s 2) (bias_shown 1 (words_at_mem mem sff_low 42 4)) (ro_bias o) /\
    ro_tx o = shown (N.testbit s 2) (powers_shown (words_at_mem mem sff_low 50 4)) /\
    ro_aux1 o = None /\ ro_aux2 o = None /\ ro_aux3 o = None.
  (** CMIS: support bits at page 1 bytes 159-160. *)
  Definition cmis_readout (mem : memory) (o : readout) : Prop :=
    let s := mem (cmis_up 1) 159 in
    let l := mem (cmis_up 1) 160 in
    let k := mem (cmis_up 1) 145 in
    ro_temperature o = shown (N.testbit s 0) (show (decode_temperature (word_at_mem mem cmis_low 14))) /\
    ro_voltage o = shown (N.testbit s 1) (show (decode_supply_voltage (word_at_mem mem cmis_low 16))) /\
    ro_rx o = shown (N.testbit l 2) (N.testbit (mem (cmis_up 1) 151) 4, powers_shown (words_at_mem mem p11 186 8)) /\
    opt_shown (N.testbit l 0) (bias_shown (scale_of mem) (words_at_mem mem p11 170 8)) (ro_bias o) /\
    ro_tx o = shown (N.testbit l 1) (powers_shown (words_at_mem mem p11 154 8)) /\
    ro_aux1 o = shown (N.testbit s 2)
      (let w := word_at_mem mem cmis_low 18 in
       if N.testbit k 0 then (T "TEC current (mA)", show (decode_tec w)) else (T "Custom", word_shown w)) /\
    ro_aux2 o = shown (N.testbit s 3)
      (let w := word_at_mem mem cmis_low 20 in
       if N.testbit k 1 then (T "TEC current (mA)", show (decode_tec w)) else (T "Laser temp (C)", show (decode_temperature w))) /\
    ro_aux3 o = shown (N.testbit s 4)
      (let w := word_at_mem mem cmis_low 22 in
       if N.testbit k 2 then (T "Supply voltage 2 (V)", show (decode_supply_voltage w))
       else (T "Laser temp (C)", show (decode_temperature w))).
  Definition readout_of (mem : memory) (o : readout) : Prop :=
    if sff_kind (kind_of mem) then sff_readout mem o else cmis_readout mem o.
End Show.

(** ** How it is shown *)
Definition in_brackets (t : text) : text := T "[" ++ t ++ T "]".
Definition or_dashes (o : option text) : text := match o with Some t => t | None => T "--" end.
Definition aux_entry (name : text) (o : option (text * text)) : text * text :=
  match o with Some (n, t) => (name ++ T ", " ++ n, t) | None => (name, T "--") end.
Definition entries (o : readout) : list (text * text) :=
  [(T "Temperature (C)", or_dashes (ro_temperature o));
   (T "Supply voltage (V)", or_dashes (ro_voltage o));
   match ro_rx o with
   | Some (avg, t) => (if avg then T "Avg Rx power (mW)" else T "P-P Rx power (mW)", in_brackets t)
   | None => (T "Rx power (mW)", T "--")
   end;
   (T "Tx bias (mA)", or_dashes (option_map in_brackets (ro_bias o)));
   (T "Tx power (mW)", or_dashes (option_map in_brackets (ro_tx o)));
   aux_entry (T "Aux 1") (ro_aux1 o); aux_entry (T "Aux 2") (ro_aux2 o); aux_entry (T "Aux 3") (ro_aux3 o)].
(** Reading a line: blanks, a name, a colon, a blank, the value. *)
Fixpoint unindent (l : text) : text := match l with 32 :: r => unindent r | _ => l end.
Fixpoint entry_from (l : text) : option (text * text) :=
  match l with
  | [] => None
  | c :: r => if c =? 58 then match r with 32 :: v => Some ([], v) | _ => None end
              else match entry_from r with Some (n, v) => Some (c :: n, v) | None => None end
  end.
Definition entry_of (l : text) : option (text * text) := entry_from (unindent l).
(** The lines about one module: the port, then one line for each entry. *)
Definition block_of (p : N * readout) (b : list text) : Prop :=
  exists ls, b = (T "Port " ++ number_shown (fst p)) :: ls /\ map entry_of ls = map Some (entries (snd p)).
(** Blocks with an empty line between them. *)
Fixpoint spaced (bs : list (list text)) : list text :=
  match bs with [] => [] | [b] => b | b :: r => b ++ [] :: spaced r end.

Definition field_of (o : option text) : text := match o with Some t => t | None => [] end.
Definition readout_value (i : N) (o : readout) (f : MonitorFields) : text :=
  match f with
  | FMonPort => number_shown i
  | FMonTemperature => field_of (ro_temperature o)
  | FMonSupplyVoltage => field_of (ro_voltage o)
  | FMonAverageRxPower => field_of (option_map snd (ro_rx o))
  | FMonTxBias => field_of (ro_bias o)
  | FMonTxPower => field_of (ro_tx o)
  | FMonAux1 => field_of (option_map snd (ro_aux1 o))
  | FMonAux2 => field_of (option_map snd (ro_aux2 o))
  | FMonAux3 => field_of (option_map snd (ro_aux3 o))
  end.
