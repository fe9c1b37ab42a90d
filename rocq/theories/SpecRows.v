(** Specification vocabulary: the rows of the tables for people that xcvradm prints (C98). *)
From Coq Require Import String.
From Verif Require Export SpecTool.
From Verif Require Import SpecTable SpecCodes.
Import ListNotations.
Open Scope N_scope.

(** A module in port [i] whose power mode is [x], *)
Definition power_row (i : N) (x : PowerMode) : text :=
  port_shown i ++ T "  " ++ match pm_state x with PowerOff => T "Off  " | PowerLow => T "Low  " | PowerHigh => T "High " end ++ T "  " ++
  match pm_override x with None => T "-" | Some true => T "Yes" | Some false => T "No" end.
(** and whose LED is [l]. *)
Definition led_row (i : N) (l : LedState) : text :=
  port_shown i ++ T " " ++ match l with LedOff => T "Off" | LedOn => T "On" | LedBlink => T "Blink" end.
(** A module in port [i] that has [b] as its identifier: SFF-8024's name for it, but for 0x19, which the tool gives the name of a QSFP (C81). *)
Definition ident_row (i b : N) : text :=
  port_shown i ++ T " 0x" ++ hex_shown b ++ T "  " ++ (if b =? 0x19 then T "QSFP 8X Pluggable" else std_text std_identifiers b).
(** The line above the rows. *)
Definition heads (omit : bool) (title : text) : list text := if omit then [] else [title].

(** The same as [one_row_each] if a module may have any of several rows. *)
Definition one_row_of_each (show : TransceiverError -> text) (m : N) (head : list text) (row : N -> text -> Prop) (scr : screen) : Prop :=
  exists shown rows, StronglySorted N.lt shown /\ (forall i, In i shown -> member i m) /\
    (forall i, member i m -> In i shown \/ error_line show i scr) /\ Forall2 row shown rows /\ sc_out scr = lines (head ++ rows).
(** A module in port [i] with memory [mem]: its memory model, *)
Definition model_row (mem : memory) (i : N) (row : text) : Prop :=
  exists x, memory_model_of mem x /\ row = port_shown i ++ T " " ++ model_shown x.
(** and its vendor, in columns of 24, 16, 16, 4, 16 and 20 characters. *)
Definition filled (n : nat) (t : text) : text := t ++ repeat 32 (n - List.length t).
Definition vendor_columns (port ident name part rev serial date : text) : text :=
  port ++ T " " ++ filled 24 ident ++ T " " ++ filled 16 name ++ T " " ++ filled 16 part ++ T " " ++ filled 4 rev ++ T " " ++
  filled 16 serial ++ T " " ++ filled 20 date.
Definition vendor_row (mem : memory) (i : N) (row : text) : Prop :=
  exists v, vendor_says mem (vendor_at (kind_of mem)) v /\
    row = vendor_columns (port_shown i) (kind_word (kind_of mem)) (v_name v) (v_part v) (v_revision v) (v_serial v)
            (match v_date v with Some d => d | None => T "Unknown" end).
