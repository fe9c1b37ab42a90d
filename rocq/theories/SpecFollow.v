(** Specification vocabulary for runs of the tool that follow each other (C103). *)
From Coq Require Import String.
From Verif Require Export SpecTool SpecTable.
Import ListNotations.
Open Scope N_scope.

(** The printed lines have a row for port [i], and every row for it is as [good] says. *)
Definition shows_row (i : N) (good : text -> Prop) (scr : screen) : Prop :=
  (exists row, In (Line row) (sc_out scr) /\ firstn 4 row = port_shown i) /\
  forall row, In (Line row) (sc_out scr) -> firstn 4 row = port_shown i -> good row.
(** The command prints a table for people. *)
Definition plain_table (c : Cmd) : Prop :=
  match c with
  | CLeds args => pa_parseable args = false
  | CPower args => pa_parseable args = false
  | CRead _ _ _ _ args => pa_parseable args = false
  | _ => True
  end.
(** What the first command set in port [i], the second shows. *)
Definition then_shown (set get : Cmd) (i : N) (scr : screen) : Prop :=
  match set, get with
  | CSetLeds s, CLeds _ => shows_row i (fun row => cells [5%nat] row = [port_shown i; led_word s]) scr
  | CSetPower st, CPower _ =>
      shows_row i (fun row => exists o, cells [6%nat; 13%nat] row = [port_shown i; power_name st; override_word o]) scr
  | CWrite page input offset, CRead page' binary from len _ =>
      forall d, args_data input = Ok d -> bytes d = true -> page' = page ->
        1 <= len -> offset <= from -> from + len <= offset + Nlen d ->
        shows_row i (fun row => row = read_line binary i (firstn (N.to_nat len) (skipn (N.to_nat (from - offset)) d))) scr
  | _, _ => True
  end.
