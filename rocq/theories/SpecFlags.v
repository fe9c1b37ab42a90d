(** Statement of C89: status flags as text. *)
From Coq Require Import String.
From Verif Require Export SpecCli StatusText SpecCmd.
Import ListNotations.
Open Scope N_scope.

(** The names of bits 0, 1, ... of a status. *)
Definition bit_names : list string :=
  ["PRESENT"; "ENABLED"; "RESET"; "LOW_POWER_MODE"; "INTERRUPT"; "POWER_GOOD"; "FAULT_POWER_TIMEOUT";
   "FAULT_POWER_LOST"; "DISABLED_BY_SP"]%string.
(** One of the first [n] names, for its bit; or a hexadecimal number below [2 ^ width], for its bits. *)
Definition flag_word (n : nat) (width : N) (s : text) (v : N) : Prop :=
  (exists k name, (k < n)%nat /\ nth_error bit_names k = Some name /\ s = T name /\ v = 2 ^ N.of_nat k) \/
  (v < 2 ^ width /\ exists r, (s = T "0x" ++ r \/ s = T "0x+" ++ r) /\ numeral 16 r v).
(** Nothing but blanks, for no flags; or words with bars between and blanks around, for the flags of all
    of them. *)
Definition flag_text (n : nat) (width : N) (s : text) (v : N) : Prop :=
  (white s /\ v = 0) \/
  exists parts vs, parts <> [] /\ s = join [124] parts /\
    Forall2 (fun t x => exists a u b, t = a ++ u ++ b /\ white a /\ white b /\ flag_word n width u x) parts vs /\
    forall i, member i v <-> exists x, In x vs /\ member i x.

(** How flags are shown: the names of the bits in order, then the bits without a name as one number. *)
Definition flags_shown (n : nat) (v : N) : text :=
  join (T " | ")
    (flat_map (fun k => if N.testbit v (N.of_nat k) then [T (nth k bit_names ""%string)] else []) (seq 0 n) ++
     (if v / 2 ^ N.of_nat n =? 0 then [] else [T "0x" ++ digits_of 8 16 (v / 2 ^ N.of_nat n * 2 ^ N.of_nat n)])).
