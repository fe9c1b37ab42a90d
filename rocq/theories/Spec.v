(** Small specification vocabulary used in the statements of the property theorems.  It does not
    depend on the model's helper functions. *)
From Coq Require Export Sorted.
From Verif Require Export Base.

(** Port [i] belongs to the 64-bit mask [m]: the [i]-th binary digit of [m] is 1. *)
Definition member (i m : N) : Prop := (m / 2 ^ i) mod 2 = 1.

(** [l] lists exactly the elements satisfying [P], in strictly increasing order. *)
Definition enumerates (l : list N) (P : N -> Prop) : Prop :=
  StronglySorted N.lt l /\ forall i, In i l <-> P i.
