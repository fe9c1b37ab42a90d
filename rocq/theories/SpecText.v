(** Specification vocabulary for text forms. *)
From Verif Require Export CodeText.

(** [s] is a non-empty string of hexadecimal digits with value [v]. *)
Definition hex_val (s : text) (v : N) : Prop :=
  s <> [] /\ exists ds, Forall2 (fun c d => to_digit 16 c = Some d) s ds /\
       v = fold_left (fun acc d => acc * 16 + d) ds 0.
