(** Model of the textual form of [Status] and [ExtendedStatus]: messages/src/message.rs:788-799
    and 945-949, 959-965, which delegate to the [bitflags] crate (2.x) parser module:
    [to_writer] prints the names of the flags that are set in declaration order, then any other
    bits as one hex literal, joined by " | "; [from_str] splits on '|', trims, and looks each name
    up (hex literals "0x.." are accepted and their bits all kept, an empty piece is an error). *)
From Coq Require Import String.
From Verif Require Export Message Text.
Import ListNotations.

(** messages/src/message.rs:733-784 and 886-943, in declaration order. *)
Definition status_flags : list (text * N) :=
  [ (T "PRESENT", ST_PRESENT); (T "ENABLED", ST_ENABLED); (T "RESET", ST_RESET);
    (T "LOW_POWER_MODE", ST_LOW_POWER_MODE); (T "INTERRUPT", ST_INTERRUPT);
    (T "POWER_GOOD", ST_POWER_GOOD); (T "FAULT_POWER_TIMEOUT", ST_FAULT_POWER_TIMEOUT);
    (T "FAULT_POWER_LOST", ST_FAULT_POWER_LOST) ].
Definition ext_status_flags : list (text * N) :=
  status_flags ++ [ (T "DISABLED_BY_SP", ST_DISABLED_BY_SP) ].

(** bitflags [parser::to_writer]; at most 32 bits are left without a name. *)
Definition flags_print (flags : list (text * N)) (v : N) : text :=
  let named := filter (fun f => st_contains v (snd f)) flags in
  let rest := fold_left (fun r f => N.ldiff r (snd f)) named v in
  join (T " | ") (map fst named ++ (if rest =? 0 then [] else [T "0x" ++ show_hex 8 rest])).

Fixpoint flag_lookup (flags : list (text * N)) (s : text) : option N :=
  match flags with
  | [] => None
  | (n, v) :: r => if text_eqb n s then Some v else flag_lookup r s
  end.

(** bitflags [parser::from_str]; [max] is the largest number of the type of the bits. *)
Definition flags_parse_piece (max : N) (flags : list (text * N)) (s : text) : option N :=
  match trim s with
  | [] => None
  | t => match strip_prefix (T "0x") t with
         | Some h => from_str_radix 16 max h
         | None => flag_lookup flags t
         end
  end.
Fixpoint flags_parse_pieces (max : N) (flags : list (text * N)) (l : list text) : option N :=
  match l with
  | [] => Some 0
  | p :: r => match flags_parse_piece max flags p, flags_parse_pieces max flags r with
              | Some a, Some b => Some (N.lor a b)
              | _, _ => None
              end
  end.
Definition flags_parse (max : N) (flags : list (text * N)) (s : text) : option N :=
  match trim s with
  | [] => Some 0
  | _ => flags_parse_pieces max flags (split_on 124 s)
  end.

Definition status_display := flags_print status_flags.
Definition status_from_str := flags_parse (2 ^ 8 - 1) status_flags.
Definition ext_status_display := flags_print ext_status_flags.
Definition ext_status_from_str := flags_parse (2 ^ 32 - 1) ext_status_flags.
