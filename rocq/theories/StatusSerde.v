(** Model of the serde forms of [Status] and [ExtendedStatus] (messages/src/message.rs:801-863 and
    961-1013): a status is written as one number, and read from a number offered in the width the
    format prefers (binary formats the declared one, JSON u64). *)
From Verif Require Export Message.

(** bitflags [from_bits_truncate] *)
Definition status_truncate (v : N) : N := N.land v 0xff.
Definition ext_status_truncate (v : N) : N := N.land v 0x1ff.

Inductive width := W8 | W16 | W32 | W64.
Definition width_max (w : width) : N :=
  match w with W8 => 2 ^ 8 | W16 => 2 ^ 16 | W32 => 2 ^ 32 | W64 => 2 ^ 64 end.

(** messages/src/message.rs:801-808 *)
Definition status_serialize (s : N) : N := s.
(** messages/src/message.rs:810-854: [u8::try_from] for the wider ones. *)
Definition status_visit (w : width) (v : N) : option N :=
  match w with
  | W8 => status_from_bits v
  | W16 | W32 | W64 => if v <? 2 ^ 8 then Some (status_truncate v) else None
  end.
(** messages/src/message.rs:961-968 *)
Definition ext_status_serialize (s : N) : N := s.
(** messages/src/message.rs:970-1000; serde's default [visit_u8] and [visit_u16] call
    [visit_u64]. *)
Definition ext_status_visit (w : width) (v : N) : option N :=
  match w with
  | W32 => ext_status_from_bits v
  | W8 | W16 | W64 => if v <? 2 ^ 32 then Some (ext_status_truncate v) else None
  end.
