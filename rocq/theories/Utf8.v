(** Model of [std::str::from_utf8] (core::str::validations::run_utf8_validation): bytes to Unicode
    scalar values.  No proofs here. *)
From Verif Require Export Text.

Definition is_cont (b : N) : bool := (0x80 <=? b) && (b <=? 0xBF).
(** The first character of a byte string and the remaining bytes; [None] when the bytes do not start
    with a complete, shortest-form character that is not a surrogate. *)
Definition utf8_step (l : list N) : option (N * list N) :=
  match l with
  | [] => None
  | a :: r =>
      if a <? 0x80 then Some (a, r)
      else if (0xC2 <=? a) && (a <=? 0xDF) then
        match r with
        | b :: r => if is_cont b then Some ((a - 0xC0) * 64 + (b - 0x80), r) else None
        | [] => None
        end
      else if (0xE0 <=? a) && (a <=? 0xEF) then
        match r with
        | b :: c :: r =>
            if ((if a =? 0xE0 then 0xA0 else 0x80) <=? b) && (b <=? (if a =? 0xED then 0x9F else 0xBF))
               && is_cont c
            then Some (((a - 0xE0) * 64 + (b - 0x80)) * 64 + (c - 0x80), r) else None
        | _ => None
        end
      else if (0xF0 <=? a) && (a <=? 0xF4) then
        match r with
        | b :: c :: d :: r =>
            if ((if a =? 0xF0 then 0x90 else 0x80) <=? b) && (b <=? (if a =? 0xF4 then 0x8F else 0xBF))
               && is_cont c && is_cont d
            then Some ((((a - 0xF0) * 64 + (b - 0x80)) * 64 + (c - 0x80)) * 64 + (d - 0x80), r)
            else None
        | _ => None
        end
      else None
  end.

(** The text of the longest valid prefix ([Utf8Error::valid_up_to]) and the rest. *)
Fixpoint utf8_prefix (fuel : nat) (l : list N) : text * list N :=
  match fuel with
  | O => ([], l)
  | S k => match utf8_step l with
           | None => ([], l)
           | Some (c, r) => let (t, rest) := utf8_prefix k r in (c :: t, rest)
           end
  end.
Definition utf8_valid_prefix (l : list N) : text * list N := utf8_prefix (length l) l.
(** [std::str::from_utf8(..).ok()] *)
Definition from_utf8 (l : list N) : option text :=
  match utf8_valid_prefix l with (t, []) => Some t | _ => None end.
