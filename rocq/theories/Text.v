(** Text: Rust strings as lists of Unicode scalar values, and the std parsing helpers the code
    uses.  No proofs here. *)
From Coq Require Import Ascii String.
From Verif Require Export Base.
Import ListNotations.

Definition text := list N.

(** An ASCII literal as text. *)
Fixpoint T (s : string) : text :=
  match s with
  | EmptyString => []
  | String a r => N_of_ascii a :: T r
  end.

Fixpoint text_eqb (a b : text) : bool :=
  match a, b with
  | [], [] => true
  | x :: a', y :: b' => (x =? y) && text_eqb a' b'
  | _, _ => false
  end.

(** [char::is_whitespace]: the Unicode White_Space property. *)
Definition is_whitespace (c : N) : bool :=
  ((9 <=? c) && (c <=? 13)) || (c =? 32) || (c =? 0x85) || (c =? 0xA0) || (c =? 0x1680)
  || ((0x2000 <=? c) && (c <=? 0x200A)) || (c =? 0x2028) || (c =? 0x2029) || (c =? 0x202F)
  || (c =? 0x205F) || (c =? 0x3000).

Fixpoint trim_start (s : text) : text :=
  match s with
  | c :: r => if is_whitespace c then trim_start r else s
  | [] => []
  end.
Definition trim_end (s : text) : text := rev (trim_start (rev s)).
(** [str::trim] *)
Definition trim (s : text) : text := trim_end (trim_start s).

(** [str::split(c)]: n separators give n+1 pieces. *)
Fixpoint split_on (c : N) (s : text) : list text :=
  match s with
  | [] => [[]]
  | x :: r => if x =? c then [] :: split_on c r
              else match split_on c r with
                   | p :: ps => (x :: p) :: ps
                   | [] => [[x]]
                   end
  end.

(** [str::split_whitespace]: the maximal non-whitespace runs. *)
Fixpoint split_ws_acc (cur : text) (s : text) : list text :=
  match s with
  | [] => match cur with [] => [] | _ => [rev cur] end
  | x :: r => if is_whitespace x
              then match cur with [] => split_ws_acc [] r | _ => rev cur :: split_ws_acc [] r end
              else split_ws_acc (x :: cur) r
  end.
Definition split_whitespace (s : text) : list text := split_ws_acc [] s.

(** [char::to_digit(radix)] for radix at most 36. *)
Definition to_digit (radix c : N) : option N :=
  let d := if (48 <=? c) && (c <=? 57) then Some (c - 48)
           else if (97 <=? c) && (c <=? 122) then Some (c - 97 + 10)
           else if (65 <=? c) && (c <=? 90) then Some (c - 65 + 10)
           else None in
  match d with
  | Some x => if x <? radix then Some x else None
  | None => None
  end.

(** The digit loop of [from_str_radix] for an unsigned type with maximum [max]. *)
Fixpoint parse_digits (radix max acc : N) (s : text) : option N :=
  match s with
  | [] => Some acc
  | c :: r => match to_digit radix c with
              | None => None
              | Some d => let acc' := acc * radix + d in
                          if max <? acc' then None else parse_digits radix max acc' r
              end
  end.

(** [u8::from_str_radix] and friends: empty is an error; one leading [+] is accepted; a sign
    alone is an error. *)
Definition from_str_radix (radix max : N) (s : text) : option N :=
  match s with
  | [] => None
  | [c] => if (c =? 43) || (c =? 45) then None else parse_digits radix max 0 s
  | c :: r => if c =? 43 then parse_digits radix max 0 r else parse_digits radix max 0 s
  end.
Definition parse_u8 (radix : N) (s : text) : option N := from_str_radix radix 255 s.

(** [str::strip_prefix] *)
Fixpoint strip_prefix (p s : text) : option text :=
  match p, s with
  | [], _ => Some s
  | x :: p', y :: s' => if x =? y then strip_prefix p' s' else None
  | _ :: _, [] => None
  end.

(** [{:x}] / [{:02x}] of a u8 and decimal printing. *)
Definition hex_digit (d : N) : N := if d <? 10 then 48 + d else 97 + (d - 10).
Definition hex02 (b : N) : text := [hex_digit (b / 16); hex_digit (b mod 16)].
(** [{:x}] *)
Fixpoint show_hex (fuel : nat) (n : N) : text :=
  match fuel with
  | O => []
  | S k => (if n <? 16 then [] else show_hex k (n / 16)) ++ [hex_digit (n mod 16)]
  end.

(** [slice.join(sep)] *)
Fixpoint join (sep : text) (l : list text) : text :=
  match l with
  | [] => []
  | [x] => x
  | x :: r => x ++ sep ++ join sep r
  end.
