(** Model of the enums generated by [bitfield_enum!] with catch-all variants
    (decode/src/utils.rs:81-203).  An enum is described by a table; a value is a named variant
    (identified by its code, the [$bits] literal) or a catch-all variant carrying its byte. *)
From Coq Require Import String.
From Verif Require Export Text.
Import ListNotations.

Inductive benum :=
| Named (code : N)
| Other (which : nat) (x : N).

Record enum_table := {
  et_named : list (N * text);
  et_other : list (text * list (N * N))
}.

Definition in_ranges (x : N) (rs : list (N * N)) : bool :=
  existsb (fun r => (fst r <=? x) && (x <=? snd r)) rs.

(** First catch-all variant whose pattern matches. *)
Fixpoint find_other (i : nat) (l : list (text * list (N * N))) (x : N) : option benum :=
  match l with
  | [] => None
  | (_, rs) :: r => if in_ranges x rs then Some (Other i x) else find_other (S i) r x
  end.

(** decode/src/utils.rs:120-129: [From<u8>].  [None] would be a non-exhaustive match, which Rust
    rejects at compile time. *)
Definition enum_from_u8 (t : enum_table) (x : N) : option benum :=
  match lookup x (et_named t) with
  | Some _ => Some (Named x)
  | None => find_other 0 (et_other t) x
  end.

(** decode/src/utils.rs:131-140: [From<$name> for u8]. *)
Definition enum_to_u8 (e : benum) : N := match e with Named c => c | Other _ x => x end.

(** decode/src/utils.rs:109-118: [Display]. *)
Definition enum_display (t : enum_table) (e : benum) : text :=
  match e with
  | Named c => match lookup c (et_named t) with Some d => d | None => [] end
  | Other i x => match nth_error (et_other t) i with
                 | Some (n, _) => n ++ T " (0x" ++ hex02 x ++ T ")"
                 | None => []
                 end
  end.

(** [str::strip_suffix] *)
Definition strip_suffix (p s : text) : option text :=
  match strip_prefix (rev p) (rev s) with
  | Some r => Some (rev r)
  | None => None
  end.

(** decode/src/utils.rs:348-357 *)
Definition parse_u8_bitfield_variant (s variant : text) : option N :=
  match strip_suffix (T ")") s with
  | None => None
  | Some s1 => match strip_prefix variant s1 with
               | None => None
               | Some s2 => match strip_prefix (T " (0x") s2 with
                            | None => None
                            | Some inner => parse_u8 16 inner
                            end
               end
  end.

Fixpoint find_display (l : list (N * text)) (s : text) : option N :=
  match l with
  | [] => None
  | (c, d) :: r => if text_eqb d s then Some c else find_display r s
  end.
Fixpoint parse_other (i : nat) (l : list (text * list (N * N))) (s : text) : option benum :=
  match l with
  | [] => None
  | (n, _) :: r => match parse_u8_bitfield_variant s n with
                   | Some v => Some (Other i v)
                   | None => parse_other (S i) r s
                   end
  end.

(** decode/src/utils.rs:142-164: [FromStr]. *)
Definition enum_from_str (t : enum_table) (s : text) : option benum :=
  match find_display (et_named t) s with
  | Some c => Some (Named c)
  | None => parse_other 0 (et_other t) s
  end.
