(** Model of the text handling of controller/src/bin/xcvradm.rs.  Error messages are not modelled:
    an error is [Err tt]. *)
From Coq Require Import String.
From Verif Require Export Utf8 Types.
Import ListNotations.

(** controller/src/bin/xcvradm.rs:69-81 *)
Inductive Transceivers :=
| TAll
| TPresent
| TPowerState (s : PowerState)
| TKind (i : ManagementInterface)
| TIndex (m : ModuleId).

(** [str::to_lowercase].  Letters A-Z are mapped here; other characters by [lower], the Unicode
    table (one character can become several).  The context rule for the Greek capital sigma is left
    out: both its lower-case forms are non-ASCII letters. *)
Definition lower_char (lower : N -> text) (c : N) : text :=
  if c <? 128 then [if (65 <=? c) && (c <=? 90) then c + 32 else c] else lower c.
Definition to_lowercase (lower : N -> text) (s : text) : text := flat_map (lower_char lower) s.

(** [str::split_once(c)] *)
Fixpoint split_once (c : N) (s : text) : option (text * text) :=
  match s with
  | [] => None
  | x :: r => if x =? c then Some ([], r)
              else match split_once c r with Some (a, b) => Some (x :: a, b) | None => None end
  end.

(** One part of the list: controller/src/bin/xcvradm.rs:98-125. *)
Definition parse_part (part : text) : outcome unit (list N) :=
  match parse_u8 10 part with
  | Some ix => Ok [ix]
  | None =>
      match split_once 45 part with
      | None => Err tt
      | Some (start, stop) =>
          match start, stop with
          | [], _ | _, [] => Err tt
          | _, _ =>
              match parse_u8 10 (trim start), parse_u8 10 (trim stop) with
              | Some x, Some y => if y <=? x then Err tt else Ok (nrange x (N.to_nat (y - x + 1)))
              | _, _ => Err tt
              end
          end
      end
  end.
Definition is_word (s : text) (w : string) : bool := text_eqb s (T w).
(** controller/src/bin/xcvradm.rs:83-135 *)
Definition parse_transceivers (lower : N -> text) (arg : text) : outcome unit Transceivers :=
  let s := to_lowercase lower arg in
  if is_word s "all" then Ok TAll
  else if is_word s "present" then Ok TPresent
  else if is_word s "off" then Ok (TPowerState PowerOff)
  else if is_word s "low-power" || is_word s "lp" then Ok (TPowerState PowerLow)
  else if is_word s "hi-power" || is_word s "high-power" || is_word s "hp" then Ok (TPowerState PowerHigh)
  else if is_word s "sff" then Ok (TKind Sff8636)
  else if is_word s "cmis" then Ok (TKind Cmis)
  else
    indices <-? omapM (fun p => parse_part (trim p)) (split_on 44 s) ;;
    omap TIndex (omap_err (fun _ => tt) (from_indices (List.concat indices))).

(** controller/src/bin/xcvradm.rs:321-327 *)
Definition read_u8 (s : text) : outcome unit N :=
  let (s, radix) := match strip_prefix (T "0x") s with Some hex => (hex, 16) | None => (s, 10) end in
  match parse_u8 radix s with Some n => Ok n | None => Err tt end.

(** controller/src/bin/xcvradm.rs:220-230 *)
Inductive InputKind := Binary | Decimal | Hex | BinaryString.
(** controller/src/bin/xcvradm.rs:719 *)
Definition MAX_BYTES : nat := 128.

(** [str::trim_start_matches(p)]: the fuel is the length of the text. *)
Fixpoint trim_matches (fuel : nat) (p s : text) : text :=
  match fuel with
  | O => s
  | S k => match strip_prefix p s with Some r => trim_matches k p r | None => s end
  end.
Definition trim_start_matches (p s : text) : text := trim_matches (List.length s) p s.

(** controller/src/bin/xcvradm.rs:731-740 *)
Definition conv (kind : InputKind) (x : text) : outcome unit N :=
  let r := match kind with
           | Hex => parse_u8 16 (trim_start_matches (T "0x") x)
           | BinaryString => parse_u8 2 (trim_start_matches (T "0b") x)
           | Decimal | Binary => parse_u8 10 x
           end in
  match r with Some n => Ok n | None => Err tt end.

(** controller/src/bin/xcvradm.rs:722-751.  The input is the byte string [input].  [chunk] is how many
    bytes the single [read] call of the binary case delivers (at most what is there and at most
    the buffer); [cap] is [buf.capacity()], at least [MAX_BYTES * 4], and exactly that with the
    current standard library. *)
Definition load_known_write_data (cap chunk : nat) (kind : InputKind) (input : list N)
    : outcome unit (list N) :=
  match kind with
  | Binary => Ok (firstn (Nat.min chunk MAX_BYTES) input)
  | _ =>
      match from_utf8 (firstn cap input) with
      | None => Err tt
      | Some buf =>
          data <-? omapM (conv kind) (split_whitespace buf) ;;
          if Nat.leb (List.length data) MAX_BYTES then Ok data else Err tt
      end
  end.

(** [&buf[..2]] of a string with this UTF-8 encoding: panics when it is shorter, or when byte 2 is
    inside a character. *)
Definition first_two (buf : list N) : outcome unit (list N) :=
  match buf with
  | a :: b :: c :: _ => if is_cont c then Panic else Ok [a; b]
  | [a; b] => Ok [a; b]
  | _ => Panic
  end.
(** controller/src/bin/xcvradm.rs:863-872; [buf] in UTF-8. *)
Definition load_write_data_autodetect_kind (cap chunk : nat) (buf : list N) : outcome unit (list N) :=
  match buf with
  | [] => Err tt
  | _ =>
      start <-? first_two buf ;;
      let kind := if text_eqb start (T "0b") then BinaryString
                  else if text_eqb start (T "0x") then Hex else Decimal in
      load_known_write_data cap chunk kind buf
  end.
(** controller/src/bin/xcvradm.rs:874-892.  [file] is the contents of the named file, if one was
    named: [None] when it cannot be opened. *)
Definition load_write_data (cap chunk : nat) (file : option (option (list N))) (kind : option InputKind)
    (stdin : list N) : outcome unit (list N) :=
  match file, kind with
  | Some _, None => Err tt
  | Some None, Some _ => Err tt
  | Some (Some contents), Some k => load_known_write_data cap chunk k contents
  | None, Some k => load_known_write_data cap chunk k stdin
  | None, None => match from_utf8 stdin with
                  | None => Err tt
                  | Some _ => load_write_data_autodetect_kind cap chunk stdin
                  end
  end.
