(** Specification vocabulary for configuration and the command line (C50-C53). *)
From Coq Require Import String.
From Verif Require Export SpecDecode Config CliText.
Import ListNotations.
Open Scope N_scope.

(** ** Interfaces *)
(** The interface [name] has IPv6 address [a]. *)
Definition has_address (ifs : list ifaddr) (name : text) (a : ipv6) : Prop :=
  exists i, In i ifs /\ if_name i = name /\ if_addr i = Some (In6 a).
Definition link_local (a : ipv6) : Prop := exists rest, a = [0xfe80; 0; 0; 0] ++ rest.
(** [a] is the first address of the interface that satisfies [P]. *)
Definition first_address (P : ipv6 -> Prop) (ifs : list ifaddr) (name : text) (a : ipv6) : Prop :=
  exists before i after, ifs = before ++ i :: after /\ if_name i = name /\ if_addr i = Some (In6 a) /\
    P a /\ forall b, has_address before name b -> ~ P b.

(** The configuration with this address; unset fields have the documented defaults. *)
Definition filled (b : ConfigBuilder) (a : ipv6) : Config :=
  mkConfig a (match cb_port b with Some p => p | None => 11112 end) (cb_interface b)
    (match cb_peer b with Some p => p | None => [0xff02; 0; 0; 0; 0; 0; 0x1de; 2] end)
    (match cb_peer_port b with Some p => p | None => 11112 end)
    (match cb_retry_interval b with Some t => t | None => 1000 end) (cb_n_retries b).

(** ** Numbers *)
(** [c] is a digit of value [d]: 0-9, then letters of either case. *)
Definition digit (c d : N) : Prop := (d < 10 /\ c = 48 + d) \/ (10 <= d < 36 /\ (c = 87 + d \/ c = 55 + d)).
Definition numeral (radix : N) (s : text) (v : N) : Prop :=
  exists ds, ds <> [] /\ Forall (fun d => d < radix) ds /\ Forall2 digit s ds /\
    v = fold_left (fun acc d => acc * radix + d) ds 0.
(** A byte in Rust's syntax: digits, with or without a plus sign. *)
Definition number (radix : N) (s : text) (v : N) : Prop :=
  v < 256 /\ (numeral radix s v \/ exists r, s = 43 :: r /\ numeral radix r v).

(** ** Port lists *)
Definition white (s : text) : Prop := Forall (fun c => is_whitespace c = true) s.
(** [t] names port [lo] ([hi = lo]) or the range from [lo] to [hi], with blanks anywhere around the
    numbers. *)
Definition port_part (t : text) (lo hi : N) : Prop :=
  (exists a u b, t = a ++ u ++ b /\ white a /\ white b /\ number 10 u lo /\ hi = lo) \/
  (exists a u b c v d, t = a ++ u ++ b ++ 45 :: c ++ v ++ d /\ white a /\ white b /\ white c /\ white d /\
     number 10 u lo /\ number 10 v hi /\ lo < hi).
(** [s] is a comma-separated list of these ports and ranges. *)
Definition port_list (s : text) (l : list (N * N)) : Prop :=
  exists parts, parts <> [] /\ s = join [44] parts /\
    Forall2 (fun t p => port_part t (fst p) (snd p)) parts l.
(** The letters of [s] are those of the lower-case word [w], in either case. *)
Definition spells (s : text) (w : string) : Prop :=
  Forall2 (fun c x => c = x \/ (97 <= x <= 122 /\ c + 32 = x)) s (T w).
Definition special_words : list (string * Transceivers) :=
  [("all", TAll); ("present", TPresent); ("off", TPowerState PowerOff);
   ("low-power", TPowerState PowerLow); ("lp", TPowerState PowerLow);
   ("hi-power", TPowerState PowerHigh); ("high-power", TPowerState PowerHigh);
   ("hp", TPowerState PowerHigh); ("sff", TKind Sff8636); ("cmis", TKind Cmis)]%string.
(** What is assumed of Unicode's lower-case table outside ASCII: blanks are unchanged, and another
    character becomes text that is not all ASCII, except that the Kelvin sign becomes k. *)
Definition unicode_lower (lower : N -> text) : Prop :=
  forall c, 128 <= c ->
    (is_whitespace c = true -> lower c = [c]) /\
    (is_whitespace c = false -> exists d, In d (lower c) /\ ((128 <= d /\ is_whitespace d = false) \/ d = 107)).

(** ** Write data *)
(** [toks] are the words of [t], separated by blanks. *)
Inductive words_of : text -> list text -> Prop :=
| words_end a : white a -> words_of a []
| words_more a tok rest toks : white a -> tok <> [] -> Forall (fun c => is_whitespace c = false) tok ->
    (rest = [] \/ exists c r, rest = c :: r /\ is_whitespace c = true) ->
    words_of rest toks -> words_of (a ++ tok ++ rest) (tok :: toks).
(** [tok] writes byte [b]; a hexadecimal or binary prefix may be missing or repeated. *)
Definition byte_text (kind : InputKind) (tok : text) (b : N) : Prop :=
  match kind with
  | Binary => False
  | Decimal => number 10 tok b
  | Hex => exists k r, tok = List.concat (repeat (T "0x") k) ++ r /\ number 16 r b
  | BinaryString => exists k r, tok = List.concat (repeat (T "0b") k) ++ r /\ number 2 r b
  end.
(** [input] is text whose words write [data]. *)
Definition writes (kind : InputKind) (input : list N) (data : list N) : Prop :=
  exists t toks, Forall scalar t /\ input = utf8 t /\ words_of t toks /\ Forall2 (byte_text kind) toks data.
(** The kind the first two characters announce. *)
Definition announced_kind (t : text) : InputKind :=
  match t with 48 :: 98 :: _ => BinaryString | 48 :: 120 :: _ => Hex | _ => Decimal end.

(** The second byte of the UTF-8 text [t] ends a character. *)
Definition two_bytes (t : text) : Prop :=
  (exists a b r, t = a :: b :: r /\ a < 128 /\ b < 128) \/ (exists a r, t = a :: r /\ 128 <= a < 2048).

(** The usual notations: decimal without leading zeros, [{:x}], [{:02x}], [{:b}], [{:08b}]. *)
Fixpoint digits_of (fuel : nat) (radix n : N) : text :=
  match fuel with
  | O => []
  | S k => (if n <? radix then [] else digits_of k radix (n / radix)) ++ [hex_digit (n mod radix)]
  end.
Definition pad (w : nat) (s : text) : text := repeat 48 (w - List.length s) ++ s.
Definition notation (kind : InputKind) (padded : bool) (b : N) : text :=
  match kind with
  | Hex => T "0x" ++ pad (if padded then 2 else 0) (digits_of 8 16 b)
  | BinaryString => T "0b" ++ pad (if padded then 8 else 0) (digits_of 8 2 b)
  | Decimal | Binary => digits_of 8 10 b
  end.
Definition printed (kind : InputKind) (padded : bool) (data : list N) : text :=
  join [32] (map (notation kind padded) data).
