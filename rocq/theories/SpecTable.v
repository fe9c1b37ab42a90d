(** Specification vocabulary for the printed tables (C65). *)
From Coq Require Import String.
From Verif Require Export SpecCmd CliTables SpecQuery.
Import ListNotations.
Open Scope N_scope.

(** ** Reading a table *)
(** The line without trailing spaces, and its pieces between the given positions. *)
Fixpoint unpad (s : text) : text :=
  match s with
  | [] => []
  | c :: r => match unpad r with [] => if c =? 32 then [] else [c] | u => c :: u end
  end.
Fixpoint cells_from (from : nat) (starts : list nat) (l : text) : list text :=
  match starts with
  | [] => [unpad l]
  | s :: r => unpad (firstn (s - from) l) :: cells_from s r (skipn (s - from) l)
  end.
Definition cells (starts : list nat) (l : text) : list text := cells_from 0 starts l.

(** [out] prints, for each item in order, one row whose cells are those of [cell], under a title that
    names the columns; [out false] leaves the title away. *)
Definition columns {P} (starts : list nat) (headings : list text) (cell : N -> P -> list text)
    (items : list (N * P)) (out : bool -> list text) : Prop :=
  exists title rows, cells starts title = headings /\
    Forall2 (fun row p => cells starts row = cell (fst p) (snd p)) rows items /\
    out true = title :: rows /\ out false = rows.

(** [out] prints, for each item in order, one row that splits at the separator into the values of the
    fields asked for, if no value contains the separator; under a title that splits into their names. *)
Definition fields_split {F P} (names : F -> text) (value : N -> P -> F -> text) (items : list (N * P))
    (out : bool -> list F -> text -> list text) : Prop :=
  forall c fs, fs <> [] ->
    (forall i x f, In (i, x) items -> In f fs -> ~ In c (value i x f)) ->
    exists title rows, 
      Forall2 (fun row p => split_on c row = map (value (fst p) (snd p)) fs) rows items /\
      ((forall f, In f fs -> ~ In c (names f)) -> split_on c title = map names fs) /\
      out true fs [c] = title :: rows /\ out false fs [c] = rows.

(** What the terminal gets, and that it has the lines that were meant. *)
Definition on_screen (lines : list text) : text := flat_map (fun l => l ++ [10]) lines.
Definition whole_lines (lines : list text) : Prop := split_on 10 (on_screen lines) = lines ++ [[]].
(** Printable ASCII without colon. *)
Definition plain (t : text) : Prop := Forall (fun c => 32 <= c < 127 /\ c <> 58) t.

(** ** The values *)
Definition number_shown (n : N) : text := digits_of 16 10 n.
Definition hex_shown (b : N) : text := pad 2 (digits_of 8 16 b).
Definition power_name (s : PowerState) : text :=
  match s with PowerOff => T "Off" | PowerLow => T "Low" | PowerHigh => T "High" end.
Definition override_word (o : option bool) : text :=
  match o with None => T "-" | Some b => if b then T "Yes" else T "No" end.
Definition power_value (i : N) (x : PowerMode) (f : PowerFields) : text :=
  match f with
  | FPowerPort => number_shown i
  | FPowerPower => power_name (pm_state x)
  | FPowerOverride => override_word (pm_override x)
  end.
(** The byte and the description of SFF-8024 table 4-1. *)
Definition ident_value (i : N) (x : Identifier) (f : IdentifyFields) : text :=
  match f with
  | FIdentPort => number_shown i
  | FIdentIdent => T "0x" ++ hex_shown (enum_to_u8 x)
  | FIdentDescription => enum_display tbl_Identifier x
  end.
Definition page_shown (p : Page) : text :=
  match p with
  | PageSff (SffUpper n) => T "0x" ++ hex_shown n
  | PageCmis (CmisUpper (mkCmisUpper None n)) => T "0x" ++ hex_shown n
  | PageCmis (CmisUpper (mkCmisUpper (Some b) n)) => T "0x" ++ hex_shown n ++ T "/" ++ number_shown b
  | _ => []
  end.
Definition model_shown (x : MemoryModel) : text :=
  match x with Flat => T "Flat" | Paged ps => T "Paged [" ++ join [44] (map page_shown ps) ++ T "]" end.
Definition model_value (i : N) (x : MemoryModel) (f : MemoryModelFields) : text :=
  match f with FModelPort => number_shown i | FModelModel => model_shown x end.
Definition led_word (s : LedState) : text :=
  match s with LedOff => T "Off" | LedOn => T "On" | LedBlink => T "Blink" end.
Definition led_value (i : N) (x : LedState) (f : LedFields) : text :=
  match f with
  | FLedPort => number_shown i
  | FLedLed => match x with LedOff => T "off" | LedOn => T "on" | LedBlink => T "blink" end
  end.
Definition read_value (binary : bool) (i : N) (d : list N) (f : ReadDataFields) : text :=
  match f with FReadPort => number_shown i | FReadData => join [44] (map (byte_shown binary) d) end.
(** The name of the four supported kinds of module. *)
Definition kind_word (id : Identifier) : text :=
  match enum_to_u8 id with
  | 0x0d => T "QsfpPlusSff8636 (0x0d)" | 0x11 => T "Qsfp28 (0x11)" | 0x18 => T "QsfpDD (0x18)"
  | 0x1e => T "QsfpPlusCmis (0x1e)" | _ => []
  end.
Definition date_shown (x : VendorInfo) : text :=
  match v_date (vi_vendor x) with Some t => t | None => T "Unknown" end.
Definition vendor_value (i : N) (x : VendorInfo) (f : VendorInfoFields) : text :=
  match f with
  | FVendorPort => number_shown i
  | FVendorIdentifier => kind_word (vi_identifier x)
  | FVendorVendor => v_name (vi_vendor x)
  | FVendorPart => v_part (vi_vendor x)
  | FVendorRev => v_revision (vi_vendor x)
  | FVendorSerial => v_serial (vi_vendor x)
  | FVendorManufacturedDate => date_shown x
  end.

(** Models as decoded: upper pages with numbers and banks of one byte. *)
Definition printable_model (x : MemoryModel) : Prop :=
  match x with
  | Flat => True
  | Paged ps => Forall (fun p => match p with
                                 | PageSff (SffUpper n) => n < 256
                                 | PageCmis (CmisUpper u) => cu_page u < 256 /\
                                     match cu_bank u with Some b => b < 256 | None => True end
                                 | _ => False
                                 end) ps
  end.

(** ** Over a rack *)
(** The ports of [m] whose modules answer, in increasing order, each with a value related to the
    module's memory. *)
Definition rack_rows {P} (m : N) (k : rack) (R : memory -> P -> Prop) (items : list (N * P)) : Prop :=
  Forall2 (fun i p => fst p = i /\ exists mem, k i = inl mem /\ R mem (snd p))
    (filter (fun i => match k i with inl _ => true | inr _ => false end) (to_indices m)) items.
