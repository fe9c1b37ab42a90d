(** Model of decode/src/memory_model.rs. *)
From Verif Require Export DecodePower.

(** decode/src/memory_model.rs:26-32 *)
Inductive MemoryModel := Flat | Paged (pages : list Page).

(** Derived [Ord] of [Page] (messages/src/mgmt/mod.rs:144-150, cmis.rs:18-59, sff8636.rs:19-50):
    variants in declaration order, then fields in declaration order ([bank] before [page]). *)
Definition option_ltb (a b : option N) : bool :=
  match a, b with None, Some _ => true | Some x, Some y => x <? y | _, None => false end.
Definition option_eqb (a b : option N) : bool :=
  match a, b with None, None => true | Some x, Some y => x =? y | _, _ => false end.
Definition page_ltb (a b : Page) : bool :=
  match a, b with
  | PageSff SffLower, PageSff (SffUpper _) => true
  | PageSff (SffUpper x), PageSff (SffUpper y) => x <? y
  | PageSff _, PageSff SffLower => false
  | PageSff _, PageCmis _ => true
  | PageCmis _, PageSff _ => false
  | PageCmis CmisLower, PageCmis (CmisUpper _) => true
  | PageCmis (CmisUpper u), PageCmis (CmisUpper v) =>
      option_ltb (cu_bank u) (cu_bank v)
      || (option_eqb (cu_bank u) (cu_bank v) && (cu_page u <? cu_page v))
  | PageCmis _, PageCmis CmisLower => false
  end.
(** [Vec::sort], stable. *)
Fixpoint page_insert (p : Page) (l : list Page) : list Page :=
  match l with
  | [] => [p]
  | q :: r => if page_ltb q p then q :: page_insert p r else p :: l
  end.
Definition page_sort (l : list Page) : list Page := fold_right page_insert [] l.

(** decode/src/memory_model.rs:66-109 *)
Definition memory_reads (id : Identifier) : outcome DecodeError (list MemoryRead) :=
  if is_sff id then
    status <-? ounwrap (read_new (PageSff SffLower) 2 1) ;;
    p <-? ounwrap (sff_upper_new 0) ;;
    advertised_pages <-? ounwrap (read_new (PageSff p) 195 1) ;;
    Ok [status; advertised_pages]
  else if is_cmis id then
    characteristics <-? ounwrap (read_new (PageCmis CmisLower) 2 1) ;;
    p <-? ounwrap (cmis_new_unbanked 1) ;;
    advertised_pages <-? ounwrap (read_new (PageCmis (CmisUpper p)) 142 1) ;;
    Ok [characteristics; advertised_pages]
  else Err (DeUnsupportedIdentifier id).

Definition new_sff_upper {E} (n : N) : outcome E Page := omap PageSff (ounwrap (sff_upper_new n)).
Definition new_cmis_unbanked {E} (n : N) : outcome E Page :=
  omap (fun u => PageCmis (CmisUpper u)) (ounwrap (cmis_new_unbanked n)).
Definition new_cmis_banked {E} (n bank : N) : outcome E Page :=
  omap (fun u => PageCmis (CmisUpper u)) (ounwrap (cmis_new_banked n bank)).
(** Bit [k] of a byte, as [byte & (1 << k) != 0]. *)
Definition bit (b k : N) : bool := negb (N.land b (2 ^ k) =? 0).

(** decode/src/memory_model.rs:111-201 *)
Definition memory_parse (id : Identifier) (reads : list (list N)) : outcome DecodeError MemoryModel :=
  if is_sff id then
    status <-? first_byte reads ;;
    if N.land status 4 =? 0 then
      advertised <-? first_byte (tl reads) ;;
      base <-? omapM new_sff_upper [0x00; 0x03] ;;
      p02 <-? omapM new_sff_upper (if bit advertised 7 then [0x02] else []) ;;
      p01 <-? omapM new_sff_upper (if bit advertised 6 then [0x01] else []) ;;
      p20 <-? omapM new_sff_upper (if bit advertised 0 then [0x20; 0x21] else []) ;;
      Ok (Paged (page_sort (base ++ p02 ++ p01 ++ p20)))
    else Ok Flat
  else if is_cmis id then
    status <-? first_byte reads ;;
    if N.land status 128 =? 0 then
      advertised <-? first_byte (tl reads) ;;
      base <-? omapM new_cmis_unbanked [0x00; 0x01; 0x02] ;;
      max_bank <-? (match N.land advertised 3 with 0 => Ok 0 | 1 => Ok 1 | 2 => Ok 3 | _ => Panic end) ;;
      p10 <-? omapM (fun p => new_cmis_banked p max_bank) [0x10; 0x11] ;;
      p03 <-? omapM new_cmis_unbanked (if bit advertised 2 then [0x03] else []) ;;
      p13 <-? omapM (fun p => new_cmis_banked p max_bank) (if bit advertised 5 then [0x13; 0x14] else []) ;;
      Ok (Paged (page_sort (base ++ p10 ++ p03 ++ p13)))
    else Ok Flat
  else Err (DeUnsupportedIdentifier id).
