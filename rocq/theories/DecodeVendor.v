(** Model of decode/src/ident.rs: vendor information. *)
From Verif Require Export DecodePower Utf8 CodeText.

(** decode/src/ident.rs:299-310.  In the error case the valid prefix is valid, so the [expect] does
    not fail. *)
Definition ascii_to_string (buf : list N) : text := trim_end (fst (utf8_valid_prefix buf)).

(** decode/src/ident.rs:129-159 *)
Record Vendor := mkVendor
  { v_name : text; v_oui : Oui; v_part : text; v_revision : text; v_serial : text;
    v_date : option text }.
Record VendorInfo := mkVendorInfo { vi_identifier : Identifier; vi_vendor : Vendor }.

(** [?] on a management error inside a decoder (decode/src/lib.rs:33-34). *)
Definition mgmt {A} (x : outcome MgmtError A) : outcome DecodeError A := omap_err DeManagement x.

(** [(start..end).step_by(step)] for [step > 0]. *)
Definition step_by (start stop step : N) : list N :=
  map (fun k => start + step * k)
      (nrange 0 (N.to_nat ((stop - start + (step - 1)) / step))).

(** decode/src/ident.rs:177-212 *)
Definition vendor_reads (id : Identifier) : outcome DecodeError (list MemoryRead) :=
  if is_sff id then
    p <-? mgmt (sff_upper_new 0) ;;
    r <-? mgmt (read_new (PageSff p) 148 (220 - 148)) ;;
    Ok [r]
  else if is_cmis id then
    p <-? mgmt (cmis_new_unbanked 0) ;;
    omapM (fun offset => mgmt (read_new (PageCmis (CmisUpper p)) offset 8)) (step_by 129 190 8)
  else Err (DeUnsupportedIdentifier id).

(** [data[start..start + len]]: panics when out of range. *)
Definition sub_slice {E} (l : list N) (start len : nat) : outcome E (list N) :=
  opt_unwrap (slice l start len).
(** [<[u8; 3]>::try_from(..).unwrap()] *)
Definition oui_bytes {E} (l : list N) : outcome E Oui :=
  match l with [a; b; c] => Ok (mkOui a b c) | _ => Panic end.

(** decode/src/ident.rs:240-257 and 279-294: the fields at these positions of the buffer. *)
Definition vendor_fields (id : Identifier) (data : list N) (name oui part rev serial date : nat)
    : outcome DecodeError VendorInfo :=
  n <-? sub_slice data name 16 ;;
  o <-? (x <-? sub_slice data oui 3 ;; oui_bytes x) ;;
  p <-? sub_slice data part 16 ;;
  r <-? sub_slice data rev 2 ;;
  s <-? sub_slice data serial 16 ;;
  d <-? sub_slice data date 8 ;;
  Ok (mkVendorInfo id
        (mkVendor (ascii_to_string n) o (ascii_to_string p) (ascii_to_string r) (ascii_to_string s)
                  (from_utf8 d))).

(** decode/src/ident.rs:214-297 *)
Definition vendor_parse (id : Identifier) (reads : list (list N)) : outcome DecodeError VendorInfo :=
  if is_sff id then
    match reads with
    | [] => Err DeParseFailed
    | data :: _ =>
        vendor_fields id data (148 - 148) (165 - 148) (168 - 148) (184 - 148) (196 - 148) (212 - 148)
    end
  else if is_cmis id then vendor_fields id (concat reads) 0 16 19 35 37 53
  else Err (DeUnsupportedIdentifier id).
