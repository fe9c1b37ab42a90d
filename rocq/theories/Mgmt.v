(** Model of messages/src/mgmt: memory pages and memory operations. *)
From Verif Require Export Base.

(** messages/src/mgmt/mod.rs:75-83 *)
Inductive ManagementInterface :=
| Sff8636
| Cmis
| UnknownInterface (v : N).

(** messages/src/mgmt/sff8636.rs:22-25, 50: [Page] and [UpperPage(u8)]. *)
Inductive SffPage :=
| SffLower
| SffUpper (page : N).

(** messages/src/mgmt/cmis.rs:56-59: [UpperPage { bank, page }]. *)
Record CmisUpperPage := mkCmisUpper { cu_bank : option N; cu_page : N }.

(** messages/src/mgmt/cmis.rs:21-24 *)
Inductive CmisPage :=
| CmisLower
| CmisUpper (u : CmisUpperPage).

(** messages/src/mgmt/mod.rs:147-150 *)
Inductive Page :=
| PageSff (p : SffPage)
| PageCmis (p : CmisPage).

(** messages/src/mgmt/mod.rs:19-71, variants in declaration order. *)
Inductive MgmtError :=
| InvalidPage (p : N)
| InvalidBank (b : N)
| PageIsUnbanked (p : N)
| PageIsBanked (p : N)
| InvalidMemoryAccess (offset len : N)
| InvalidOperationSize (size : N) (interface : ManagementInterface).

(** messages/src/mgmt/sff8636.rs:53-75: [UpperPage::new].  The [matches!] ranges, in order:
    0x00, 0x01, 0x02, 0x03, 0x20..=0x21, 0x04..=0x1F, 0x80..=0xFF. *)
Definition sff_upper_new (p : N) : outcome MgmtError SffPage :=
  if (p =? 0) || (p =? 1) || (p =? 2) || (p =? 3) || ((0x20 <=? p) && (p <=? 0x21))
     || ((0x04 <=? p) && (p <=? 0x1F)) || ((0x80 <=? p) && (p <=? 0xFF))
  then Ok (SffUpper p)
  else Err (InvalidPage p).

(** messages/src/mgmt/cmis.rs:106-116 *)
Definition is_valid_page (p : N) : bool :=
  ((0x00 <=? p) && (p <=? 0x04)) || ((0x10 <=? p) && (p <=? 0x3F)) || (p =? 0x9F)
  || ((0xA0 <=? p) && (p <=? 0xAF)) || ((0xB0 <=? p) && (p <=? 0xFF)).

(** messages/src/mgmt/cmis.rs:121-123 *)
Definition page_accepts_bank_number (p : N) : bool :=
  ((0x10 <=? p) && (p <=? 0x3F)) || (p =? 0x9F) || ((0xA0 <=? p) && (p <=? 0xAF)).

(** messages/src/mgmt/cmis.rs:126 *)
Definition MAX_BANK : N := 3.

(** messages/src/mgmt/cmis.rs:66-71: note that page validity is not checked. *)
Definition cmis_new_unbanked (p : N) : outcome MgmtError CmisUpperPage :=
  if page_accepts_bank_number p then Err (PageIsBanked p)
  else Ok (mkCmisUpper None p).

(** messages/src/mgmt/cmis.rs:80-94 *)
Definition cmis_new_banked (p b : N) : outcome MgmtError CmisUpperPage :=
  if negb (is_valid_page p) then Err (InvalidPage p)
  else if MAX_BANK <? b then Err (InvalidBank b)
  else if negb (page_accepts_bank_number p) then Err (PageIsUnbanked p)
  else Ok (mkCmisUpper (Some b) p).

(** messages/src/mgmt/mod.rs:156-161, cmis.rs:27-32, sff8636.rs:28-33 *)
Definition page_number (p : Page) : option N :=
  match p with
  | PageSff SffLower => None
  | PageSff (SffUpper n) => Some n
  | PageCmis CmisLower => None
  | PageCmis (CmisUpper u) => Some (cu_page u)
  end.

(** messages/src/mgmt/mod.rs:172-177, cmis.rs:34-39 *)
Definition page_bank (p : Page) : option N :=
  match p with
  | PageSff _ => None
  | PageCmis CmisLower => None
  | PageCmis (CmisUpper u) => cu_bank u
  end.

(** messages/src/mgmt/mod.rs:180-185; also [MemoryPage::INTERFACE], cmis.rs:129, sff8636.rs:83 *)
Definition page_interface (p : Page) : ManagementInterface :=
  match p with PageSff _ => Sff8636 | PageCmis _ => Cmis end.

Definition is_lower (p : Page) : bool :=
  match p with PageSff SffLower | PageCmis CmisLower => true | _ => false end.

(** messages/src/mgmt/cmis.rs:131-143, sff8636.rs:85-97 *)
Definition max_offset (p : Page) : N := if is_lower p then 255 / 2 else 255.
Definition min_offset (p : Page) : N := if is_lower p then 0 else 128.
(** messages/src/mgmt/mod.rs:311-313 *)
Definition upper_limit (p : Page) : N := max_offset p + 1.
(** messages/src/mgmt/mod.rs:316,322; cmis.rs:145-147; sff8636.rs:99-101 *)
Definition MIN_READ_SIZE : N := 1.
Definition MIN_WRITE_SIZE : N := 1.
Definition max_read_size (p : Page) : N := match p with PageSff _ => 128 | PageCmis _ => 8 end.
Definition max_write_size (p : Page) : N := match p with PageSff _ => 4 | PageCmis _ => 8 end.

(** messages/src/mgmt/mod.rs:214-218 and 253-257 (fields private). *)
Record MemoryRead := mkRead { rd_page : Page; rd_offset : N; rd_len : N }.
Record MemoryWrite := mkWrite { wr_page : Page; wr_offset : N; wr_len : N }.

(** messages/src/mgmt/mod.rs:329-346.  The sum is computed in u16 and cannot overflow. *)
Definition verify_read (p : Page) (offset len : N) : outcome MgmtError unit :=
  if (offset <? min_offset p) || (max_offset p <? offset) || (upper_limit p <? offset + len)
  then Err (InvalidMemoryAccess offset len)
  else if (len <? MIN_READ_SIZE) || (max_read_size p <? len)
  then Err (InvalidOperationSize len (page_interface p))
  else Ok tt.

(** messages/src/mgmt/mod.rs:349-366 *)
Definition verify_write (p : Page) (offset len : N) : outcome MgmtError unit :=
  if (offset <? min_offset p) || (max_offset p <? offset) || (upper_limit p <? offset + len)
  then Err (InvalidMemoryAccess offset len)
  else if (len <? MIN_WRITE_SIZE) || (max_write_size p <? len)
  then Err (InvalidOperationSize len (page_interface p))
  else Ok tt.

(** messages/src/mgmt/mod.rs:222-232 *)
Definition read_new (p : Page) (offset len : N) : outcome MgmtError MemoryRead :=
  _ <-? verify_read p offset len ;; Ok (mkRead p offset len).

(** messages/src/mgmt/mod.rs:261-271 *)
Definition write_new (p : Page) (offset len : N) : outcome MgmtError MemoryWrite :=
  _ <-? verify_write p offset len ;; Ok (mkWrite p offset len).
