(** Specification vocabulary for the message properties (C05-C13, C54, C55), independent of the
    model's functions: it mentions only the data types. *)
From Verif Require Export Spec Message.

(** The lower and upper halves of a module's 256-byte memory map. *)
Definition lower_half (p : Page) : Prop := p = PageSff SffLower \/ p = PageCmis CmisLower.
Definition in_page (p : Page) (k : N) : Prop :=
  (lower_half p -> k <= 127) /\ (~ lower_half p -> 128 <= k <= 255).

(** Limits of one transfer: SFF-8636 128 / 4 bytes, CMIS 8 / 8 bytes. *)
Definition read_limit (p : Page) : N := match p with PageSff _ => 128 | PageCmis _ => 8 end.
Definition write_limit (p : Page) : N := match p with PageSff _ => 4 | PageCmis _ => 8 end.
Definition iface (p : Page) : ManagementInterface :=
  match p with PageSff _ => Sff8636 | PageCmis _ => Cmis end.

(** Page numbers: SFF-8636 table 6-1; CMIS table 8-1. *)
Definition sff_defined (p : N) : Prop := p <= 0x21 \/ 0x80 <= p <= 0xFF.
Definition cmis_defined (p : N) : Prop := p <= 0x04 \/ 0x10 <= p <= 0x3F \/ 0x9F <= p <= 0xFF.
Definition cmis_banked (p : N) : Prop := 0x10 <= p <= 0x3F \/ 0x9F <= p <= 0xAF.

(** A page that names real module memory. *)
Definition page_defined (p : Page) : Prop :=
  match p with
  | PageSff SffLower | PageCmis CmisLower => True
  | PageSff (SffUpper n) => sff_defined n
  | PageCmis (CmisUpper u) =>
      cmis_defined (cu_page u) /\
      match cu_bank u with
      | None => ~ cmis_banked (cu_page u)
      | Some b => cmis_banked (cu_page u) /\ b <= 3
      end
  end.

(** An access of [len] bytes at [offset] that stays inside page [p] and moves between 1 and
    [limit] bytes. *)
Definition access_ok (limit : N) (p : Page) (offset len : N) : Prop :=
  1 <= len <= limit /\ forall k, offset <= k < offset + len -> in_page p k.

(** A MAC address as a 48-bit number, most significant octet first. *)
Definition mac_num (m : Mac) : N :=
  mac0 m * 2 ^ 40 + mac1 m * 2 ^ 32 + mac2 m * 2 ^ 24 + mac3 m * 2 ^ 16 + mac4 m * 2 ^ 8 + mac5 m.
Definition oui_of (m : Mac) : N * N * N := (mac0 m, mac1 m, mac2 m).
(** The group bit is the low bit of the first octet. *)
Definition unicast (m : Mac) : Prop := N.even (mac0 m) = true.
(** The address [base + k] for a 24-bit-suffix addition that stays inside the OUI. *)
Definition stays_in_oui (m : Mac) (k : N) : Prop :=
  mac_num m / 2 ^ 24 = (mac_num m + k) / 2 ^ 24.

(** The code of each hardware error on the wire. *)
Definition hw_code (e : HwError) : N :=
  match e with
  | HwI2cError => 0 | HwInvalidModuleIndex => 1 | HwFpgaError => 2 | HwDisabledBySp => 3
  | HwNoFrontIo => 4 | HwFrontIoNotReady => 5 | HwNotPresent => 6 | HwNotPowered => 7
  | HwPowerFault => 8 | HwNotInitialized => 9 | HwI2cAddressNack => 10 | HwI2cByteNack => 11
  | HwI2cSclStretchTimeout => 12 | HwI2cTransactionTimeout => 13 | HwUnknown => 14
  end.

(** What one error byte means. *)
Definition error_of_byte (b : N) (r : HwError * option Unknowns) : Prop :=
  (b = 14 -> r = (HwUnknown, Some KnownUnknown)) /\
  (b < 14 -> hw_code (fst r) = b /\ snd r = None) /\
  (14 < b -> r = (HwUnknown, Some (UnknownUnknown b))).

(** Bytes of data per successful module that the protocol documentation promises after a
    response (messages/src/lib.rs:71-80): the read length, one status byte, one 32-bit extended
    status, one LED state byte. *)
Definition unit_size (r : SpResponse) : nat :=
  match r with
  | SRead _ _ rd => N.to_nat (rd_len rd)
  | SStatus _ _ => 1
  | SExtendedStatus _ _ => 4
  | SLedState _ _ => 1
  | SWrite _ _ _ | SAck _ _ | SMacAddrs _ => 0
  end.
Definition resp_modules (r : SpResponse) : N :=
  match r with
  | SRead m _ _ | SWrite m _ _ | SStatus m _ | SAck m _ | SLedState m _ | SExtendedStatus m _ => m
  | SMacAddrs _ => 0
  end.
Definition resp_failed (r : SpResponse) : N :=
  match r with
  | SRead _ f _ | SWrite _ f _ | SStatus _ f | SAck _ f | SLedState _ f | SExtendedStatus _ f => f
  | SMacAddrs _ => 0
  end.
(** A documented answer: one item of [unit_size] bytes per port of the success set and one error
    byte per port of the failure set. *)
Definition documented (r : SpResponse) (ports failed : list N) (items : list (list N))
    (errs : list N) : Prop :=
  enumerates ports (fun i => member i (resp_modules r)) /\
  enumerates failed (fun i => member i (resp_failed r)) /\
  length items = length ports /\ Forall (fun x => length x = unit_size r) items /\
  length errs = length failed.
