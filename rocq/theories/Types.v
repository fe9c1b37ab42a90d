(** Identifier, decode errors and controller errors. *)
From Verif Require Export Message Tables.

(** decode/src/ident.rs:18-63 *)
Definition Identifier := benum.
Definition ident_of_byte (b : N) : Identifier :=
  match enum_from_u8 tbl_Identifier b with
  | Some i => i
  | None => Other 2 b (* unreachable: the table ends with a catch-all *)
  end.
Definition QsfpPlusSff8636 : Identifier := Named 0x0d.
Definition Qsfp28 : Identifier := Named 0x11.
Definition QsfpDD : Identifier := Named 0x18.
Definition QsfpPlusCmis : Identifier := Named 0x1e.

Definition benum_eqb (a b : benum) : bool :=
  match a, b with
  | Named x, Named y => x =? y
  | Other i x, Other j y => Nat.eqb i j && (x =? y)
  | _, _ => false
  end.
(** Derived [Ord]: declaration order of the variants, then the payload.  The named variants of
    [Identifier] are declared in increasing code order. *)
Definition benum_ltb (a b : benum) : bool :=
  match a, b with
  | Named x, Named y => x <? y
  | Named _, Other _ _ => true
  | Other _ _, Named _ => false
  | Other i x, Other j y => Nat.ltb i j || (Nat.eqb i j && (x <? y))
  end.

(** decode/src/lib.rs:28-46 *)
Inductive DecodeError :=
| DeUnsupportedIdentifier (i : Identifier)
| DeManagement (e : MgmtError)
| DeParseFailed
| DeInvalidOui
| DeInvalidBitField
| DeBitOutOfRange.

(** decode/src/ident.rs:65-74 *)
Definition management_interface (i : Identifier) : outcome DecodeError ManagementInterface :=
  if benum_eqb i QsfpPlusSff8636 || benum_eqb i Qsfp28 then Ok Sff8636
  else if benum_eqb i QsfpPlusCmis || benum_eqb i QsfpDD then Ok Cmis
  else Err (DeUnsupportedIdentifier i).

(** controller/src/lib.rs:157-186.  [MaybeUnknown] (131-148) is its inner option. *)
Inductive TransceiverError :=
| TeHardware (module_index : N) (source : HwError) (unknown : option Unknowns)
| TeDecode (e : DecodeError)
| TeMgmt (e : MgmtError)
| TePort (e : InvalidPort)
| TeInvalidInterfaceForModule (module_index : N) (identifier : Identifier)
    (interface : ManagementInterface).

(** controller/src/lib.rs:189-246.  The payload of [Io] is dropped. *)
Inductive Error :=
| EProtocol (e : ProtocolError)
| EIo
| EMessageRequiresData
| EBadInterface (name : text)
| EMaxRetries (n : N)
| EMaxFaultMessages (n : N)
| EUnexpectedMessage (b : MessageBody)
| EInvalidWriteData (expected actual : N)
| EInvalidPowerStateTransition
| EMac (e : BadMacAddrRange)
| ETransceiver (e : TransceiverError)
| EByteOutOfRange (n : N).

(** controller/src/lib.rs:248-265: the [From] impls. *)
Definition error_of_mgmt (e : MgmtError) : Error := ETransceiver (TeMgmt e).
Definition error_of_decode (e : DecodeError) : Error := ETransceiver (TeDecode e).

(** controller/src/lib.rs:272-290, 312-320 *)
Inductive PowerState := PowerOff | PowerLow | PowerHigh.
Record PowerMode := mkPowerMode { pm_state : PowerState; pm_override : option bool }.
(** controller/src/lib.rs:322-329 *)
Definition power_mode_default : PowerMode := mkPowerMode PowerOff None.

(** controller/src/lib.rs:333, 347 *)
Definition NUM_ALLOWED_ERROR_MESSAGES : N := 5.
