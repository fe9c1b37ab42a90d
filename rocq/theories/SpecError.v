(** Vocabulary for what error texts say (C73). *)
From Coq Require Import String.
From Verif Require Export ErrorText SpecTable SpecController SpecMain.
Import ListNotations.

(** What each error code of the SP means; 14 is the SP's own unknown error. *)
Definition meanings : list (N * text) :=
  [(0, T "FPGA reported an I2C error"); (1, T "Invalid module index"); (2, T "Error interacting with FPGA");
   (3, T "Port is disabled by the SP"); (4, T "Front IO board not present"); (5, T "Front IO board not ready");
   (6, T "The module is not present"); (7, T "The module is not powered"); (8, T "The module's power faulted");
   (9, T "The module is not initialized"); (10, T "The module nack'd an I2C address byte");
   (11, T "The module nack'd an I2C byte"); (12, T "The module stretched SCL too long");
   (13, T "The I2C transaction to the module timed out");
   (14, T "Received an unknown error type (peer sent HwError::Unknown)")].
Definition meaning (b : N) : text :=
  match lookup b meanings with
  | Some t => t
  | None => T "Received an unknown error type (could not deserialize 0x" ++ hex_shown b ++ T ")"
  end.
Definition hardware_text (i b : N) : text :=
  T "Hardware error accessing module " ++ number_shown i ++ T ": " ++ meaning b.

(** ** Errors the program can hold: numbers fit their types, identifiers and hardware errors come from a byte *)
Definition fit_interface (i : ManagementInterface) : Prop :=
  match i with UnknownInterface x => x < 256 | _ => True end.
Definition fit_mgmt (e : MgmtError) : Prop :=
  match e with
  | InvalidPage x | InvalidBank x | PageIsUnbanked x | PageIsBanked x => x < 256
  | InvalidMemoryAccess o l => o < 256 /\ l < 256
  | InvalidOperationSize n i => n < 256 /\ fit_interface i
  end.
Definition fit_identifier (i : Identifier) : Prop := exists b, b < 256 /\ i = ident_of_byte b.
Definition fit_decode (e : DecodeError) : Prop :=
  match e with
  | DeUnsupportedIdentifier i => fit_identifier i
  | DeManagement m => fit_mgmt m
  | _ => True
  end.
Definition fit_module (e : TransceiverError) : Prop :=
  match e with
  | TeHardware i h u => i < 256 /\ exists b, b < 256 /\ (h, u) = decode_hw_error b
  | TeDecode d => fit_decode d
  | TeMgmt m => fit_mgmt m
  | TePort (mkInvalidPort i) => i < 256
  | TeInvalidInterfaceForModule i k f => i < 256 /\ fit_identifier k /\ fit_interface f
  end.
Definition fit_protocol (e : ProtocolError) : Prop :=
  match e with
  | PeWrongDataSize a b => a < 2 ^ 32 /\ b < 2 ^ 32
  | PeVersionMismatch a b => a < 256 /\ b < 256
  | _ => True
  end.
Definition fit_mac (m : Mac) : Prop :=
  mac0 m < 256 /\ mac1 m < 256 /\ mac2 m < 256 /\ mac3 m < 256 /\ mac4 m < 256 /\ mac5 m < 256.
Definition fit_range (r : BadMacAddrRange) : Prop := fit_mac (br_base r) /\ br_count r < 2 ^ 16 /\ br_stride r < 256.
Definition fit_page (p : Page) : Prop :=
  match p with
  | PageSff (SffUpper n) => n < 256
  | PageCmis (CmisUpper u) => cu_page u < 256 /\ match cu_bank u with Some b => b < 256 | None => True end
  | _ => True
  end.
Definition fit_read (r : MemoryRead) : Prop := fit_page (rd_page r) /\ rd_offset r < 256 /\ rd_len r < 256.
Definition fit_write (w : MemoryWrite) : Prop := fit_page (wr_page w) /\ wr_offset w < 256 /\ wr_len w < 256.
Definition fit_modules (m : ModuleId) : Prop := m < 2 ^ 64.
Definition fit_request (r : HostRequest) : Prop :=
  match r with
  | HRead m r => fit_modules m /\ fit_read r
  | HWrite m w => fit_modules m /\ fit_write w
  | HManagementInterface m i => fit_modules m /\ fit_interface i
  | HMacAddrs => True
  | HSetLedState m _ => fit_modules m
  | HStatus m | HAssertReset m | HDeassertReset m | HAssertLpMode m | HDeassertLpMode m | HEnablePower m
  | HDisablePower m | HClearPowerFault m | HLedState m | HExtendedStatus m | HClearDisableLatch m => fit_modules m
  end.
Definition fit_response (r : SpResponse) : Prop :=
  match r with
  | SRead m f r => fit_modules m /\ fit_modules f /\ fit_read r
  | SWrite m f w => fit_modules m /\ fit_modules f /\ fit_write w
  | SMacAddrs (MacOk a) => fit_mac (ma_base a) /\ ma_count a < 2 ^ 16 /\ ma_stride a < 256
  | SMacAddrs (MacError e) => fit_range e
  | SStatus m f | SAck m f | SLedState m f | SExtendedStatus m f => fit_modules m /\ fit_modules f
  end.
Definition fit_body (b : MessageBody) : Prop :=
  match b with
  | BError e => fit_protocol e
  | BHostRequest r => fit_request r
  | BSpResponse r => fit_response r
  | BSpRequest _ | BHostResponse _ => True
  end.
Definition fit_error (e : Error) : Prop :=
  match e with
  | EProtocol p => fit_protocol p
  | EMaxRetries n | EMaxFaultMessages n => n < 2 ^ 64
  | EInvalidWriteData a b => a < 2 ^ 64 /\ b < 2 ^ 64
  | EMac r => fit_range r
  | EUnexpectedMessage b => fit_body b
  | ETransceiver t => fit_module t
  | _ => True
  end.

(** Errors whose text does not tell them apart. *)
Definition same_management (e f : TransceiverError) : Prop :=
  exists m n, e = TeDecode (DeManagement m) /\ f = TeDecode (DeManagement n).
Definition same_blank (e f : Error) : Prop :=
  (exists a b, e = EBadInterface a /\ f = EBadInterface b) \/
  (exists a b, e = EByteOutOfRange a /\ f = EByteOutOfRange b).
