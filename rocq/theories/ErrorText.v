(** Model of the texts of errors: [Display] of the error types (by [thiserror]), the derived [Debug] of
    the enumerations inside them, and the chain of sources that [anyhow] prints when a command fails. *)
From Coq Require Import String.
From Verif Require Export Types CliTables.
Import ListNotations.

(** messages/src/message.rs:129-228 *)
Definition hw_display (e : HwError) : text :=
  match e with
  | HwI2cError => T "FPGA reported an I2C error"
  | HwInvalidModuleIndex => T "Invalid module index"
  | HwFpgaError => T "Error interacting with FPGA"
  | HwDisabledBySp => T "Port is disabled by the SP"
  | HwNoFrontIo => T "Front IO board not present"
  | HwFrontIoNotReady => T "Front IO board not ready"
  | HwNotPresent => T "The module is not present"
  | HwNotPowered => T "The module is not powered"
  | HwPowerFault => T "The module's power faulted"
  | HwNotInitialized => T "The module is not initialized"
  | HwI2cAddressNack => T "The module nack'd an I2C address byte"
  | HwI2cByteNack => T "The module nack'd an I2C byte"
  | HwI2cSclStretchTimeout => T "The module stretched SCL too long"
  | HwI2cTransactionTimeout => T "The I2C transaction to the module timed out"
  | HwUnknown => T "Received an unknown error type"
  end.

(** controller/src/lib.rs:135-148.  [{:#04x}] is [0x] and two digits. *)
Definition unknown_display (u : option Unknowns) : text :=
  match u with
  | Some (UnknownUnknown byte) => T " (could not deserialize 0x" ++ hex02 byte ++ T ")"
  | Some KnownUnknown => T " (peer sent HwError::Unknown)"
  | None => []
  end.

(** messages/src/mgmt/mod.rs:74-84: derived [Debug] *)
Definition interface_debug (i : ManagementInterface) : text :=
  match i with
  | Sff8636 => T "Sff8636"
  | Cmis => T "Cmis"
  | UnknownInterface x => T "Unknown(" ++ show_u8 x ++ T ")"
  end.

(** messages/src/mgmt/mod.rs:16-71 *)
Definition mgmt_display (e : MgmtError) : text :=
  match e with
  | InvalidPage p => T "Invalid upper memory page: 0x" ++ hex02 p
  | InvalidBank b => T "Invalid upper memory bank: 0x" ++ hex02 b
  | PageIsUnbanked p => T "Page does not accept a bank number: 0x" ++ hex02 p
  | PageIsBanked p => T "Page requires a bank number: 0x" ++ hex02 p
  | InvalidMemoryAccess offset len =>
      T "Invalid memory access: offset=0x" ++ hex02 offset ++ T ", len=0x" ++ hex02 len
  | InvalidOperationSize size interface =>
      T "Write or read of " ++ show_u8 size ++ T " bytes too large for management interface " ++
      interface_debug interface
  end.

(** messages/src/module_id.rs:47-51 *)
Definition port_display (e : InvalidPort) : text :=
  let '(mkInvalidPort i) := e in T "Invalid transceiver port: " ++ show_u8 i.

(** decode/src/lib.rs:27-46 *)
Definition decode_display (e : DecodeError) : text :=
  match e with
  | DeUnsupportedIdentifier i => T "Unsupported SFF-8024 Identifier: '" ++ enum_display tbl_Identifier i ++ T "'"
  | DeManagement _ => T "Management error"
  | DeParseFailed => T "Memory map parsing failed"
  | DeInvalidOui => T "Invalid OUI"
  | DeInvalidBitField => T "Invalid bitfield pattern"
  | DeBitOutOfRange => T "Bit out of range"
  end.

(** controller/src/lib.rs:152-186 *)
Definition te_display (e : TransceiverError) : text :=
  match e with
  | TeHardware module_index source unknown =>
      T "Hardware error accessing module " ++ show_u8 module_index ++ T ": " ++ hw_display source ++
      unknown_display unknown
  | TeDecode e => T "Error decoding module data: " ++ decode_display e
  | TeMgmt e => T "Module management interface error: " ++ mgmt_display e
  | TePort e => T "Error addressing Sidecar port: " ++ port_display e
  | TeInvalidInterfaceForModule module_index identifier interface =>
      T "Addressed module with index " ++ show_u8 module_index ++ T " with identifier " ++
      identifier_debug identifier ++ T " does not use the specified management interface " ++
      interface_debug interface
  end.

(** messages/src/message.rs:81-123.  A u32 has at most ten digits. *)
Definition protocol_display (e : ProtocolError) : text :=
  match e with
  | PeWrongMessage => T "Wrong message type"
  | PeNotSupported => T "Unsupported or unknown operation"
  | PeRequestTooLarge => T "Request too large for single protocol message"
  | PeWrongDataSize expected actual =>
      T "Message trailing data has incorrect size: expected=" ++ show_dec 10 expected ++ T " actual=" ++
      show_dec 10 actual
  | PeVersionMismatch expected actual =>
      T "Version mismatch: expected=" ++ show_u8 expected ++ T ", actual=" ++ show_u8 actual
  | PeSerialization => T "Serialization failed"
  end.

(** messages/src/mac.rs:35-56 (derived [Debug]) and 23-33 *)
Definition reason_debug (r : BadMacAddrReason) : text :=
  match r with
  | SpansMultipleOuis => T "SpansMultipleOuis"
  | ZeroStrideOrCount => T "ZeroStrideOrCount"
  | MulticastBaseAddr => T "MulticastBaseAddr"
  end.
Definition bytes_debug (l : list N) : text := T "[" ++ join (T ", ") (map show_u8 l) ++ T "]".
Definition range_display (e : BadMacAddrRange) : text :=
  let b := br_base e in
  T "The MAC address range is invalid, reason: " ++ reason_debug (br_reason e) ++ T ", base: " ++
  bytes_debug [mac0 b; mac1 b; mac2 b; mac3 b; mac4 b; mac5 b] ++ T ", count: " ++ show_dec 5 (br_count e) ++
  T ", stride: " ++ show_u8 (br_stride e).

(** messages/src/module_id.rs:30-34, written by hand.  A u64 has at most sixteen hexadecimal digits. *)
Definition modules_debug (m : ModuleId) : text := T "ModuleId(0x" ++ show_hex 16 m ++ T ")".
(** The derived [Debug] of the types of a message body from here on.
    messages/src/mgmt/sff8636.rs:19-25, 37-50 *)
Definition sff_page_debug (p : SffPage) : text :=
  match p with
  | SffLower => T "Lower"
  | SffUpper page => T "Upper(UpperPage(" ++ show_u8 page ++ T "))"
  end.
(** messages/src/mgmt/cmis.rs:18-24, 43-59 *)
Definition bank_debug (b : option N) : text :=
  match b with None => T "None" | Some x => T "Some(" ++ show_u8 x ++ T ")" end.
Definition cmis_page_debug (p : CmisPage) : text :=
  match p with
  | CmisLower => T "Lower"
  | CmisUpper u => T "Upper(UpperPage { bank: " ++ bank_debug (cu_bank u) ++ T ", page: " ++ show_u8 (cu_page u) ++ T " })"
  end.
(** messages/src/mgmt/mod.rs:144-150 *)
Definition page_debug (p : Page) : text :=
  match p with
  | PageSff p => T "Sff8636(" ++ sff_page_debug p ++ T ")"
  | PageCmis p => T "Cmis(" ++ cmis_page_debug p ++ T ")"
  end.
(** messages/src/mgmt/mod.rs:213-218, 252-257 *)
Definition read_debug (r : MemoryRead) : text :=
  T "MemoryRead { page: " ++ page_debug (rd_page r) ++ T ", offset: " ++ show_u8 (rd_offset r) ++ T ", len: " ++
  show_u8 (rd_len r) ++ T " }".
Definition write_debug (w : MemoryWrite) : text :=
  T "MemoryWrite { page: " ++ page_debug (wr_page w) ++ T ", offset: " ++ show_u8 (wr_offset w) ++ T ", len: " ++
  show_u8 (wr_len w) ++ T " }".
(** messages/src/message.rs:1030-1050 *)
Definition led_debug (l : LedState) : text :=
  match l with LedOff => T "Off" | LedOn => T "On" | LedBlink => T "Blink" end.
(** messages/src/message.rs:81-123 *)
Definition protocol_debug (e : ProtocolError) : text :=
  match e with
  | PeWrongMessage => T "WrongMessage"
  | PeNotSupported => T "NotSupported"
  | PeRequestTooLarge => T "RequestTooLarge"
  | PeWrongDataSize expected actual =>
      T "WrongDataSize { expected: " ++ show_dec 10 expected ++ T ", actual: " ++ show_dec 10 actual ++ T " }"
  | PeVersionMismatch expected actual =>
      T "VersionMismatch { expected: " ++ show_u8 expected ++ T ", actual: " ++ show_u8 actual ++ T " }"
  | PeSerialization => T "Serialization"
  end.
(** messages/src/message.rs:475-548 *)
Definition host_request_debug (r : HostRequest) : text :=
  match r with
  | HRead modules read => T "Read { modules: " ++ modules_debug modules ++ T ", read: " ++ read_debug read ++ T " }"
  | HWrite modules write => T "Write { modules: " ++ modules_debug modules ++ T ", write: " ++ write_debug write ++ T " }"
  | HStatus m => T "Status(" ++ modules_debug m ++ T ")"
  | HAssertReset m => T "AssertReset(" ++ modules_debug m ++ T ")"
  | HDeassertReset m => T "DeassertReset(" ++ modules_debug m ++ T ")"
  | HAssertLpMode m => T "AssertLpMode(" ++ modules_debug m ++ T ")"
  | HDeassertLpMode m => T "DeassertLpMode(" ++ modules_debug m ++ T ")"
  | HEnablePower m => T "EnablePower(" ++ modules_debug m ++ T ")"
  | HDisablePower m => T "DisablePower(" ++ modules_debug m ++ T ")"
  | HManagementInterface modules interface =>
      T "ManagementInterface { modules: " ++ modules_debug modules ++ T ", interface: " ++ interface_debug interface ++ T " }"
  | HMacAddrs => T "MacAddrs"
  | HClearPowerFault m => T "ClearPowerFault(" ++ modules_debug m ++ T ")"
  | HLedState m => T "LedState(" ++ modules_debug m ++ T ")"
  | HSetLedState modules state =>
      T "SetLedState { modules: " ++ modules_debug modules ++ T ", state: " ++ led_debug state ++ T " }"
  | HExtendedStatus m => T "ExtendedStatus(" ++ modules_debug m ++ T ")"
  | HClearDisableLatch m => T "ClearDisableLatch(" ++ modules_debug m ++ T ")"
  end.
(** messages/src/mac.rs:14-21, 58-70 and messages/src/message.rs:710-716 *)
Definition macs_debug (m : MacAddrs) : text :=
  T "MacAddrs { base_mac: " ++ bytes_debug (mac_bytes (ma_base m)) ++ T ", count: " ++ show_dec 5 (ma_count m) ++
  T ", stride: " ++ show_u8 (ma_stride m) ++ T " }".
Definition range_debug (e : BadMacAddrRange) : text :=
  T "BadMacAddrRange { reason: " ++ reason_debug (br_reason e) ++ T ", base_mac: " ++ bytes_debug (mac_bytes (br_base e)) ++
  T ", count: " ++ show_dec 5 (br_count e) ++ T ", stride: " ++ show_u8 (br_stride e) ++ T " }".
Definition mac_response_debug (r : MacAddrResponse) : text :=
  match r with
  | MacOk m => T "Ok(" ++ macs_debug m ++ T ")"
  | MacError e => T "Error(" ++ range_debug e ++ T ")"
  end.
(** messages/src/message.rs:580-664 *)
Definition both_debug (modules failed : ModuleId) : text :=
  T " { modules: " ++ modules_debug modules ++ T ", failed_modules: " ++ modules_debug failed.
Definition sp_response_debug (r : SpResponse) : text :=
  match r with
  | SRead modules failed read => T "Read" ++ both_debug modules failed ++ T ", read: " ++ read_debug read ++ T " }"
  | SWrite modules failed write => T "Write" ++ both_debug modules failed ++ T ", write: " ++ write_debug write ++ T " }"
  | SStatus modules failed => T "Status" ++ both_debug modules failed ++ T " }"
  | SAck modules failed => T "Ack" ++ both_debug modules failed ++ T " }"
  | SMacAddrs r => T "MacAddrs(" ++ mac_response_debug r ++ T ")"
  | SLedState modules failed => T "LedState" ++ both_debug modules failed ++ T " }"
  | SExtendedStatus modules failed => T "ExtendedStatus" ++ both_debug modules failed ++ T " }"
  end.
(** messages/src/message.rs:420-442 *)
Definition body_debug (b : MessageBody) : text :=
  match b with
  | BError e => T "Error(" ++ protocol_debug e ++ T ")"
  | BHostRequest r => T "HostRequest(" ++ host_request_debug r ++ T ")"
  | BSpResponse r => T "SpResponse(" ++ sp_response_debug r ++ T ")"
  | BSpRequest r => match r with end
  | BHostResponse r => match r with end
  end.

(** controller/src/lib.rs:188-246.  A [usize] has at most twenty digits. *)
Definition error_display (e : Error) : text :=
  match e with
  | EProtocol _ => T "Controller protocol error"
  | EIo => T "Network or I/O error"
  | EMessageRequiresData => T "Message type requires data, but none provided"
  | EBadInterface _ => T "Interface not found or lacks correct IPv6 link-local address"
  | EMaxRetries n => T "Maximum number of retries (" ++ show_dec 20 n ++ T ") reached without a response"
  | EMaxFaultMessages n =>
      T "Maximum number of faulty messages (" ++ show_dec 20 n ++ T ") reached without a response"
  | EUnexpectedMessage b => T "Received an unexpected message type in response: " ++ body_debug b
  | EInvalidWriteData expected actual =>
      T "Incorrect data length for memory write, expected = " ++ show_dec 20 expected ++ T " actual = " ++
      show_dec 20 actual
  | EInvalidPowerStateTransition => T "Invalid power state transition"
  | EMac _ => T "Bad MAC address range"
  | ETransceiver _ => T "Error interacting with transceiver module"
  | EByteOutOfRange _ => T "End of read (<the value>) is out of the range [0, 255]"
  end.

(** [Error::source] for each type: a [#[from]] or [#[source]] field. *)
Definition decode_chain (e : DecodeError) : list text :=
  decode_display e :: match e with DeManagement m => [mgmt_display m] | _ => [] end.
Definition te_chain (e : TransceiverError) : list text :=
  te_display e ::
  match e with
  | TeHardware _ source _ => [hw_display source]
  | TeDecode e => decode_chain e
  | TeMgmt e => [mgmt_display e]
  | TePort e => [port_display e]
  | TeInvalidInterfaceForModule _ _ _ => []
  end.
(** The source of [Io] is dropped with its payload. *)
Definition error_chain (e : Error) : list text :=
  error_display e ::
  match e with
  | EProtocol p => [protocol_display p]
  | EMac r => [range_display r]
  | ETransceiver t => te_chain t
  | _ => []
  end.
