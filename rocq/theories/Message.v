(** Model of messages/src/message.rs: headers, messages, errors, status words. *)
From Verif Require Export ModuleId Mgmt Mac.

(** messages/src/message.rs:51-80 *)
Definition INNER_CURRENT : N := 7.
Definition INNER_MIN : N := 1.
Definition OUTER_CURRENT : N := 1.
Definition OUTER_MIN : N := 1.

(** messages/src/message.rs:87-124, variants in declaration order. *)
Inductive ProtocolError :=
| PeWrongMessage
| PeNotSupported
| PeRequestTooLarge
| PeWrongDataSize (expected actual : N)
| PeVersionMismatch (expected actual : N)
| PeSerialization.

(** messages/src/message.rs:129-228, variants in declaration order. *)
Inductive HwError :=
| HwI2cError | HwInvalidModuleIndex | HwFpgaError | HwDisabledBySp | HwNoFrontIo
| HwFrontIoNotReady | HwNotPresent | HwNotPowered | HwPowerFault | HwNotInitialized
| HwI2cAddressNack | HwI2cByteNack | HwI2cSclStretchTimeout | HwI2cTransactionTimeout
| HwUnknown.

Definition hw_errors : list HwError :=
  [HwI2cError; HwInvalidModuleIndex; HwFpgaError; HwDisabledBySp; HwNoFrontIo;
   HwFrontIoNotReady; HwNotPresent; HwNotPowered; HwPowerFault; HwNotInitialized;
   HwI2cAddressNack; HwI2cByteNack; HwI2cSclStretchTimeout; HwI2cTransactionTimeout; HwUnknown].

(** messages/src/message.rs:239-242 *)
Inductive Unknowns := KnownUnknown | UnknownUnknown (b : N).

(** messages/src/message.rs:272-290: [push] of a one-byte chunk ([HwError::MAX_SIZE = 1]).
    hubpack decodes a fieldless enum from its variant index. *)
Definition decode_hw_error (b : N) : HwError * option Unknowns :=
  match nth_error hw_errors (N.to_nat b) with
  | Some HwUnknown => (HwUnknown, Some KnownUnknown)
  | Some e => (e, None)
  | None => (HwUnknown, Some (UnknownUnknown b))
  end.

(** messages/src/message.rs:254-270.  Every byte of the buffer is decoded, not only the first
    [error_count].  The [u32::try_from(..).unwrap()] cannot fail for a packet buffer. *)
Definition deserialized_errors_new (error_count : nat) (buf : list N)
    : outcome ProtocolError (list (HwError * option Unknowns)) :=
  if Nat.ltb (length buf) error_count
  then Err (PeWrongDataSize (N.of_nat error_count) (Nlen buf))
  else Ok (map decode_hw_error buf).

(** messages/src/message.rs:325-333 *)
Definition deserialize_hw_errors (failed : ModuleId) (buf : list N)
    : outcome ProtocolError (list (HwError * option Unknowns)) :=
  match m_count failed with
  | O => Ok []
  | n => deserialized_errors_new n buf
  end.

(** messages/src/message.rs:374-385, variants in declaration order. *)
Inductive MessageKind := KError | KHostRequest | KSpResponse | KSpRequest | KHostResponse.

(** messages/src/message.rs:337-347 *)
Record Header := mkHeader { h_version : N; h_id : N; h_kind : MessageKind }.

(** messages/src/message.rs:352-358 *)
Definition header_new (id : N) (k : MessageKind) : Header := mkHeader OUTER_CURRENT id k.

(** messages/src/message.rs:1036-1050 *)
Inductive LedState := LedOff | LedOn | LedBlink.

(** messages/src/message.rs:476-548, variants in declaration order. *)
Inductive HostRequest :=
| HRead (modules : ModuleId) (read : MemoryRead)
| HWrite (modules : ModuleId) (write : MemoryWrite)
| HStatus (m : ModuleId)
| HAssertReset (m : ModuleId)
| HDeassertReset (m : ModuleId)
| HAssertLpMode (m : ModuleId)
| HDeassertLpMode (m : ModuleId)
| HEnablePower (m : ModuleId)
| HDisablePower (m : ModuleId)
| HManagementInterface (modules : ModuleId) (interface : ManagementInterface)
| HMacAddrs
| HClearPowerFault (m : ModuleId)
| HLedState (m : ModuleId)
| HSetLedState (modules : ModuleId) (state : LedState)
| HExtendedStatus (m : ModuleId)
| HClearDisableLatch (m : ModuleId).

(** messages/src/message.rs:711-716 *)
Inductive MacAddrResponse :=
| MacOk (m : MacAddrs)
| MacError (e : BadMacAddrRange).

(** messages/src/message.rs:581-664, variants in declaration order. *)
Inductive SpResponse :=
| SRead (modules failed : ModuleId) (read : MemoryRead)
| SWrite (modules failed : ModuleId) (write : MemoryWrite)
| SStatus (modules failed : ModuleId)
| SAck (modules failed : ModuleId)
| SMacAddrs (r : MacAddrResponse)
| SLedState (modules failed : ModuleId)
| SExtendedStatus (modules failed : ModuleId).

(** messages/src/message.rs:722, 728: empty enums. *)
Inductive SpRequestBody : Set := .
Inductive HostResponseBody : Set := .

(** messages/src/message.rs:421-442 *)
Inductive MessageBody :=
| BError (e : ProtocolError)
| BHostRequest (r : HostRequest)
| BSpResponse (r : SpResponse)
| BSpRequest (r : SpRequestBody)
| BHostResponse (r : HostResponseBody).

(** messages/src/message.rs:388-391 *)
Record Message := mkMessage { msg_version : N; msg_body : MessageBody }.

(** messages/src/message.rs:395-400 *)
Definition message_new (b : MessageBody) : Message := mkMessage INNER_CURRENT b.

(** messages/src/message.rs:408-416 *)
Definition message_kind (m : Message) : MessageKind :=
  match msg_body m with
  | BError _ => KError
  | BHostRequest _ => KHostRequest
  | BSpResponse _ => KSpResponse
  | BSpRequest _ => KSpRequest
  | BHostResponse _ => KHostResponse
  end.

(** messages/src/message.rs:554-561 *)
Definition host_expected_data_len (r : HostRequest) : option nat :=
  match r with
  | HWrite modules write => Some (m_count modules * N.to_nat (wr_len write))%nat
  | _ => None
  end.

(** messages/src/message.rs:670-689; sizes: Status 1, ExtendedStatus 4 (line 1015), LedState 1. *)
Definition sp_expected_data_len (r : SpResponse) : option nat :=
  match r with
  | SRead modules _ read => Some (m_count modules * N.to_nat (rd_len read))%nat
  | SStatus modules _ => Some (m_count modules * 1)%nat
  | SExtendedStatus modules _ => Some (m_count modules * 4)%nat
  | SLedState modules _ => Some (m_count modules * 1)%nat
  | _ => None
  end.

(** messages/src/message.rs:694-706 *)
Definition sp_expected_error_data_len (r : SpResponse) : option nat :=
  match r with
  | SRead _ failed _ | SWrite _ failed _ | SStatus _ failed | SExtendedStatus _ failed
  | SAck _ failed | SLedState _ failed => Some (m_count failed * 1)%nat
  | _ => None
  end.

(** messages/src/message.rs:733-784: bit values of [Status]; the same bits, with the same
    positions, open [ExtendedStatus] (886-943), which adds DISABLED_BY_SP. *)
Definition ST_PRESENT : N := 1.
Definition ST_ENABLED : N := 2.
Definition ST_RESET : N := 4.
Definition ST_LOW_POWER_MODE : N := 8.
Definition ST_INTERRUPT : N := 16.
Definition ST_POWER_GOOD : N := 32.
Definition ST_FAULT_POWER_TIMEOUT : N := 64.
Definition ST_FAULT_POWER_LOST : N := 128.
Definition ST_DISABLED_BY_SP : N := 256.

(** bitflags [contains]: every bit of [flags] is set in [s]. *)
Definition st_contains (s flags : N) : bool := N.land s flags =? flags.

(** bitflags [from_bits]: [None] if an undefined bit is set. *)
Definition status_from_bits (b : N) : option N := if b <? 256 then Some b else None.
Definition ext_status_from_bits (b : N) : option N := if b <? 512 then Some b else None.

(** messages/src/message.rs:951-957 *)
Definition ext_of_status (s : N) : outcome unit N := opt_unwrap (ext_status_from_bits s).
