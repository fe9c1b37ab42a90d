(** Theorems for C73: what is printed about a failure tells what failed. *)
From Coq Require Import String.
From Verif Require Import SpecError Tac ErrorProofs.
Import ListNotations.

(** C73: the text of a hardware error names the module and says what the SP's error code means. *)
Theorem C73_hardware : forall i b, i < 256 -> b < 256 -> te_display (hw_fault i b) = hardware_text i b.
Proof. exact hardware_told. Qed.
Print Assumptions C73_hardware.
(** C73: the lines printed about modules that failed tell the modules and the codes the SP gave. *)
Theorem C73_codes : forall g l l', ar_ignore_errors g = false ->
  Forall (fun p => fst p < 256 /\ snd p < 256) l -> Forall (fun p => fst p < 256 /\ snd p < 256) l' ->
  error_report te_display g (map (fun p => (fst p, hw_fault (fst p) (snd p))) l) =
  error_report te_display g (map (fun p => (fst p, hw_fault (fst p) (snd p))) l') -> l = l'.
Proof. exact codes_reported. Qed.
Print Assumptions C73_codes.
(** C73 for any error of a module.  Full statement, false:
    [forall e f, fit_module e -> fit_module f -> te_display e = te_display f -> e = f]. *)
Theorem C73_module_refuted : exists e f, fit_module e /\ fit_module f /\ te_display e = te_display f /\ e <> f.
Proof.
  exists (TeDecode (DeManagement (InvalidPage 5))), (TeDecode (DeManagement (PageIsBanked 16))).
  repeat split; try (cbn; lia). discriminate.
Qed.
Print Assumptions C73_module_refuted.
Theorem C73_module_partial : forall e f, fit_module e -> fit_module f -> te_display e = te_display f ->
  e = f \/ same_management e f.
Proof. exact module_inj. Qed.
Print Assumptions C73_module_partial.
(** C73: a reply of an unexpected kind is printed so that its contents can be read off. *)
Theorem C73_body : forall a b, fit_body a -> fit_body b -> body_debug a = body_debug b -> a = b.
Proof. exact body_inj. Qed.
Print Assumptions C73_body.
(** C73 for a call that fails, by the chain of texts printed.  Full statement, false:
    [... error_chain e = error_chain f -> e = f].  The number of a read past the end is not in the
    text, which has the words "<the value>" in its place. *)
Theorem C73_call_refuted : exists e f, fit_error e /\ fit_error f /\ error_chain e = error_chain f /\ e <> f.
Proof. exists (EByteOutOfRange 256), (EByteOutOfRange 300). repeat split. discriminate. Qed.
Print Assumptions C73_call_refuted.
Theorem C73_call_partial :
  forall e f, fit_error e -> fit_error f -> error_chain e = error_chain f -> e = f \/ same_blank e f.
Proof. exact error_inj. Qed.
Print Assumptions C73_call_partial.

Example C73_witness :
  te_display (hw_fault 7 6) = T "Hardware error accessing module 7: The module is not present" /\
  te_display (hw_fault 31 200) =
    T "Hardware error accessing module 31: Received an unknown error type (could not deserialize 0xc8)" /\
  te_display (TeInvalidInterfaceForModule 3 (ident_of_byte 17) Cmis) =
    T "Addressed module with index 3 with identifier Qsfp28 does not use the specified management interface Cmis" /\
  fit_module (TeDecode (DeUnsupportedIdentifier (ident_of_byte 3))) /\
  te_display (TeDecode (DeUnsupportedIdentifier (ident_of_byte 3))) =
    T "Error decoding module data: Unsupported SFF-8024 Identifier: 'SFP/SFP+/SFP28 (SFF-8472)'" /\
  error_chain (EMac (mkBadRange ZeroStrideOrCount (mkMac 2 0 0 1 200 255) 0 1)) =
    [T "Bad MAC address range"; T "The MAC address range is invalid, reason: ZeroStrideOrCount, base: [2, 0, 0, 1, 200, 255], count: 0, stride: 1"] /\
  error_chain (EProtocol (PeVersionMismatch 1 2)) =
    [T "Controller protocol error"; T "Version mismatch: expected=1, actual=2"].
Proof. repeat split; try (vm_compute; reflexivity). exists 3. split; [lia|reflexivity]. Qed.
Example C73_body_texts :
  error_chain (EUnexpectedMessage (BSpResponse (SRead 0x1f 0 (mkRead (PageCmis (CmisUpper (mkCmisUpper (Some 1) 17))) 128 8)))) =
    [T "Received an unexpected message type in response: SpResponse(Read { modules: ModuleId(0x1f), failed_modules: ModuleId(0x0), read: MemoryRead { page: Cmis(Upper(UpperPage { bank: Some(1), page: 17 })), offset: 128, len: 8 } })"] /\
  body_debug (BSpResponse (SWrite 0xdeadbeef 0x10 (mkWrite (PageSff (SffUpper 3)) 200 1))) =
    T "SpResponse(Write { modules: ModuleId(0xdeadbeef), failed_modules: ModuleId(0x10), write: MemoryWrite { page: Sff8636(Upper(UpperPage(3))), offset: 200, len: 1 } })" /\
  body_debug (BSpResponse (SAck 0xffffffffffffffff 1)) =
    T "SpResponse(Ack { modules: ModuleId(0xffffffffffffffff), failed_modules: ModuleId(0x1) })" /\
  body_debug (BSpResponse (SMacAddrs (MacOk (mkMacAddrs (mkMac 168 64 37 0 1 255) 32 4)))) =
    T "SpResponse(MacAddrs(Ok(MacAddrs { base_mac: [168, 64, 37, 0, 1, 255], count: 32, stride: 4 })))" /\
  body_debug (BSpResponse (SMacAddrs (MacError (mkBadRange MulticastBaseAddr (mkMac 1 0 0 0 0 0) 65535 1)))) =
    T "SpResponse(MacAddrs(Error(BadMacAddrRange { reason: MulticastBaseAddr, base_mac: [1, 0, 0, 0, 0, 0], count: 65535, stride: 1 })))" /\
  body_debug (BError (PeWrongDataSize 64 4294967295)) = T "Error(WrongDataSize { expected: 64, actual: 4294967295 })" /\
  body_debug (BHostRequest (HSetLedState 0x8 LedBlink)) =
    T "HostRequest(SetLedState { modules: ModuleId(0x8), state: Blink })" /\
  body_debug (BHostRequest (HManagementInterface 0x3 (UnknownInterface 7))) =
    T "HostRequest(ManagementInterface { modules: ModuleId(0x3), interface: Unknown(7) })" /\
  body_debug (BHostRequest HMacAddrs) = T "HostRequest(MacAddrs)" /\
  fit_body (BSpResponse (SRead 0x1f 0 (mkRead (PageCmis (CmisUpper (mkCmisUpper (Some 1) 17))) 128 8))).
Proof. repeat split; try (vm_compute; reflexivity). Qed.
