(** Properties C28-C40: the controller API (controller/src/controller.rs). *)
From Verif Require Import Tac Spec ModuleIdProps SpecIo SpecResults SpecController ControllerProofs9.

(** Boards used in the examples (ControllerSim.v): ports 0 and 2 hold Qsfp28 modules, port 1 holds a
    module that does not answer reads. *)
Definition ex_board : board :=
  mkBoard (fun _ => 35) (mem_of (fun _ => 17) (fun _ => 0) (fun _ => 0))
    (fun q i => match q with HRead _ _ | HAssertReset _ => if i =? 1 then Some 8 else None
                           | HDeassertReset _ => if i =? 2 then Some 9 else None | _ => None end).
Definition ex_sp := honest_sp (board_sp ex_board).
(** Memory as the modules of [ex_board] show it. *)
Definition ex_mem := board_mem ex_board.

(** C28: the groups a read is split into have, in order, the ports of [m] in port order, each once;
    the data of each group fits into the 1024 bytes of one message, and all groups but the last have as
    many modules as fit. *)
Theorem C28_split : forall m rd, m < 2 ^ 64 -> 1 <= rd_len rd <= 255 ->
  exists gs, split_large_reads m rd = Ok gs /\
    concat (map to_indices gs) = to_indices m /\
    Forall (fun g => g <> 0 /\ g < 2 ^ 64 /\
                     (length (to_indices g) * N.to_nat (rd_len rd) <= 1024)%nat) gs /\
    Forall (fun g => length (to_indices g) = (1024 / N.to_nat (rd_len rd))%nat) (removelast gs).
Proof. exact reads_split_correct. Qed.
Print Assumptions C28_split.
Example C28_witness :
  split_large_reads (2 ^ 64 - 1) (mkRead (PageSff SffLower) 0 64) =
  Ok [65535; 65535 * 2 ^ 16; 65535 * 2 ^ 32; 65535 * 2 ^ 48].
Proof. vm_compute. reflexivity. Qed.

(** C29: an SP is given by arbitrary verdicts and state changes ([honest]); [mem i rd] is what
    reading [rd] of module [i] gives.  A read reports for each module of [m], and for no other, its
    identifier error, else its read error, else its bytes; unless a module speaks another interface
    than the page's: then the call fails naming the lowest such port and reads no page. *)
Theorem C29_read : forall St (a : honest St), honest_ok a ->
  forall (w : world St) m rd mem, m < 2 ^ 64 -> 1 <= rd_len rd <= 255 -> reads_as a (w_sp w) mem ->
  (all_speak m (ident_told mem) (rd_page rd) /\
   exists r gs, snd (ctl_read (honest_sp a) m rd w) = Ok r /\
     reports m (and_then (ident_told mem) (told (fun x => x) (fun i => mem i rd))) r /\
     deeds (ctl_read (honest_sp a) m rd) w =
       ident_request m ++ map (fun g => DRequest (HRead g rd) None) gs /\
     concat (map to_indices gs) = to_indices (passed m (ident_told mem)) /\
     Forall (fun g => g < 2 ^ 64 /\
                      (length (to_indices g) * N.to_nat (rd_len rd) <= 1024)%nat) gs) \/
  (exists i id, lowest_other m (ident_told mem) (rd_page rd) i id /\
     snd (ctl_read (honest_sp a) m rd w) =
       Err (ETransceiver (TeInvalidInterfaceForModule i id (page_interface (rd_page rd)))) /\
     deeds (ctl_read (honest_sp a) m rd) w = ident_request m).
Proof. exact @read_correct. Qed.
Print Assumptions C29_read.
Example C29_witness : honest_ok (board_sp ex_board) /\ reads_as (board_sp ex_board) tt ex_mem /\
  snd (ctl_read ex_sp 7 (mkRead (PageSff SffLower) 100 3) w0) =
  Ok (mkResult 5 [[65; 65; 65]; [67; 67; 67]] (mkFailed 2 [TeHardware 1 HwPowerFault None])).
Proof.
  split; [apply board_ok|]. split; [apply board_reads; intros m m' rd i; reflexivity|].
  vm_compute. reflexivity.
Qed.

(** C30: a write is sent once, with the given bytes, to exactly the modules whose identifier could
    be read, and every module is reported; with data of the wrong length, or a module of another
    interface, the call fails and nothing is written.  Missing from the full claim: the wrong length
    is noticed only after the identifiers were read, so "before anything is sent" is false
    ([C30_refuted]). *)
Theorem C30_partial : forall St (a : honest St), honest_ok a ->
  forall (w : world St) m wr data, let ids := ids_seen a w m in
  m < 2 ^ 64 ->
  (all_speak m ids (wr_page wr) /\ wr_len wr = Nlen data /\
   exists r s, snd (ctl_write (honest_sp a) m wr data w) = Ok r /\
     deeds (ctl_write (honest_sp a) m wr data) w =
       ident_request m ++ [DRequest (HWrite (passed m ids) wr) (Some data)] /\
     s = (if m =? 0 then w_sp w else hs_next a (w_sp w) (HRead m ident_read) None) /\
     reports m (and_then ids (told (fun _ => tt)
       (hs_verdict a s (HWrite (passed m ids) wr) (Some data)))) r) \/
  (all_speak m ids (wr_page wr) /\ wr_len wr <> Nlen data /\
   snd (ctl_write (honest_sp a) m wr data w) = Err (EInvalidWriteData (wr_len wr) (Nlen data)) /\
   deeds (ctl_write (honest_sp a) m wr data) w = ident_request m) \/
  (exists i id, lowest_other m ids (wr_page wr) i id /\
     snd (ctl_write (honest_sp a) m wr data w) =
       Err (ETransceiver (TeInvalidInterfaceForModule i id (page_interface (wr_page wr)))) /\
     deeds (ctl_write (honest_sp a) m wr data) w = ident_request m).
Proof. exact @write_correct. Qed.
Print Assumptions C30_partial.
Theorem C30_refuted : exists (b : board) e,
  snd (ctl_write (honest_sp (board_sp b)) 1 (mkWrite (PageSff SffLower) 93 1) [1; 2] w0) = Err e /\
  deeds (ctl_write (honest_sp (board_sp b)) 1 (mkWrite (PageSff SffLower) 93 1) [1; 2]) w0 <> [].
Proof. exact late_length. Qed.
Print Assumptions C30_refuted.
Example C30_witness :
  snd (ctl_write ex_sp 7 (mkWrite (PageSff SffLower) 100 2) [8; 9] w0) =
    Ok (mkResult 5 [tt; tt] (mkFailed 2 [TeHardware 1 HwPowerFault None])) /\
  deeds (ctl_write ex_sp 7 (mkWrite (PageSff SffLower) 100 2) [8; 9]) w0 =
    [DRequest (HRead 7 ident_read) None;
     DRequest (HWrite 5 (mkWrite (PageSff SffLower) 100 2)) (Some [8; 9])] /\
  snd (ctl_write ex_sp 7 (mkWrite (PageCmis CmisLower) 100 2) [8; 9] w0) =
    Err (ETransceiver (TeInvalidInterfaceForModule 0 Qsfp28 Cmis)).
Proof. repeat apply conj; vm_compute; reflexivity. Qed.

(** C31: the check accepts exactly when every identifier speaks the page's interface, and otherwise
    names a port that does not.  That no page is then read or written is in PropsGate.v, C29 and C30. *)
Theorem C31_check : forall p m ids, m < 2 ^ 64 -> one_each m ids ->
  (verify_ids_for_page p m ids = Ok tt <-> forall i id, at_port m ids i id -> speaks id p) /\
  (forall e, verify_ids_for_page p m ids = Err e ->
     exists i id, at_port m ids i id /\ ~ speaks id p /\
       e = ETransceiver (TeInvalidInterfaceForModule i id (page_interface p))).
Proof. exact verify_correct. Qed.
Print Assumptions C31_check.
Example C31_witness :
  verify_ids_for_page (PageSff SffLower) 5 [Qsfp28; QsfpPlusSff8636] = Ok tt /\
  verify_ids_for_page (PageSff SffLower) 7 [Qsfp28; QsfpDD; QsfpPlusCmis] =
    Err (ETransceiver (TeInvalidInterfaceForModule 1 QsfpDD Sff8636)).
Proof. split; vm_compute; reflexivity. Qed.

(** C32: for any SP and any reply of the documented shape (C11), the result carries for each port
    the item the SP sent for that port. *)
Theorem C32_status : forall St (sp : St -> Rpc -> St * reply) w m good bad items errs,
  Forall (fun x => bytes x = true) items ->
  documented_reply (answer sp w (HStatus m) None) (SStatus good bad) items errs ->
  exists r, snd (ctl_status sp m w) = Ok r /\ attaches (SStatus good bad) (hd 0) items errs r.
Proof. exact @status_attaches. Qed.
Print Assumptions C32_status.
Theorem C32_extended_status : forall St (sp : St -> Rpc -> St * reply) w m good bad items errs,
  Forall (fun x => bytes x = true) items -> Forall (fun x => le_value x < 512) items ->
  documented_reply (answer sp w (HExtendedStatus m) None) (SExtendedStatus good bad) items errs ->
  exists r, snd (extended_status sp m w) = Ok r /\
    attaches (SExtendedStatus good bad) le_value items errs r.
Proof. exact @ext_attaches. Qed.
Print Assumptions C32_extended_status.
Theorem C32_leds : forall St (sp : St -> Rpc -> St * reply) w m good bad items errs,
  Forall (fun x => hd 0 x < 3) items ->
  documented_reply (answer sp w (HLedState m) None) (SLedState good bad) items errs ->
  exists r, snd (leds sp m w) = Ok r /\ attaches (SLedState good bad) led_of items errs r.
Proof. exact @leds_attaches. Qed.
Print Assumptions C32_leds.
Theorem C32_identifier : forall St (sp : St -> Rpc -> St * reply) w m good bad rd items errs,
  m < 2 ^ 64 -> m <> 0 -> rd_len rd = 1 ->
  documented_reply (answer sp w (HRead m ident_read) None) (SRead good bad rd) items errs ->
  exists r, snd (identifier sp m w) = Ok r /\
    attaches (SRead good bad rd) (fun x => ident_of_byte (hd 0 x)) items errs r.
Proof. exact @identifier_attaches. Qed.
Print Assumptions C32_identifier.
(** The calls without payload: set_leds, enable_power, assert_reset, .... *)
Theorem C32_ack : forall St (sp : St -> Rpc -> St * reply) w m s c q good bad errs, In (c, q) (simple_calls sp m s) ->
  documented_reply (answer sp w q None) (SAck good bad) (repeat [] (length (to_indices good))) errs ->
  exists r, snd (c w) = Ok r /\
    attaches (SAck good bad) (fun _ => tt) (repeat [] (length (to_indices good))) errs r.
Proof. exact simple_attaches. Qed.
Print Assumptions C32_ack.
Theorem C32_macs : forall St (sp : St -> Rpc -> St * reply) w h r d,
  answer sp w HMacAddrs None = Ok (mkRpc h (message_new (BSpResponse (SMacAddrs r))) d) ->
  snd (mac_addrs sp w) = match r with MacOk macs => Ok macs | MacError e => Err (EMac e) end.
Proof. exact macs_given. Qed.
Print Assumptions C32_macs.
Example C32_witness :
  documented_reply (answer (parrot (says_back (SStatus 5 2) [3; 35; 8])) w0 (HStatus 7) None)
                   (SStatus 5 2) [[3]; [35]] [8] /\
  snd (ctl_status (parrot (says_back (SStatus 5 2) [3; 35; 8])) 7 w0) =
    Ok (mkResult 5 [3; 35] (mkFailed 2 [TeHardware 1 HwPowerFault None])).
Proof.
  split; [|vm_compute; reflexivity]. eexists _, _.
  split; [reflexivity|]. split; [reflexivity|]. split; [reflexivity|]. split; [reflexivity|].
  split; [exact (proj1 (to_indices_correct 5 eq_refl))|].
  split; [exact (proj1 (to_indices_correct 2 eq_refl))|].
  split; [vm_compute; reflexivity|]. split; [repeat constructor|vm_compute; reflexivity].
Qed.

(** C33, what holds: a reply of another kind than the request asks for gives [UnexpectedMessage];
    and if every reply is an error, another kind of message, or an answer of the documented shape
    about the modules asked for with defined values ([sane]), no call crashes.  Missing from the
    full claim: replies that are not [sane] crash the caller ([C33_*_refuted]). *)
Theorem C33_wrong_kind_partial : forall St (sp : St -> Rpc -> St * reply) w m b,
  (wrong_kind sp w (HLedState m) None b -> snd (leds sp m w) = Err (EUnexpectedMessage b)) /\
  (wrong_kind sp w (HStatus m) None b -> snd (ctl_status sp m w) = Err (EUnexpectedMessage b)) /\
  (wrong_kind sp w (HExtendedStatus m) None b ->
     snd (extended_status sp m w) = Err (EUnexpectedMessage b)) /\
  (wrong_kind sp w HMacAddrs None b -> snd (mac_addrs sp w) = Err (EUnexpectedMessage b)) /\
  (forall q, (forall x y, answers q (SAck x y) = true) -> wrong_kind sp w q None b ->
     snd (no_payload_request sp q w) = Err (EUnexpectedMessage b)) /\
  (forall wr data, wr_len wr = Nlen data -> wrong_kind sp w (HWrite m wr) (Some data) b ->
     snd (write_impl sp m wr data w) = Err (EUnexpectedMessage b)) /\
  (forall rd, fits_in_one_message m rd = true -> wrong_kind sp w (HRead m rd) None b ->
     snd (read_impl_one_message sp m rd w) = Err (EUnexpectedMessage b)) /\
  (m < 2 ^ 64 -> m <> 0 -> wrong_kind sp w (HRead m ident_read) None b ->
     snd (identifier sp m w) = Err (EUnexpectedMessage b)).
Proof. exact @wrong_kinds. Qed.
Print Assumptions C33_wrong_kind_partial.
Theorem C33_no_crash_partial : forall St (sp : St -> Rpc -> St * reply), sane sp ->
  forall m, m < 2 ^ 64 ->
  calm (leds sp m) /\ calm (ctl_status sp m) /\ calm (extended_status sp m) /\ calm (mac_addrs sp) /\
  calm (identifier sp m) /\ calm (reset sp m) /\ calm (power sp m) /\
  (forall rd, 1 <= rd_len rd <= 255 -> calm (ctl_read sp m rd)) /\
  (forall wr data, calm (ctl_write sp m wr data)) /\
  (forall st, calm (set_power sp m st)).
Proof. exact @sane_calm. Qed.
Print Assumptions C33_no_crash_partial.
(** Datagrams that the I/O loop accepts as the answer (C20) and that crash the caller: an LED value
    of 3; an extended status with an undefined bit; a read answer about one byte instead of two. *)
Theorem C33_leds_refuted : exists d resp, completes (sent (HLedState 1)) d resp /\
  snd (leds (parrot resp) 1 w0) = Panic.
Proof. exact leds_crash. Qed.
Print Assumptions C33_leds_refuted.
Theorem C33_extended_status_refuted : exists d resp, completes (sent (HExtendedStatus 1)) d resp /\
  snd (extended_status (parrot resp) 1 w0) = Panic.
Proof. exact ext_crash. Qed.
Print Assumptions C33_extended_status_refuted.
Theorem C33_read_refuted : exists d resp, completes (sent (HRead 1 (mkRead (PageSff SffLower) 0 2))) d resp /\
  snd (read_impl (parrot resp) 1 (mkRead (PageSff SffLower) 0 2) w0) = Panic.
Proof. exact read_crash. Qed.
Print Assumptions C33_read_refuted.
Example C33_witness :
  wrong_kind (parrot (says_back (SAck 1 0) [])) w0 (HLedState 1) None (BSpResponse (SAck 1 0)) /\
  sane (honest_sp (board_sp ex_board)).
Proof.
  split.
  - eexists. repeat split. intros r [= <-]. reflexivity.
  - apply board_sane.
Qed.

(** C34: reset asserts reset, waits, deasserts it on the modules that acknowledged, waits; every
    module is reported with the error of its first failing step or as a success. *)
Theorem C34_reset : forall St (a : honest St), honest_ok a ->
  forall (w : world St) m, m < 2 ^ 64 ->
  let v1 := hs_verdict a (w_sp w) (HAssertReset m) None in
  let s1 := hs_next a (w_sp w) (HAssertReset m) None in
  let m1 := good_mask m v1 in
  let v2 := hs_verdict a s1 (HDeassertReset m1) None in
  deeds (reset (honest_sp a) m) w =
    [DRequest (HAssertReset m) None; DSleep 10;
     DRequest (HDeassertReset m1) None; DSleep 2000000] /\
  exists r, snd (reset (honest_sp a) m w) = Ok r /\
    reports m (and_then (told (fun _ => tt) v1) (told (fun _ => tt) v2)) r.
Proof. exact @reset_correct. Qed.
Print Assumptions C34_reset.
Example C34_witness :
  snd (reset ex_sp 7 w0) = Ok (mkResult 1 [tt] (mkFailed 6 [TeHardware 1 HwPowerFault None; TeHardware 2 HwNotInitialized None])).
Proof. vm_compute. reflexivity. Qed.

(** C35, when every readable module (supplied, not in reset) has a supported identifier: the modules
    reported, their modes and the failed set are exactly those of [power_says]; errors too, when the
    failing modules are in the order the query meets them.  Missing from the full claim: an
    unsupported module fails the whole call, and other errors are swapped
    ([C40_unsupported_refuted], [C40_swapped_refuted], which also show [power]). *)
Theorem C35_partial : forall St (a : honest St), honest_ok a ->
  forall (w : world St) m mem, let st := hs_verdict a (w_sp w) (HStatus m) None in
  m < 2 ^ 64 -> reads_as a (hs_next a (w_sp w) (HStatus m) None) mem ->
  (forall i id, member i m -> readable st i = true -> ident_told mem i = inl id -> supported_kind id = true) ->
  exists r ds, snd (power (honest_sp a) m w) = Ok r /\
    (forall i x, succeeds r i x <-> member i m /\ power_says st (control_says mem) i = inl x) /\
    (forall i, failed r i <-> member i m /\ exists e, power_says st (control_says mem) i = inr e) /\
    one_each (mr_modules r) (mr_data r) /\ wf_failed (mr_failures r) /\
    deeds (power (honest_sp a) m) w = DRequest (HStatus m) None :: ds /\ Forall only_looks ds /\
    (fails_in_order power_reads power_parse mem (readable_mask m st) ->
     reports m (power_says st (control_says mem)) r).
Proof. exact @power_correct. Qed.
Print Assumptions C35_partial.
Example C35_witness :
  snd (power (honest_sp (board_sp board_mixed)) 3 w0) =
    Ok (mkResult 3 [mkPowerMode PowerHigh (Some false); mkPowerMode PowerOff None] (mkFailed 0 [])) /\
  snd (power ex_sp 7 w0) =
    Ok (mkResult 5 [mkPowerMode PowerHigh (Some false); mkPowerMode PowerHigh (Some false)]
                 (mkFailed 2 [TeHardware 1 HwPowerFault None])).
Proof. split; vm_compute; reflexivity. Qed.

(** C36 *)
Theorem C36_power_off : forall St (a : honest St), honest_ok a ->
  forall (w : world St) m, m < 2 ^ 64 ->
  let v1 := hs_verdict a (w_sp w) (HDeassertLpMode m) None in
  let s1 := hs_next a (w_sp w) (HDeassertLpMode m) None in
  let m1 := good_mask m v1 in
  let v2 := hs_verdict a s1 (HAssertReset m1) None in
  let s2 := hs_next a s1 (HAssertReset m1) None in
  let m2 := good_mask m1 v2 in
  let v3 := hs_verdict a s2 (HDisablePower m2) None in
  deeds (set_power (honest_sp a) m PowerOff) w =
    [DRequest (HDeassertLpMode m) None; DRequest (HAssertReset m1) None; DRequest (HDisablePower m2) None] /\
  exists r, snd (set_power (honest_sp a) m PowerOff w) = Ok r /\
    reports m (and_then (told (fun _ => tt) v1) (and_then (told (fun _ => tt) v2) (told (fun _ => tt) v3))) r.
Proof. exact @power_off_correct. Qed.
Print Assumptions C36_power_off.
Example C36_witness :
  snd (set_power ex_sp 7 PowerOff w0) = Ok (mkResult 5 [tt; tt] (mkFailed 2 [TeHardware 1 HwPowerFault None])) /\
  deeds (set_power ex_sp 7 PowerOff) w0 =
    [DRequest (HDeassertLpMode 7) None; DRequest (HAssertReset 7) None; DRequest (HDisablePower 5) None].
Proof. split; vm_compute; reflexivity. Qed.

(** C37, for any SP: when the power query reports a module off (C35). *)
Theorem C37_high_refused : forall St (sp : St -> Rpc -> St * reply) w m r,
  snd (power sp m w) = Ok r ->
  Exists (fun x => pm_state x = PowerOff) (mr_data r) ->
  set_power sp m PowerHigh w = (fst (power sp m w), Err EInvalidPowerStateTransition) /\
  Forall only_looks (deeds (set_power sp m PowerHigh) w).
Proof. exact @high_refused. Qed.
Print Assumptions C37_high_refused.
Example C37_witness : exists r, snd (power (honest_sp (board_sp board_mixed)) 3 w0) = Ok r /\
  Exists (fun x => pm_state x = PowerOff) (mr_data r).
Proof. eexists. split; [vm_compute; reflexivity|]. right. left. reflexivity. Qed.

(** C38, what holds: modules of one supported kind, with an SP whose verdicts do not change.

    All modules on, none overriding the pin in software: the modules pass status, status, LPMode pin,
    identifier and the software write; those that pass all are the successes, all others fail. *)
Theorem C38_on_partial : forall St (a : honest St), honest_ok a -> forall v, steady a v ->
  forall mem, (forall m rd i, v (HRead m rd) None i = mem i rd) ->
  forall (w : world St) m st k, st <> PowerOff -> m < 2 ^ 64 -> supported_kind k = true ->
  all_kind k m mem -> all_on m v ->
  (forall i c, member i m -> control_says mem i = inl c -> c = UseLpModePin) ->
  let m1 := passed m (power_says (v (HStatus m) None) (control_says mem)) in
  let m2 := good_mask m1 (v (HStatus m1) None) in
  let m3 := good_mask m2 (v (lpmode_request st m2) None) in
  let m4 := good_mask m3 (fun i => mem i ident_read) in
  let m5 := good_mask m4 (v (HWrite m4 (soft_place k)) (Some [soft_word k false st])) in
  exists r ds, snd (set_power (honest_sp a) m st w) = Ok r /\ accounts m m5 r /\ Forall only_looks ds /\
    deeds (set_power (honest_sp a) m st) w =
      DRequest (HStatus m) None :: ds ++
      DRequest (HStatus m1) None :: DRequest (lpmode_request st m2) None ::
      ident_request m3 ++ software_deeds k st m4.
Proof. exact @set_power_on_looks. Qed.
Print Assumptions C38_on_partial.
(** All modules off, and all pin requests obeyed: the modules are held in reset, powered, put into
    LPMode, taken out of reset, and then written. *)
Theorem C38_raise_partial : forall St (a : honest St), honest_ok a -> forall v, steady a v ->
  forall mem, (forall m rd i, v (HRead m rd) None i = mem i rd) ->
  forall (w : world St) m k, m < 2 ^ 64 -> supported_kind k = true ->
  all_kind k m mem -> all_off m v -> pins_obey m v ->
  let m1 := good_mask m (v (HStatus m) None) in
  let m2 := good_mask m1 (v (HStatus m1) None) in
  let m4 := good_mask m2 (fun i => mem i ident_read) in
  let m5 := good_mask m4 (v (HWrite m4 (soft_place k)) (Some [soft_word k false PowerLow])) in
  exists r, snd (set_power (honest_sp a) m PowerLow w) = Ok r /\ accounts m m5 r /\
    deeds (set_power (honest_sp a) m PowerLow) w =
      DRequest (HStatus m) None :: DRequest (HStatus m1) None ::
      raise_deeds m2 (reset_ports m2 (v (HStatus m1) None)) ++
      ident_request m2 ++ software_deeds k PowerLow m4.
Proof. exact @set_power_raise_correct. Qed.
Print Assumptions C38_raise_partial.
(** C38 as stated is false.  A module under software override is reported neither way; *)
Theorem C38_override_refuted : exists (b : board) r,
  snd (set_power (honest_sp (board_sp b)) 1 PowerLow w0) = Ok r /\
  member 0 1 /\ ~ member 0 (mr_modules r) /\ ~ failed r 0.
Proof. exact lost_override. Qed.
Print Assumptions C38_override_refuted.
(** with modules on and off, one that is on is neither reported nor put into LPMode; *)
Theorem C38_mixed_refuted : exists (b : board) r,
  snd (set_power (honest_sp (board_sp b)) 3 PowerLow w0) = Ok r /\
  member 0 3 /\ ~ member 0 (mr_modules r) /\ ~ failed r 0 /\
  Forall (fun d => match d with DRequest (HAssertLpMode m) _ => ~ member 0 m | _ => True end)
         (deeds (set_power (honest_sp (board_sp b)) 3 PowerLow) w0).
Proof. exact lost_mixed. Qed.
Print Assumptions C38_mixed_refuted.
(** with an SFF and a CMIS module no module is reported, and the second is not written; *)
Theorem C38_kinds_refuted : exists (b : board) r,
  snd (set_power (honest_sp (board_sp b)) 3 PowerLow w0) = Ok r /\
  (forall i, ~ member i (mr_modules r) /\ ~ failed r i) /\
  Forall (fun d => match d with DRequest (HWrite m _) _ => ~ member 1 m | _ => True end)
         (deeds (set_power (honest_sp (board_sp b)) 3 PowerLow) w0).
Proof. exact lost_kinds. Qed.
Print Assumptions C38_kinds_refuted.
(** a module that refused to be powered is reported both as failed and as successful. *)
Theorem C38_both_refuted : exists (b : board) r,
  snd (set_power (honest_sp (board_sp b)) 3 PowerLow w0) = Ok r /\ member 0 (mr_modules r) /\ failed r 0.
Proof. exact both_ways. Qed.
Print Assumptions C38_both_refuted.
(** The hypotheses of both parts hold for boards with some failing modules. *)
Example C38_witness :
  let v q (_ : option (list N)) i := board_verdict ex_board q i in
  steady (board_sp ex_board) v /\ supported_kind Qsfp28 = true /\ all_kind Qsfp28 7 ex_mem /\
  all_on 7 v /\ snd (set_power ex_sp 7 PowerHigh w0) =
    Ok (mkResult 5 [tt; tt] (mkFailed 2 [TeHardware 1 HwPowerFault None])) /\
  let b := mkBoard (fun i => if i =? 0 then 1 else 39) (mem_of (fun _ => 17) (fun _ => 0) (fun _ => 0)) none_fail in
  all_off 7 (fun q _ i => board_verdict b q i) /\ pins_obey 7 (fun q _ i => board_verdict b q i) /\
  snd (set_power (honest_sp (board_sp b)) 7 PowerLow w0) = Ok (mkResult 7 [tt; tt; tt] (mkFailed 0 [])).
Proof.
  cbv zeta. split; [apply board_steady|]. split; [reflexivity|].
  split; [intros i id _; unfold ident_told, told, ex_mem, board_mem, board_verdict; cbn [ex_board b_fail];
          destruct (i =? 1); [discriminate|]; intros [= <-]; reflexivity|].
  split; [intros mm i d _ [= <-]; split; reflexivity|]. split; [vm_compute; reflexivity|].
  split; [intros mm i d _; unfold board_verdict; cbn [b_fail none_fail b_status]; destruct (i =? 0);
          intros [= <-]; [left|right]; reflexivity|].
  split; [intros mm i _; repeat split|]. vm_compute. reflexivity.
Qed.

(** C39: the byte [set_power] writes for state [st] with or without software override, read back by
    the power decoder at the place where it was written. *)
Theorem C39_words : forall id ov st, supported_kind id = true -> st <> PowerOff ->
  exists wr b, power_word id ov st = Ok (wr, b) /\ b < 256 /\ wr_len wr = 1 /\
    power_parse id [[b]] =
      Ok (if ov then OverrideLpModePin (match st with PowerLow => true | _ => false end) else UseLpModePin) /\
    exists rd, power_reads id = Ok [rd] /\ rd_offset rd = wr_offset wr /\ rd_len rd = wr_len wr.
Proof. exact power_word_correct. Qed.
Print Assumptions C39_words.
(** The request sent for modules [m], whatever the SP answers: one write of that word, at that place. *)
Theorem C39_written : forall St (sp : St -> Rpc -> St * reply) id st ov m s w, supported_kind id = true -> st <> PowerOff ->
  exists wr b, power_word id ov st = Ok (wr, b) /\
    deeds (soft_write sp id st ov m s) w = [DRequest (HWrite m wr) (Some [b])].
Proof. exact soft_write_sends. Qed.
Print Assumptions C39_written.
Example C39_witness : supported_kind QsfpDD = true /\
  power_word QsfpDD true PowerLow = Ok (mkWrite (PageSff SffLower) 26 1, 16).
Proof. split; vm_compute; reflexivity. Qed.

(** C40, for any decoder ([reads], [parse]) whose identifiers are supported and whose parse does not
    crash: values and the failed set are exactly those of [says]; the errors are those of the failed
    modules, one per failed module, and correctly attributed when the failing modules are in the
    order the query meets them.  Missing from the full claim: an unsupported module fails the call,
    and other errors are swapped ([C40_*_refuted]). *)
Theorem C40_partial : forall St (a : honest St), honest_ok a ->
  forall P reads (parse : Identifier -> list (list N) -> outcome DecodeError P) mem (w : world St) m,
  m < 2 ^ 64 -> reads_as a (w_sp w) mem -> queryable reads parse mem m ->
  exists r ds, snd (parse_modules_by_identifier (honest_sp a) reads parse m w) = Ok r /\
    deeds (parse_modules_by_identifier (honest_sp a) reads parse m) w = ds /\ Forall only_looks ds /\
    (forall i x, succeeds r i x <-> member i m /\ says reads parse mem i = inl x) /\
    one_each (mr_modules r) (mr_data r) /\
    (forall i, failed r i <-> member i m /\ exists e, says reads parse mem i = inr e) /\
    wf_failed (mr_failures r) /\
    (forall e, In e (fm_errors (mr_failures r)) <-> exists i, member i m /\ says reads parse mem i = inr e) /\
    (fails_in_order reads parse mem m -> reports m (says reads parse mem) r).
Proof. exact @query_correct_spec. Qed.
Print Assumptions C40_partial.
Theorem C40_unsupported_refuted : exists (b : board) e, fail_each b /\
  snd (power (honest_sp (board_sp b)) 3 w0) = Err e /\
  snd (parse_modules_by_identifier (honest_sp (board_sp b)) power_reads power_parse 3 w0) = Err e /\
  says power_reads power_parse (board_mem b) 0 = inl UseLpModePin.
Proof. exact one_spoils_all. Qed.
Print Assumptions C40_unsupported_refuted.
Theorem C40_swapped_refuted : exists (b : board) r r', fail_each b /\
  snd (parse_modules_by_identifier (honest_sp (board_sp b)) power_reads power_parse 3 w0) = Ok r /\
  snd (power (honest_sp (board_sp b)) 3 w0) = Ok r' /\
  (forall x, fails r 0 x \/ fails r' 0 x -> x <> hw_fault 0 8) /\
  says power_reads power_parse (board_mem b) 0 = inr (hw_fault 0 8) /\
  power_says (hs_verdict (board_sp b) tt (HStatus 3) None) (control_says (board_mem b)) 0 = inr (hw_fault 0 8).
Proof. exact swapped_errors. Qed.
Print Assumptions C40_swapped_refuted.
Example C40_witness :
  queryable power_reads power_parse ex_mem 7 /\
  snd (parse_modules_by_identifier ex_sp power_reads power_parse 7 w0) =
    Ok (mkResult 5 [UseLpModePin; UseLpModePin] (mkFailed 2 [TeHardware 1 HwPowerFault None])).
Proof.
  split; [|vm_compute; reflexivity]. intros i _.
  unfold said, ident_told, told, ex_mem, board_mem, board_verdict. cbn [ex_board b_fail].
  destruct (i =? 1) eqn:E; [split; discriminate|].
  split.
  - change (ident_of_byte _) with Qsfp28. unfold own. change (power_reads Qsfp28) with
      (Ok (E := DecodeError) [mkRead (PageSff SffLower) 93 1]). cbn [gather]. unfold board_verdict. cbn [ex_board b_fail].
    rewrite E. vm_compute. discriminate.
  - intros id [= <-]. eexists. split; [vm_compute; reflexivity|]. repeat constructor; vm_compute; discriminate.
Qed.
