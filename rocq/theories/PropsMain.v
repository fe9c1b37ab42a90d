(** Properties C68-C70: the commands of controller/src/bin/xcvradm.rs, from the command line to the screen. *)
From Coq Require Import String.
From Verif Require Import Tac Spec SpecMain MainProofs MainProofs2 ControllerSim ScopeProofs2 QueryProofs DecodeProofs9 PropsDecode PropsQuery.
Import ListNotations.
Open Scope N_scope.

(** C68: whatever the SP answers, a command asks only for what it is for ([may_send]), besides requests that
    change nothing. *)
Theorem C68_privilege : forall St (sp : St -> Rpc -> St * reply) show_f32 show g w,
  Forall (permitted (ar_cmd g)) (deeds_of (main sp show_f32 show g) w).
Proof. exact @main_permitted. Qed.
Print Assumptions C68_privilege.
(** If the SP answers about modules it was asked about: after the modules named on the command line are known
    (C56), no other module is touched. *)
Theorem C68_scope : forall St (sp : St -> Rpc -> St * reply) show_f32 show, scoped sp -> forall g w w1 m,
  addressing sp g w w1 m ->
  exists ds, deeds_of (main sp show_f32 show g) w = deeds (address_transceivers sp (named g)) w ++ ds /\
    forall q d i, In (DRequest q d) ds -> member i (request_modules q) -> member i m.
Proof. exact @main_scope. Qed.
Print Assumptions C68_scope.
(** If they cannot be known, nothing else is done. *)
Theorem C68_unaddressed : forall St (sp : St -> Rpc -> St * reply) show_f32 show g w w1,
  (forall e, address_transceivers sp (named g) w = (w1, Err e) -> main sp show_f32 show g w = (w1, Err (Some e))) /\
  (address_transceivers sp (named g) w = (w1, Panic) -> main sp show_f32 show g w = (w1, Panic)).
Proof. exact @main_unaddressed. Qed.
Print Assumptions C68_unaddressed.

(** C69: commands that send one request print nothing but the modules that failed and why, or with
    [--ignore-errors] nothing. *)
Theorem C69_pins : forall St (a : honest St), honest_ok a -> forall show_f32 show g w w1 m,
  addressing (honest_sp a) g w w1 m -> m < 2 ^ 64 ->
  forall s c q, In (c, q) (pin_commands m s) -> ar_cmd g = c ->
  deeds_of (main (honest_sp a) show_f32 show g) w =
    deeds (address_transceivers (honest_sp a) (named g)) w ++ [DRequest q None] /\
  snd (main (honest_sp a) show_f32 show g w) =
    Ok (mkScreen [] (error_report show g (failed_ports m (told (fun _ => tt) (hs_verdict a (w_sp w1) q None))))).
Proof. exact @main_pins. Qed.
Print Assumptions C69_pins.
Theorem C69_reset : forall St (a : honest St), honest_ok a -> forall show_f32 show g w w1 m,
  addressing (honest_sp a) g w w1 m -> m < 2 ^ 64 -> ar_cmd g = CReset ->
  let v1 := hs_verdict a (w_sp w1) (HAssertReset m) None in
  let s1 := hs_next a (w_sp w1) (HAssertReset m) None in
  let m1 := good_mask m v1 in
  let v2 := hs_verdict a s1 (HDeassertReset m1) None in
  deeds_of (main (honest_sp a) show_f32 show g) w =
    deeds (address_transceivers (honest_sp a) (named g)) w ++
    [DRequest (HAssertReset m) None; DSleep 10; DRequest (HDeassertReset m1) None; DSleep 2000000] /\
  snd (main (honest_sp a) show_f32 show g w) = Ok (mkScreen [] (error_report show g
    (failed_ports m (and_then (told (fun _ => tt) v1) (told (fun _ => tt) v2))))).
Proof. exact @main_reset. Qed.
Print Assumptions C69_reset.
Theorem C69_power_off : forall St (a : honest St), honest_ok a -> forall show_f32 show g w w1 m,
  addressing (honest_sp a) g w w1 m -> m < 2 ^ 64 -> ar_cmd g = CSetPower PowerOff ->
  let v1 := hs_verdict a (w_sp w1) (HDeassertLpMode m) None in
  let s1 := hs_next a (w_sp w1) (HDeassertLpMode m) None in
  let m1 := good_mask m v1 in
  let v2 := hs_verdict a s1 (HAssertReset m1) None in
  let s2 := hs_next a s1 (HAssertReset m1) None in
  let m2 := good_mask m1 v2 in
  let v3 := hs_verdict a s2 (HDisablePower m2) None in
  deeds_of (main (honest_sp a) show_f32 show g) w =
    deeds (address_transceivers (honest_sp a) (named g)) w ++
    [DRequest (HDeassertLpMode m) None; DRequest (HAssertReset m1) None; DRequest (HDisablePower m2) None] /\
  snd (main (honest_sp a) show_f32 show g w) = Ok (mkScreen [] (error_report show g
    (failed_ports m (and_then (told (fun _ => tt) v1) (and_then (told (fun _ => tt) v2) (told (fun _ => tt) v3)))))).
Proof. exact @main_power_off. Qed.
Print Assumptions C69_power_off.
(** The other power states make the call of C38. *)
Theorem C69_power_on : forall St (a : honest St), forall show_f32 show g w w1 m,
  addressing (honest_sp a) g w w1 m -> m < 2 ^ 64 -> forall st f r,
  ar_cmd g = CSetPower st -> snd (set_power (honest_sp a) m st w1) = Ok r -> reports m f r ->
  deeds_of (main (honest_sp a) show_f32 show g) w =
    deeds (address_transceivers (honest_sp a) (named g)) w ++ deeds (set_power (honest_sp a) m st) w1 /\
  snd (main (honest_sp a) show_f32 show g w) = Ok (mkScreen [] (error_report show g (failed_ports m f))).
Proof. exact @main_power_on. Qed.
Print Assumptions C69_power_on.
(** A write (C58). *)
Theorem C69_write : forall St (a : honest St), honest_ok a -> forall show_f32 show g w w1 m,
  addressing (honest_sp a) g w w1 m -> m < 2 ^ 64 -> forall page input offset p d,
  let ids := ids_seen a w1 m in let wr := mkWrite p offset (Nlen d) in
  ar_cmd g = CWrite page input offset -> args_page page = Ok p -> args_data input = Ok d -> Nlen d < 256 ->
  access_ok (write_limit p) p offset (Nlen d) ->
  (all_speak m ids p /\
   exists s, s = (if m =? 0 then w_sp w1 else hs_next a (w_sp w1) (HRead m ident_read) None) /\
     deeds_of (main (honest_sp a) show_f32 show g) w =
       deeds (address_transceivers (honest_sp a) (named g)) w ++
       ident_request m ++ [DRequest (HWrite (passed m ids) wr) (Some d)] /\
     snd (main (honest_sp a) show_f32 show g w) = Ok (mkScreen [] (error_report show g
       (failed_ports m (and_then ids (told (fun _ => tt) (hs_verdict a s (HWrite (passed m ids) wr) (Some d)))))))) \/
  (exists i id, lowest_other m ids p i id /\
     deeds_of (main (honest_sp a) show_f32 show g) w =
       deeds (address_transceivers (honest_sp a) (named g)) w ++ ident_request m /\
     snd (main (honest_sp a) show_f32 show g w) =
       Err (Some (ETransceiver (TeInvalidInterfaceForModule i id (page_interface p))))).
Proof. exact @main_write. Qed.
Print Assumptions C69_write.

(** C70: queries print the table of what the named modules report (C65-C67 say what it shows) in the form asked for, and
    the modules that failed and why. *)
Theorem C70_leds : forall St (a : honest St), honest_ok a -> forall show_f32 show g w w1 m,
  addressing (honest_sp a) g w w1 m -> m < 2 ^ 64 -> forall args,
  let vs := hs_verdict a (w_sp w1) (HLedState m) None in
  ar_cmd g = CLeds args -> (forall i d, member i m -> vs i = inl d -> hd 0 d < 3) ->
  exists r, reports m (told led_of vs) r /\
    snd (main (honest_sp a) show_f32 show g w) =
      Ok (mkScreen (lines (print_led_state r (shown_as args))) (error_report show g (failed_ports m (told led_of vs)))).
Proof. exact @main_leds. Qed.
Print Assumptions C70_leds.
Theorem C70_identify : forall St (a : honest St), honest_ok a -> forall show_f32 show g w w1 m,
  addressing (honest_sp a) g w w1 m -> m < 2 ^ 64 -> forall args mem,
  ar_cmd g = CIdentify args -> reads_as a (w_sp w1) mem ->
  exists r, reports m (ident_told mem) r /\
    snd (main (honest_sp a) show_f32 show g w) =
      Ok (mkScreen (lines (print_module_identifier r (shown_as args))) (error_report show g (failed_ports m (ident_told mem)))).
Proof. exact @main_identify. Qed.
Print Assumptions C70_identify.
Theorem C70_status : forall St (a : honest St), honest_ok a -> forall show_f32 show g w w1 m,
  addressing (honest_sp a) g w w1 m -> m < 2 ^ 64 -> forall wi wo all pa output sep omit kind,
  let vs := hs_verdict a (w_sp w1) (HExtendedStatus m) None in
  ar_cmd g = CStatus wi wo all pa output sep omit -> status_kind wi wo all pa sep = Ok kind ->
  (forall i d, member i m -> vs i = inl d -> le_value d < 512) ->
  exists r, reports m (told le_value vs) r /\
    snd (main (honest_sp a) show_f32 show g w) =
      match print_module_status r omit kind output with
      | Ok o => Ok (mkScreen (lines o) (status_note wi wo ++
                                        error_report show g (failed_ports m (told le_value vs))))
      | _ => Panic
      end.
Proof. exact @main_status. Qed.
Print Assumptions C70_status.
(** C70: which form of status the options ask for; other combinations are ruled out when parsing. *)
Theorem C70_status_form : forall wi wo sep,
  status_kind None None false false sep = Ok SkNormal /\ status_kind None None true false sep = Ok SkAll /\
  status_kind None None false true sep = Ok (SkParseable (match sep with Some s => s | None => T ":" end)) /\
  (wi <> None \/ wo <> None -> status_kind wi wo false false sep = Ok (SkLimited (flags_given wi) (flags_given wo))) /\
  (forall all pa, (wi <> None \/ wo <> None) /\ (all = true \/ pa = true) \/ all = true /\ pa = true ->
     status_kind wi wo all pa sep = Panic).
Proof. exact status_form. Qed.
Print Assumptions C70_status_form.
Theorem C70_vendor : forall St (a : honest St), honest_ok a -> forall show_f32 show g w w1 m,
  addressing (honest_sp a) g w w1 m -> m < 2 ^ 64 -> forall args k,
  ar_cmd g = CVendorInfo args -> reads_as a (w_sp w1) (SpecQuery.shows k) ->
  all_modules m k (fun mem => supported_kind (kind_of mem) = true) ->
  exists r, reads_out m k vendor_of r /\
    snd (main (honest_sp a) show_f32 show g w) =
      Ok (mkScreen (lines (print_vendor_info r (shown_as args))) (error_report show g (rack_fails m k))).
Proof. exact @main_vendor. Qed.
Print Assumptions C70_vendor.
Theorem C70_macs : forall St (sp : St -> Rpc -> St * reply) show_f32 show g w w1 m summary h d base count stride r,
  addressing sp g w w1 m -> ar_cmd g = CMacs summary ->
  SpecController.answer sp w1 HMacAddrs None = Ok (mkRpc h (message_new (BSpResponse (SMacAddrs (MacOk r)))) d) ->
  mac_ok base = true -> mac_addrs_new base count stride = Ok r ->
  exists out, print_mac_address_range r summary = Ok out /\ snd (main sp show_f32 show g w) = Ok (mkScreen (lines out) []).
Proof. exact @main_macs. Qed.
Print Assumptions C70_macs.
(** The full claim has these for all modules, with every error at the module it belongs to; see C40, C53 and C64 for
    what is missing. *)
Theorem C70_power_partial : forall St (a : honest St), honest_ok a -> forall show_f32 show g w w1 m,
  addressing (honest_sp a) g w w1 m -> m < 2 ^ 64 -> forall args mem,
  let st := hs_verdict a (w_sp w1) (HStatus m) None in
  ar_cmd g = CPower args -> reads_as a (hs_next a (w_sp w1) (HStatus m) None) mem ->
  (forall i id, member i m -> readable st i = true -> ident_told mem i = inl id -> supported_kind id = true) ->
  fails_in_order power_reads power_parse mem (readable_mask m st) ->
  exists r, reports m (power_says st (control_says mem)) r /\
    snd (main (honest_sp a) show_f32 show g w) =
      Ok (mkScreen (lines (print_power_mode r (shown_as args)))
                   (error_report show g (failed_ports m (power_says st (control_says mem))))).
Proof. exact @main_power. Qed.
Print Assumptions C70_power_partial.
Theorem C70_read_partial : forall St (a : honest St), honest_ok a -> forall show_f32 show g w w1 m,
  addressing (honest_sp a) g w w1 m -> m < 2 ^ 64 -> forall page binary offset len args mem content p rds,
  ar_cmd g = CRead page binary offset len args -> SpecCmd.shows mem content -> args_page page = Ok p ->
  offset < 256 -> 1 <= len < 256 -> reads_as a (w_sp w1) mem -> build_many_reads p offset len = Ok rds ->
  all_speak m (ident_told mem) p -> (forall i, member i m -> early_ok mem i rds) ->
  exists r, reports m (window_says mem content p offset len rds) r /\
    snd (main (honest_sp a) show_f32 show g w) =
      Ok (mkScreen (lines (print_read_data r binary (shown_as args)))
                   (error_report show g (failed_ports m (window_says mem content p offset len rds)))).
Proof. exact @main_read. Qed.
Print Assumptions C70_read_partial.
(** C70: a read of no bytes asks the modules nothing and prints nothing, whatever the SP. *)
Theorem C70_read_empty : forall St (sp : St -> Rpc -> St * reply) show_f32 show g w w1 m page binary offset args,
  addressing sp g w w1 m -> ar_cmd g = CRead page binary offset 0 args ->
  main sp show_f32 show g w = (w1, Ok (mkScreen [] [])).
Proof. exact @main_read_empty. Qed.
Print Assumptions C70_read_empty.
Theorem C70_memory_partial : forall St (a : honest St), honest_ok a -> forall show_f32 show g w w1 m,
  addressing (honest_sp a) g w w1 m -> m < 2 ^ 64 -> forall args k,
  ar_cmd g = CMemoryModel args -> reads_as a (w_sp w1) (SpecQuery.shows k) ->
  all_modules m k (fun mem => supported_kind (kind_of mem) = true) ->
  all_modules m k (fun mem => ~ reserved_banks (kind_of mem) mem) ->
  exists r out, reads_out m k memory_model_of r /\ print_module_memory_model r (shown_as args) = Ok out /\
    snd (main (honest_sp a) show_f32 show g w) = Ok (mkScreen (lines out) (error_report show g (rack_fails m k))).
Proof. exact @main_memory. Qed.
Print Assumptions C70_memory_partial.
Theorem C70_monitors_partial : forall St (a : honest St), honest_ok a -> forall show_f32 show g w w1 m,
  addressing (honest_sp a) g w w1 m -> m < 2 ^ 64 -> forall args k,
  ar_cmd g = CMonitors args -> reads_as a (w_sp w1) (SpecQuery.shows k) ->
  all_modules m k (fun mem => supported_kind (kind_of mem) = true) -> bytes_rack k ->
  all_modules m k (fun mem => cmis_kind (kind_of mem) = true -> bias_scale (mem (cmis_up 1) 160) <> None) ->
  exists r out, reads_out m k monitors_of r /\ print_monitors show_f32 r (shown_as args) = Ok out /\
    snd (main (honest_sp a) show_f32 show g w) = Ok (mkScreen (lines out) (error_report show g (rack_fails m k))).
Proof. exact @main_monitors. Qed.
Print Assumptions C70_monitors_partial.
Theorem C70_datapath_partial : forall St (a : honest St), honest_ok a -> forall show_f32 show g w w1 m,
  addressing (honest_sp a) g w w1 m -> m < 2 ^ 64 -> forall k,
  ar_cmd g = CDatapath -> reads_as a (w_sp w1) (SpecQuery.shows k) ->
  all_modules m k (fun mem => supported_kind (kind_of mem) = true) -> bytes_rack k -> all_modules m k datapath_sound ->
  exists r, reads_out m k datapath_of r /\
    snd (main (honest_sp a) show_f32 show g w) = Ok (mkScreen (print_datapath r) (error_report show g (rack_fails m k))).
Proof. exact @main_datapath. Qed.
Print Assumptions C70_datapath_partial.

Definition ex_args (c : Cmd) (t : option Transceivers) (ign : bool) : Args := mkArgs c t [] [] 0 None 11112 None 1000 ign.
Definition fail_main := main (honest_sp (board_sp (mkBoard (fun _ => 1) (fun _ _ _ => 0)
  (fun q i => match q with HAssertReset _ => if i =? 1 then Some 3 else None | _ => None end)))) (fun _ => []) (fun _ => T "?").
Definition ex_main (g : Args) := main (honest_sp (rack_sp ex_rack)) (fun _ => []) (fun _ => T "?") g (mkWorld tt 0 []).
(** A reset of the CMIS modules: all are asked for their kind, and no SFF-8636 module is then touched. *)
Example C68_witness : let sp := honest_sp (rack_sp ex_rack) in let g := ex_args CReset (Some (TKind Cmis)) false in
  scoped sp /\ (exists w1, addressing sp g (mkWorld tt 0 []) w1 4294967292) /\
  deeds_of (main sp (fun _ => []) (fun _ => T "?") g) (mkWorld tt 0 []) =
    [DRequest (HRead 4294967295 (mkRead (PageSff SffLower) 0 1)) None;
     DRequest (HAssertReset 4294967292) None; DSleep 10; DRequest (HDeassertReset 4294967292) None; DSleep 2000000].
Proof. split; [apply honest_scoped|]. split; [eexists; vm_compute; reflexivity|]. vm_compute. reflexivity. Qed.
(** A reset of the modules at ports 0 to 2, of which the one at port 1 fails; then silently. *)
Example C69_witness :
  deeds_of (fail_main (ex_args CReset (Some (TIndex 7)) false)) (mkWorld tt 0 []) =
    [DRequest (HAssertReset 7) None; DSleep 10; DRequest (HDeassertReset 5) None; DSleep 2000000] /\
  snd (fail_main (ex_args CReset (Some (TIndex 7)) false) (mkWorld tt 0 [])) =
    Ok (mkScreen [] [T "Some operations failed, errors below"; T "Port Error"; T "   1 ?"]) /\
  snd (fail_main (ex_args CReset None true) (mkWorld tt 0 [])) = Ok (mkScreen [] []).
Proof. split; [|split]; vm_compute; reflexivity. Qed.
Definition table_args {F} : ParsableArgs F := mkParsable false [] None false.
(** Identifying the modules at ports 0 to 2, of which the second does not answer. *)
Example C70_witness :
  addressing (honest_sp (rack_sp ex_rack)) (ex_args (CIdentify table_args) (Some (TIndex 7)) false) (mkWorld tt 0 []) (mkWorld tt 0 []) 7 /\
  snd (ex_main (ex_args (CIdentify table_args) (Some (TIndex 7)) false)) =
    Ok (mkScreen [Line (T "Port Ident Description"); Line (T "   0 0x11  QSFP28 (SFF-8636)"); Line (T "   2 0x18  QSFP-DD 8X Pluggable")]
                 [T "Some operations failed, errors below"; T "Port Error"; T "   1 ?"]).
Proof. split; [reflexivity|]. vm_compute; reflexivity. Qed.
(** The module at port 3 has memory that cannot be decoded: nothing is printed for the one at port 0. *)
Theorem C70_crash_refuted : exists k, bytes_rack k /\
  let run c := snd (main (honest_sp (rack_sp k)) (fun _ => []) (fun _ => T "?") (ex_args c (Some (TIndex 9)) false) (mkWorld tt 0 [])) in
  run (CMemoryModel table_args) = Panic /\ run (CMonitors table_args) = Panic /\ run CDatapath = Panic.
Proof. exists ex_rack. split; [apply ex_rack_bytes|]. repeat split; vm_compute; reflexivity. Qed.
Print Assumptions C70_crash_refuted.

(** C50 for the tool, which makes its configuration from the arguments: all are kept, and only the peer has
    a default. *)
Theorem C50_tool : forall a, args_config a =
  filled (mkBuilder (ar_interface a) (Some (ar_address a)) (Some (ar_port a)) (ar_peer a) (Some (ar_peer_port a))
            (Some (ar_retry_interval a)) (ar_n_retries a)) (ar_address a).
Proof. reflexivity. Qed.
Print Assumptions C50_tool.
Example C50_tool_witness : args_config (mkArgs CReset None [0] (T "net0") 5 None 6 (Some 3) 700 false) =
  mkConfig [0] 5 (T "net0") [0xff02; 0; 0; 0; 0; 0; 0x1de; 2] 6 700 (Some 3).
Proof. reflexivity. Qed.
