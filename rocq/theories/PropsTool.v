(** Theorems for C98: what a run of xcvradm does to modules, and what it shows of them. *)
From Coq Require Import String Lia.
From Verif Require Import Tac SpecTool SpecXcvradm SpecPins SpecOnce LiveProofs LiveProofs2 LiveProofs3 ProgProofs OnceProofs4 XcvradmProofs PinsProofs3 ToolProofs3 ToolProofs4 RowsProofs.
Import ListNotations.
Open Scope N_scope.

(** C98: what was asked for has been done to every module that is addressed and has no line on standard error.  For power up or to
    low power mode, this is for a single module, or for modules of one kind that are all on or all off; for others it is false, see
    [C98_done_refuted] and [C98_kinds_refuted]. *)
Theorem C98_done_partial : forall St (a : honest St) view, honest_ok a -> drives a view -> forall show_f32 show g (w w1 w' : world St) m scr i,
  ar_ignore_errors g = false -> addressing (honest_sp a) g w w1 m -> m < 2 ^ 64 -> main (honest_sp a) show_f32 show g w = (w', Ok scr) ->
  member i m -> ~ error_line show i scr -> (powers_up (ar_cmd g) = true -> (forall j, member j m -> j = i) \/ same_case a view (w_sp w) m) ->
  obeyed (ar_cmd g) (view (w_sp w) i) (view (w_sp w') i).
Proof. exact @run_obeyed. Qed.
Print Assumptions C98_done_partial.
(** C98: what is shown is what the modules hold; and each addressed module is shown or has a line on standard error. *)
Theorem C98_told : forall St (a : honest St) view, honest_ok a -> drives a view -> forall show_f32 show g (w w1 w' : world St) m scr,
  ar_ignore_errors g = false -> addressing (honest_sp a) g w w1 m -> m < 2 ^ 64 ->
  (forall i, byte_memory (sl_cell (view (w_sp w) i))) ->
  (forall page binary offset len args, ar_cmd g = CRead page binary offset len args -> offset < 256 /\ len < 256) ->
  main (honest_sp a) show_f32 show g w = (w', Ok scr) -> true_screen show_f32 show (ar_cmd g) m (view (w_sp w)) scr.
Proof. exact @run_true. Qed.
Print Assumptions C98_told.
(** C98: so in the tables for people there is one row for each addressed module, in order, with its power mode, its LED, its kind, its bytes, its memory model or its vendor, but
    for those with a line on standard error. *)
Theorem C98_power_rows : forall show_f32 show m V scr args, pa_parseable args = false -> true_screen show_f32 show (CPower args) m V scr ->
  one_row_each show m (heads (pa_omit_header args) (T "Port  Power  Software-override"))
    (fun i => match slot_mode (V i) with Some x => power_row i x | None => [] end) scr.
Proof. exact power_rows. Qed.
Print Assumptions C98_power_rows.
Theorem C98_led_rows : forall show_f32 show m V scr args, pa_parseable args = false -> true_screen show_f32 show (CLeds args) m V scr ->
  one_row_each show m (heads (pa_omit_header args) (T "Port LED")) (fun i => led_row i (sl_led (V i))) scr.
Proof. exact led_rows. Qed.
Print Assumptions C98_led_rows.
Theorem C98_ident_rows : forall show_f32 show m V scr args, pa_parseable args = false -> (forall i, byte_memory (sl_cell (V i))) ->
  true_screen show_f32 show (CIdentify args) m V scr ->
  one_row_each show m (heads (pa_omit_header args) (T "Port Ident Description"))
    (fun i => ident_row i (sl_cell (V i) (PageSff SffLower) 0)) scr.
Proof. exact ident_rows. Qed.
Print Assumptions C98_ident_rows.
Theorem C98_read_rows : forall show_f32 show m V scr page binary offset len args, pa_parseable args = false ->
  (forall i, byte_memory (sl_cell (V i))) -> 1 <= len -> true_screen show_f32 show (CRead page binary offset len args) m V scr ->
  exists g, args_page page = Ok g /\ one_row_each show m (heads (pa_omit_header args) (T "Port Data"))
    (fun i => read_line binary i (area (sl_cell (V i)) g offset (N.to_nat len))) scr.
Proof. exact read_rows. Qed.
Print Assumptions C98_read_rows.
Theorem C98_model_rows : forall show_f32 show m V scr args, pa_parseable args = false ->
  true_screen show_f32 show (CMemoryModel args) m V scr ->
  one_row_of_each show m (heads (pa_omit_header args) (T "Port Model")) (fun i => model_row (sl_cell (V i)) i) scr.
Proof. exact model_rows. Qed.
Print Assumptions C98_model_rows.
Theorem C98_vendor_rows : forall show_f32 show m V scr args, pa_parseable args = false ->
  (forall i, member i m -> supported_kind (slot_kind (V i)) = true) -> true_screen show_f32 show (CVendorInfo args) m V scr ->
  one_row_of_each show m (heads (pa_omit_header args)
    (vendor_columns (T "Port") (T "Identifier") (T "Vendor") (T "Part") (T "Rev") (T "Serial") (T "Mfg date")))
    (fun i => vendor_row (sl_cell (V i)) i) scr.
Proof. exact vendor_rows. Qed.
Print Assumptions C98_vendor_rows.
Example C98_rows_witness :
  power_row 3 (mkPowerMode PowerLow (Some true)) = T "   3  Low    Yes" /\ led_row 12 LedBlink = T "  12 Blink" /\
  ident_row 3 0x11 = T "   3 0x11  QSFP28 (SFF-8636)" /\ ident_row 3 0xff = T "   3 0xff  VendorSpecific (0xff)" /\
  model_row (fun _ o => if o =? 0 then 0x11 else 4) 3 (T "   3 Flat").
Proof. repeat split; try (vm_compute; reflexivity). exists Flat. split; [|vm_compute; reflexivity]. split; [reflexivity|]. vm_compute. discriminate. Qed.
(** C98: at any time of a run, also of one that fails, modules that are not addressed are as they were. *)
Theorem C98_others : forall St (a : honest St) view, drives a view -> forall show_f32 show g (w w1 : world St) m i s,
  addressing (honest_sp a) g w w1 m -> ~ member i m -> comes_to (honest_sp a) (xcvradm show_f32 show g St (honest_sp a)) w s ->
  view s i = view (w_sp w) i.
Proof. exact @others_always. Qed.
Print Assumptions C98_others.
(** C98: addressed are only modules named with [-t], *)
Theorem C98_named : forall St (a : honest St) view, honest_ok a -> drives a view -> forall g (w w1 : world St) m i,
  addressing (honest_sp a) g w w1 m -> member i m -> named_at (named g) i (view (w_sp w) i).
Proof. exact @named_only. Qed.
Print Assumptions C98_named.
(** and all of those, but for modules the SP does not let itself be asked about. *)
Theorem C98_all_named_partial : forall St (a : honest St) view, honest_ok a -> drives a view -> forall g (w w1 : world St) m i,
  addressing (honest_sp a) g w w1 m ->
  match named g with
  | TKind k => open_to_looks a i /\ (k = Sff8636 \/ k = Cmis)
  | TPresent | TPowerState _ => open_to_looks a i
  | TAll | TIndex _ => True
  end -> named_at (named g) i (view (w_sp w) i) -> member i m.
Proof. exact @named_all. Qed.
Print Assumptions C98_all_named_partial.
(** C98: the status shown is the extended status of the modules, each addressed module is shown or has a line on standard error. *)
Theorem C98_status : forall St (a : honest St), honest_ok a -> forall show_f32 show ext, tells_extended a ext ->
  forall g (w w1 w' : world St) m scr, ar_ignore_errors g = false -> for_status (ar_cmd g) -> addressing (honest_sp a) g w w1 m -> m < 2 ^ 64 ->
  main (honest_sp a) show_f32 show g w = (w', Ok scr) -> true_status show (ar_cmd g) m (ext (w_sp w)) scr.
Proof. exact @run_status. Qed.
Print Assumptions C98_status.
(** C98: of an SP that does not know the extended status, the plain status is shown. *)
Theorem C98_status_old : forall St (a : honest St), honest_ok a -> forall show_f32 show view, drives a view -> forall e,
  let sp := without_extended e (honest_sp a) in
  forall g (w w1 w' : world St) m scr, ar_ignore_errors g = false -> for_status (ar_cmd g) -> addressing sp g w w1 m -> m < 2 ^ 64 ->
  main sp show_f32 show g w = (w', Ok scr) -> true_status show (ar_cmd g) m (fun i => sl_status (view (w_sp w1) i)) scr.
Proof. exact @run_status_old. Qed.
Print Assumptions C98_status_old.
(** C98: so the screen has one row for each addressed module, in order, with the names of its flags (C54), but for those with a line on
    standard error. *)
Theorem C98_status_rows : forall show m tr scr parseable output separator omit,
  true_status show (CStatus None None false parseable output separator omit) m tr scr ->
  let sep := match separator with Some s => s | None => T ":" end in
  one_row_each show m (status_head parseable omit sep output) (fun i => status_row parseable sep output i (tr i)) scr.
Proof. exact status_rows. Qed.
Print Assumptions C98_status_rows.
(** C98 over a network that loses and repeats datagrams but keeps their order, to an SP that remembers the last one (C96). *)
Theorem C98_network : forall St (a : honest St) view, honest_ok a -> drives a view -> forall show_f32 show, data_blind a ->
  forall retries s0 c0, c0 < 2 ^ 64 -> forall g p ts w1 m, let sp := remembering (honest_sp a) in
  ~ for_status (ar_cmd g) -> steps_of (xcvradm show_f32 show g) p -> orderly sp (sys_new retries (new_keeper s0) c0 [p]) ts ->
  addressing (honest_sp a) g (mkWorld s0 c0 []) w1 m ->
  let s := sys_run sp (sys_new retries (new_keeper s0) c0 [p]) ts in let now := kp_now (nt_sp (sy_net s)) in
  (forall i, ~ member i m -> view now i = view s0 i) /\
  forall xs scr, sy_calls s = [Going xs (Ret (Ok (Some scr)))] -> ar_ignore_errors g = false -> m < 2 ^ 64 ->
    (forall i, member i m -> ~ error_line show i scr -> (powers_up (ar_cmd g) = true -> (forall j, member j m -> j = i) \/ same_case a view s0 m) ->
       obeyed (ar_cmd g) (view s0 i) (view now i)) /\
    ((forall i, byte_memory (sl_cell (view s0 i))) ->
     (forall page binary offset len args, ar_cmd g = CRead page binary offset len args -> offset < 256 /\ len < 256) ->
       true_screen show_f32 show (ar_cmd g) m (view s0) scr).
Proof. exact @tool_net. Qed.
Print Assumptions C98_network.

(** Modules 0 and 1 with power, module 2 without; module 1 refuses what is given in [refuse]. *)
Definition ex_tool_slots : slots := fun i =>
  mkSlot (if i =? 2 then 1 else 35) LedOff (fun _ o => if o =? 0 then 17 else 0).
Definition ex_tool_rack (refuse : HostRequest -> bool) := live_rack (fun _ q _ i => if refuse q && (i =? 1) then Some 8 else None) sl_cell.
Definition ex_tool_args (c : Cmd) (t : Transceivers) : Args := mkArgs c (Some t) (repeat 0 16) (T "axgbe0") 0 None 11112 None 1000 false.
Definition ex_tool_show (e : TransceiverError) : text := T "failed".
Definition ex_tool_run refuse c t : world slots * outcome (option Error) screen :=
  main (honest_sp (ex_tool_rack refuse)) (fun _ => []) ex_tool_show (ex_tool_args c t) (mkWorld ex_tool_slots 7 []).
Definition ex_tool_none (q : HostRequest) : bool := false.

(** [xcvradm -t 0,1 reset], where module 1 refuses to be held in reset; [xcvradm -t present power], where it refuses reads. *)
Example C98_witness :
  let refuse := fun q => match q with HAssertReset _ | HRead _ _ => true | _ => false end in let a := ex_tool_rack refuse in
  honest_ok a /\ drives a seen /\ (forall i, byte_memory (sl_cell (seen ex_tool_slots i))) /\ open_to_looks a 0 /\
  (addressing (honest_sp a) (ex_tool_args CReset (TIndex 3)) (mkWorld ex_tool_slots 7 []) (mkWorld ex_tool_slots 7 []) 3 /\
   snd (ex_tool_run refuse CReset (TIndex 3)) =
     Ok (mkScreen [] [T "Some operations failed, errors below"; T "Port Error"; T "   1 failed"]) /\
   obeyed CReset (seen ex_tool_slots 0) (seen (w_sp (fst (ex_tool_run refuse CReset (TIndex 3)))) 0)) /\
  (exists w1, addressing (honest_sp a) (ex_tool_args (CPower (mkParsable false [] None false)) TPresent) (mkWorld ex_tool_slots 7 []) w1 (2 ^ 32 - 1)) /\
  (exists out err, snd (ex_tool_run refuse (CPower (mkParsable false [] None false)) TPresent) = Ok (mkScreen out err) /\
    firstn 3 out = lines [T "Port  Power  Software-override"; T "   0  High   No"; T "   2  Off    -"] /\
    err = [T "Some operations failed, errors below"; T "Port Error"; T "   1 failed"]).
Proof.
  split; [apply rack_ok|]. split; [apply rack_drives|]. split; [intros i p k; unfold seen; cbn [sl_cell]; apply N.mod_lt; discriminate|].
  split; [intros s q d _; eexists; cbn; rewrite andb_false_r; reflexivity|]. split; [split; [reflexivity|]; split; vm_compute; reflexivity|].
  split; [eexists; vm_compute; reflexivity|]. eexists _, _. split; [vm_compute; reflexivity|]. split; vm_compute; reflexivity.
Qed.
(** [xcvradm -t 0,1,2 status], where module 1 refuses to tell; with an SP that knows the extended status, and with one that does not. *)
Definition ex_tool_status : Cmd := CStatus None None false false [] None false.
Example C98_status_witness :
  let refuse := fun q => match q with HExtendedStatus _ | HStatus _ => true | _ => false end in let a := ex_tool_rack refuse in
  let g := ex_tool_args ex_tool_status (TIndex 7) in let w := mkWorld ex_tool_slots 7 [] in
  let scr := mkScreen (lines [T "Port Status"; T "   0 PRESENT | ENABLED | POWER_GOOD"; T "   2 PRESENT"]) [T "Some operations failed, errors below"; T "Port Error"; T "   1 failed"] in
  honest_ok a /\ tells_extended a (fun s i => sl_status (seen s i)) /\ addressing (honest_sp a) g w w 7 /\
  snd (main (honest_sp a) (fun _ => []) ex_tool_show g w) = Ok scr /\
  snd (main (without_extended (EMaxRetries 3) (honest_sp a)) (fun _ => []) ex_tool_show g w) = Ok scr.
Proof.
  cbv zeta. split; [apply rack_ok|]. split.
  - constructor.
    + intros s i. cbn [seen sl_status]. pose proof (N.mod_lt (sl_status (s i)) 256 ltac:(discriminate)). lia.
    + intros s m d i x _. cbn [ex_tool_rack live_rack hs_verdict andb]. destruct (i =? 1); [discriminate|]. intros [= <-]. cbn [slot_answer].
      assert (K : sl_status (seen s i) < 256) by (apply N.mod_lt; discriminate). rewrite (N.mod_small _ _ K), (N.div_small _ _ K). reflexivity.
    + intros s q d i L. f_equal. exact (dr_look _ _ (rack_drives _ _) s q d i L).
  - split; [reflexivity|]. split; vm_compute; reflexivity.
Qed.
(** [xcvradm -t 0 set-leds blink] over a network: the request is sent twice and both copies reach the SP. *)
Definition ex_tool_leds : prog (option screen) := proj1_sig (run_of (fun _ => []) ex_tool_show (ex_tool_args (CSetLeds LedBlink) (TIndex 1))).
Definition ex_tool_turns : list (turn (keeper slots)) :=
  [TCall 0; TAccept 0 true; TNet (MTick true); TNet (MServe 0); TNet (MServe 1); TNet (MDeliver 0)].
Definition ex_tool_ended {A} (c : call A) : option (outcome Error A) := match c with Going _ (Ret x) => Some x | _ => None end.
Example C98_path : let a := ex_tool_rack ex_tool_none in let sp := remembering (honest_sp a) in
  let s1 := sys_new None (new_keeper ex_tool_slots) 7 [ex_tool_leds] in
  data_blind a /\ steps_of (xcvradm (fun _ => []) ex_tool_show (ex_tool_args (CSetLeds LedBlink) (TIndex 1))) ex_tool_leds /\
  orderly sp s1 ex_tool_turns /\ map ex_tool_ended (sy_calls (sys_run sp s1 ex_tool_turns)) = [Some (Ok (Some (mkScreen [] [])))] /\
  map (fun i => sl_led (seen (kp_now (nt_sp (sy_net (sys_run sp s1 ex_tool_turns)))) i)) [0; 1] = [LedBlink; LedOff].
Proof.
  intros a sp s1. split; [intros s q; split; [reflexivity|]; unfold a, ex_tool_rack; cbn [live_rack hs_next]; unfold slots_next; destruct q; reflexivity|].
  split; [exact (proj1 (proj2_sig (run_of (fun _ => []) ex_tool_show (ex_tool_args (CSetLeds LedBlink) (TIndex 1)))))|].
  split; [|split; vm_compute; reflexivity].
  split; [reflexivity|]. split; [discriminate|]. split; [repeat constructor; discriminate|]. apply sorted_in_turn. cbn. repeat constructor.
Qed.

(** C98, full claim for several modules that are to be set to low power: false.  [xcvradm -t 0,2 set-power low] prints nothing, ends
    well, and leaves module 0, which was on before, in high power. *)
Theorem C98_done_refuted : exists (a : honest slots) g w w1 w' m scr, honest_ok a /\ drives a seen /\
  ar_ignore_errors g = false /\ addressing (honest_sp a) g w w1 m /\ m < 2 ^ 64 /\
  main (honest_sp a) (fun _ => []) ex_tool_show g w = (w', Ok scr) /\ ar_cmd g = CSetPower PowerLow /\ member 0 m /\ scr = mkScreen [] [] /\
  slot_power (seen (w_sp w') 0) = Some PowerHigh.
Proof.
  exists (ex_tool_rack ex_tool_none), (ex_tool_args (CSetPower PowerLow) (TIndex 5)), (mkWorld ex_tool_slots 7 []), (mkWorld ex_tool_slots 7 []),
    (fst (ex_tool_run ex_tool_none (CSetPower PowerLow) (TIndex 5))), 5, (mkScreen [] []).
  split; [apply rack_ok|]. split; [apply rack_drives|]. split; [reflexivity|]. split; [reflexivity|]. split; [reflexivity|].
  split; [|split; [reflexivity|split; [reflexivity|split; [reflexivity|vm_compute; reflexivity]]]].
  rewrite (surjective_pairing (main _ _ _ _ _)). apply f_equal2; [reflexivity|vm_compute; reflexivity].
Qed.
Print Assumptions C98_done_refuted.
(** C98, full claim for naming modules by what they are: false.  Module 1 is present and on, but the SP reports an error when asked
    for its status: [xcvradm -t present set-power off] does not address it, says nothing of it, and it stays on. *)
Theorem C98_all_named_refuted : exists (a : honest slots) g w w1 w' m scr, honest_ok a /\ drives a seen /\
  ar_ignore_errors g = false /\ addressing (honest_sp a) g w w1 m /\ main (honest_sp a) (fun _ => []) ex_tool_show g w = (w', Ok scr) /\
  named_at (named g) 1 (seen (w_sp w) 1) /\ ~ member 1 m /\ ar_cmd g = CSetPower PowerOff /\ scr = mkScreen [] [] /\
  slot_power (seen (w_sp w') 1) = Some PowerHigh.
Proof.
  set (refuse := fun q => match q with HStatus _ => true | _ => false end).
  exists (ex_tool_rack refuse), (ex_tool_args (CSetPower PowerOff) TPresent), (mkWorld ex_tool_slots 7 []),
    (fst (address_transceivers (honest_sp (ex_tool_rack refuse)) TPresent (mkWorld ex_tool_slots 7 []))),
    (fst (ex_tool_run refuse (CSetPower PowerOff) TPresent)), (2 ^ 32 - 3), (mkScreen [] []).
  split; [apply rack_ok|]. split; [apply rack_drives|]. split; [reflexivity|].
  split; [unfold addressing; rewrite (surjective_pairing (address_transceivers _ _ _)); apply f_equal2; [reflexivity|vm_compute; reflexivity]|].
  split; [rewrite (surjective_pairing (main _ _ _ _ _)); apply f_equal2; [reflexivity|vm_compute; reflexivity]|].
  split; [split; [reflexivity|vm_compute; reflexivity]|]. split; [vm_compute; discriminate|]. split; [reflexivity|]. split; [reflexivity|].
  vm_compute. reflexivity.
Qed.
Print Assumptions C98_all_named_refuted.
(** Modules 0 and 1 are both on and of one kind; [xcvradm -t 0,1 set-power low] sets both to low power. *)
Example C98_several : let a := ex_tool_rack ex_tool_none in same_case a seen ex_tool_slots 3 /\
  snd (ex_tool_run ex_tool_none (CSetPower PowerLow) (TIndex 3)) = Ok (mkScreen [] []) /\
  map (fun i => slot_power (seen ex_tool_slots i)) [0; 1] = [Some PowerHigh; Some PowerHigh] /\
  map (fun i => slot_power (seen (w_sp (fst (ex_tool_run ex_tool_none (CSetPower PowerLow) (TIndex 3)))) i)) [0; 1] = [Some PowerLow; Some PowerLow].
Proof.
  split; [|split; [|split]; vm_compute; reflexivity]. split; [|split].
  - intros t q d j Hq _. unfold ex_tool_rack, live_rack, hs_next, slots_next, ex_tool_none. cbn [andb]. unfold slot_kind, kind_of, sff_low, seen. cbn [sl_cell].
    destruct (N.testbit _ j); [|reflexivity]. unfold slot_effect. rewrite Hq. now destruct q.
  - reflexivity.
  - intros j k Hj Hk. enough (j <> 2) as H; [intros K; exfalso; revert K; unfold seen, ex_tool_slots; destruct (N.eqb_spec j 2) as [E|E]; [contradiction|vm_compute; discriminate]|].
    intros ->. vm_compute in Hj. discriminate.
Qed.
(** Module 0 is of the kind 0x11 and module 1 of the kind 0x1e; both are on and their software control keeps them in low power. *)
Definition ex_tool_mixed : slots := fun i =>
  mkSlot 35 LedOff (fun _ o => if o =? 0 then (if i =? 0 then 17 else 30) else if o =? 93 then 3 else if o =? 26 then 16 else 0).
(** C98 for modules of several kinds that are all on: false.  [xcvradm -t 0,1 set-power high] prints nothing, ends well, and leaves
    module 1 in low power. *)
Theorem C98_kinds_refuted : exists (a : honest slots) g w w1 w' m scr, honest_ok a /\ drives a seen /\
  ar_ignore_errors g = false /\ addressing (honest_sp a) g w w1 m /\ m < 2 ^ 64 /\
  main (honest_sp a) (fun _ => []) ex_tool_show g w = (w', Ok scr) /\ ar_cmd g = CSetPower PowerHigh /\ member 1 m /\ scr = mkScreen [] [] /\
  (forall i, member i m -> slot_power (seen (w_sp w) i) = Some PowerLow) /\ slot_power (seen (w_sp w') 1) = Some PowerLow.
Proof.
  pose (a := ex_tool_rack ex_tool_none). pose (g := ex_tool_args (CSetPower PowerHigh) (TIndex 3)). pose (w := mkWorld ex_tool_mixed 7 []).
  exists a, g, w, w, (fst (main (honest_sp a) (fun _ => []) ex_tool_show g w)), 3, (mkScreen [] []).
  split; [apply rack_ok|]. split; [apply rack_drives|]. split; [reflexivity|]. split; [reflexivity|]. split; [reflexivity|].
  split; [rewrite (surjective_pairing (main _ _ _ _ _)) at 1; f_equal; vm_compute; reflexivity|].
  split; [reflexivity|]. split; [reflexivity|]. split; [reflexivity|]. split; [|vm_compute; reflexivity].
  intros i _. cbn [w w_sp]. unfold seen, ex_tool_mixed. destruct (i =? 0); vm_compute; reflexivity.
Qed.
Print Assumptions C98_kinds_refuted.
