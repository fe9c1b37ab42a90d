(** Specification vocabulary for runs of the command-line tool on modules that are there (C98). *)
From Coq Require Import String.
From Verif Require Export SpecMain SpecLive.
Import ListNotations.
Open Scope N_scope.

(** There is a line on standard error about the module. *)
Definition error_line (show : TransceiverError -> text) (i : N) (scr : screen) : Prop :=
  exists e, In (port_shown i ++ [32] ++ show e) (sc_err scr).

(** What the command asks for has been done to a module that was as [x] and is as [y]. *)
Definition obeyed (c : Cmd) (x y : slot) : Prop :=
  let '(p, r, l) := pins x in
  match c with
  | CSetPower st => slot_power y = Some st
  | CReset => pins y = (p, false, l)
  | CEnablePower => pins y = (true, r, l)
  | CDisablePower => pins y = (false, r, l)
  | CAssertReset => pins y = (p, true, l)
  | CDeassertReset => pins y = (p, false, l)
  | CAssertLpMode => pins y = (p, r, true)
  | CDeassertLpMode => pins y = (p, r, false)
  | CSetLeds s => sl_led y = s
  | CWrite page input offset =>
      exists g d, args_page page = Ok g /\ args_data input = Ok d /\
        (bytes d = true -> sl_status y = sl_status x /\ sl_led y = sl_led x /\
         forall q o, (reaches (mkWrite g offset (Nlen d)) q o -> sl_cell y q o = nth (N.to_nat (o - offset)) d 0) /\
                     (~ reaches (mkWrite g offset (Nlen d)) q o -> sl_cell y q o = sl_cell x q o))
  | CClearPowerFault | CClearDisableLatch => True
  | CStatus _ _ _ _ _ _ _ | CPower _ | CIdentify _ | CVendorInfo _ | CRead _ _ _ _ _ | CMemoryModel _ | CMacs _
  | CLeds _ | CMonitors _ | CDatapath => y = x
  end.
(** Raising the power, or lowering it to low power mode. *)
Definition powers_up (c : Cmd) : bool := match c with CSetPower PowerOff => false | CSetPower _ => true | _ => false end.
(** The modules [m] are of one kind, which they keep when pins are set, and are either all off or all on. *)
Definition same_case {St} (a : honest St) (view : St -> N -> slot) (s : St) (m : N) : Prop :=
  (forall t q d j, is_power_pin q = true -> member j m -> slot_kind (view (hs_next a t q d) j) = slot_kind (view t j)) /\
  (forall j k, member j m -> member k m -> slot_kind (view s j) = slot_kind (view s k)) /\
  (forall j k, member j m -> member k m -> slot_power (view s j) = Some PowerOff -> slot_power (view s k) = Some PowerOff).

(** The module in port [i], which is as [x], is one of those named with [-t]. *)
Definition named_at (t : Transceivers) (i : N) (x : slot) : Prop :=
  match t with
  | TAll => i < 32
  | TIndex p => member i p
  | TPresent => i < 32 /\ N.testbit (sl_status x) 0 = true
  | TKind k => i < 32 /\ management_interface (slot_kind x) = Ok k
  | TPowerState st => i < 32 /\ slot_power x = Some st
  end.

(** Of each of the modules [m] the screen either shows something, which is [true_of] it, or lists the module with
    an error; and of others it shows nothing. *)
Definition tells_all {P} (show : TransceiverError -> text) (m : N) (true_of : N -> P -> Prop)
    (print : Result P -> outcome unit (list printed_item)) (scr : screen) : Prop :=
  exists r, print r = Ok (sc_out scr) /\
    (forall i x, succeeds r i x -> member i m /\ true_of i x) /\
    (forall i, member i m -> (exists x, succeeds r i x) \/ error_line show i scr).

(** What the screen shows is true of modules that are as [V] tells. *)
Definition true_screen (show_f32 : f32 -> text) (show : TransceiverError -> text) (c : Cmd) (m : N) (V : N -> slot) (scr : screen) : Prop :=
  match c with
  | CPower args =>
      tells_all show m (fun i x => slot_mode (V i) = Some x) (fun r => Ok (lines (print_power_mode r (shown_as args)))) scr
  | CIdentify args =>
      tells_all show m (fun i x => x = slot_kind (V i)) (fun r => Ok (lines (print_module_identifier r (shown_as args)))) scr
  | CLeds args =>
      tells_all show m (fun i x => x = sl_led (V i)) (fun r => Ok (lines (print_led_state r (shown_as args)))) scr
  | CVendorInfo args =>
      tells_all show m (fun i x => vendor_of (sl_cell (V i)) x) (fun r => Ok (lines (print_vendor_info r (shown_as args)))) scr
  | CMemoryModel args =>
      tells_all show m (fun i x => memory_model_of (sl_cell (V i)) x)
        (fun r => omap lines (print_module_memory_model r (shown_as args))) scr
  | CMonitors args =>
      tells_all show m (fun i x => monitors_of (sl_cell (V i)) x)
        (fun r => omap lines (print_monitors show_f32 r (shown_as args))) scr
  | CDatapath => tells_all show m (fun i x => datapath_of (sl_cell (V i)) x) (fun r => Ok (print_datapath r)) scr
  | CRead page binary offset len args =>
      len = 0 /\ scr = mkScreen [] [] \/
      1 <= len /\ exists g, args_page page = Ok g /\
        tells_all show m (fun i x => x = area (sl_cell (V i)) g offset (N.to_nat len))
          (fun r => Ok (lines (print_read_data r binary (shown_as args)))) scr
  | _ => True
  end.

(** The SP always lets itself be asked about module [i]. *)
Definition open_to_looks {St} (a : honest St) (i : N) : Prop :=
  forall s q d, looking q = true -> exists x, hs_verdict a s q d i = inl x.

(** ** Extended status *)
(** The SP tells [ext] of modules when asked for their extended status: four bytes, lowest first, nine bits of which are defined.
    Looking at modules does not change it. *)
Record tells_extended {St} (a : honest St) (ext : St -> N -> N) : Prop := {
  te_range : forall s i, ext s i < 512;
  te_bytes : forall s m d i x, member i m -> hs_verdict a s (HExtendedStatus m) d i = inl x -> x = [ext s i mod 256; ext s i / 256; 0; 0];
  te_look : forall s q d i, looking q = true -> ext (hs_next a s q d) i = ext s i }.
(** An SP that does not know the extended status: it answers that request with the error [e]. *)
Definition without_extended {St} (e : Error) (sp : St -> Rpc -> St * reply) (s : St) (r : Rpc) : St * reply :=
  match msg_body (rpc_message r) with BHostRequest (HExtendedStatus _) => (s, Err e) | _ => sp s r end.
(** What [xcvradm status] shows of modules is what [ext] tells. *)
Definition true_status (show : TransceiverError -> text) (c : Cmd) (m : N) (ext : N -> N) (scr : screen) : Prop :=
  match c with
  | CStatus with_ without_ all parseable output separator omit_header =>
      exists kind, Cli.status_kind with_ without_ all parseable separator = Ok kind /\
        tells_all show m (fun i x => x = ext i) (fun r => omap lines (print_module_status r omit_header kind output)) scr
  | _ => True
  end.
(** The lines of [xcvradm status] but for [--all]: the head, and what is shown of a module with the status [s]. *)
Definition status_head (parseable omit : bool) (sep : text) (output : list StatusFields) : list text :=
  if omit then [] else if parseable then [join sep (map (fun f => match f with FStatusPort => T "port" | FStatusStatus => T "status" end) output)] else [T "Port Status"].
Definition status_row (parseable : bool) (sep : text) (output : list StatusFields) (i s : N) : text :=
  if parseable then join sep (map (fun f => match f with FStatusPort => digits_of 8 10 i | FStatusStatus => ext_status_display s end) output)
  else port_shown i ++ [32] ++ ext_status_display s.
(** The screen has the head and one row for each of the modules [m], in order, but for those with a line on standard error. *)
Definition one_row_each (show : TransceiverError -> text) (m : N) (head : list text) (row : N -> text) (scr : screen) : Prop :=
  exists shown, StronglySorted N.lt shown /\ (forall i, In i shown -> member i m) /\ (forall i, member i m -> In i shown \/ error_line show i scr) /\
    sc_out scr = lines (head ++ map row shown).
