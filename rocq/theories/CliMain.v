(** Model of [main] of controller/src/bin/xcvradm.rs (894-1453): the options, and the commands with the
    calls they make and what they print when they succeed.  What [clap] does is not modelled beyond its value
    parsers (CliText.v); logging, the context of errors and the dummy handler of SP requests are left out. *)
From Coq Require Import String.
From Verif Require Export CliDatapath CliMonitors Queries Config.
Import ListNotations.
Open Scope N_scope.

(** controller/src/bin/xcvradm.rs:699-716 *)
Record ParsableArgs (F : Type) := mkParsable
  { pa_parseable : bool; pa_output : list F; pa_separator : option text; pa_omit_header : bool }.
Arguments mkParsable {F}. Arguments pa_parseable {F}. Arguments pa_output {F}. Arguments pa_separator {F}.
Arguments pa_omit_header {F}.
(** controller/src/bin/xcvradm.rs:1038-1042 and the same text in the other commands. *)
Definition args_kind {F} (p : ParsableArgs F) : OutputKind F :=
  output_kind (pa_parseable p) (pa_omit_header p) (pa_output p) (pa_separator p).

(** The interface flags and the page of reads and writes: [None] is the lower page, [Some] the number
    and bank of an upper page. *)
Record PageArgs := mkPageArgs { pg_sff : bool; pg_cmis : bool; pg_upper : option (N * option N) }.
Definition args_page (p : PageArgs) : outcome Error Page :=
  match pg_upper p with
  | None => lower_page (pg_sff p) (pg_cmis p)
  | Some (page, bank) => upper_page (pg_sff p) (pg_cmis p) page bank
  end.
(** [--input] and [--input-kind] with what there is to read (CliText.v). *)
Record Input := mkInput
  { in_cap : nat; in_chunk : nat; in_file : option (option (list N)); in_kind : option InputKind; in_stdin : list N }.
Definition args_data (i : Input) : outcome unit (list N) :=
  load_write_data (in_cap i) (in_chunk i) (in_file i) (in_kind i) (in_stdin i).

(** controller/src/bin/xcvradm.rs:329-696.  [CRead] is ReadLower and ReadUpper, [CWrite] is WriteLower
    and WriteUpper. *)
Inductive Cmd :=
| CStatus (with_ without_ : option N) (all parseable : bool) (output : list StatusFields)
    (separator : option text) (omit_header : bool)
| CReset
| CSetPower (state : PowerState)
| CPower (args : ParsableArgs PowerFields)
| CEnablePower | CDisablePower | CAssertReset | CDeassertReset | CAssertLpMode | CDeassertLpMode
| CIdentify (args : ParsableArgs IdentifyFields)
| CVendorInfo (args : ParsableArgs VendorInfoFields)
| CRead (page : PageArgs) (binary : bool) (offset len : N) (args : ParsableArgs ReadDataFields)
| CWrite (page : PageArgs) (input : Input) (offset : N)
| CMemoryModel (args : ParsableArgs MemoryModelFields)
| CMacs (summary : bool)
| CClearPowerFault | CClearDisableLatch
| CLeds (args : ParsableArgs LedFields)
| CSetLeds (state : LedState)
| CMonitors (args : ParsableArgs MonitorFields)
| CDatapath.

(** controller/src/bin/xcvradm.rs:141-217 *)
Record Args := mkArgs
  { ar_cmd : Cmd; ar_transceivers : option Transceivers; ar_address : ipv6; ar_interface : text; ar_port : N;
    ar_peer : option ipv6; ar_peer_port : N; ar_n_retries : option N; ar_retry_interval : N;
    ar_ignore_errors : bool }.
(** controller/src/bin/xcvradm.rs:897-907 *)
Definition args_config (a : Args) : Config :=
  mkConfig (ar_address a) (ar_port a) (ar_interface a) (match ar_peer a with Some p => p | None => ADDR end)
    (ar_peer_port a) (ar_retry_interval a) (ar_n_retries a).

(** Standard output and standard error. *)
Record screen := mkScreen { sc_out : list printed_item; sc_err : list text }.
Definition lines (l : list text) : list printed_item := map Line l.

(** controller/src/bin/xcvradm.rs:974-979 *)
Definition status_warning (with_ without_ : option N) (all parseable : bool) : list text :=
  let flags o := match o with Some f => f | None => 0 end in
  match with_, without_, all, parseable with
  | None, None, _, _ => []
  | w, x, false, false =>
      if (flags w =? 0) && (flags x =? 0)
      then [T "If specified, one of `--with` and `--without` must be non-empty"] else []
  | _, _, _, _ => []
  end.

Section Main.
  Context {St : Type} (sp : St -> Rpc -> St * reply) (show_f32 : f32 -> text) (show : TransceiverError -> text).
  Local Notation "x <-! c ;; f" := (cbind c (fun x => f))
    (at level 61, c at next level, right associativity).

  Section Run.
    Context (ignore_errors : bool).
    (** [if !args.ignore_errors { print_failures(..) }] *)
    Definition failures_shown (f : Failures) : list text := if ignore_errors then [] else print_failures show f.
    (** A command that prints nothing but failures, and one that prints a result. *)
    Definition acting (c : ctl (St := St) (Result unit)) : ctl (St := St) screen :=
      r <-! c ;; cret (Ok (mkScreen [] (failures_shown (mr_failures r)))).
    Definition printing {P} (c : ctl (St := St) (Result P)) (print : Result P -> outcome unit (list printed_item))
        : ctl (St := St) screen :=
      r <-! c ;;
      out <-! cret (ounwrap (print r)) ;;
      cret (Ok (mkScreen out (failures_shown (mr_failures r)))).

    (** controller/src/bin/xcvradm.rs:955-1452, but writes. *)
    Definition run_call (modules : ModuleId) (c : Cmd) : ctl (St := St) screen :=
      match c with
      | CStatus with_ without_ all parseable output separator omit_header =>
          kind <-! cret (ounwrap (status_kind with_ without_ all parseable separator)) ;;
          scr <-! printing (status_result sp modules)
                    (fun r => omap lines (print_module_status r omit_header kind output)) ;;
          cret (Ok (mkScreen (sc_out scr) (status_warning with_ without_ all parseable ++ sc_err scr)))
      | CReset => acting (reset sp modules)
      | CSetPower state => acting (set_power sp modules state)
      | CPower args => printing (power sp modules) (fun r => Ok (lines (print_power_mode r (args_kind args))))
      | CEnablePower => acting (enable_power sp modules)
      | CDisablePower => acting (disable_power sp modules)
      | CAssertReset => acting (assert_reset sp modules)
      | CDeassertReset => acting (deassert_reset sp modules)
      | CAssertLpMode => acting (assert_lpmode sp modules)
      | CDeassertLpMode => acting (deassert_lpmode sp modules)
      | CIdentify args =>
          printing (identifier sp modules) (fun r => Ok (lines (print_module_identifier r (args_kind args))))
      | CVendorInfo args =>
          printing (vendor_info sp modules) (fun r => Ok (lines (print_vendor_info r (args_kind args))))
      | CRead page binary offset len args =>
          r <-! cmd_read sp modules (args_page page) offset len ;;
          cret (Ok (match r with
                    | None => mkScreen [] []
                    | Some r => mkScreen (lines (print_read_data r binary (args_kind args)))
                                         (failures_shown (mr_failures r))
                    end))
      | CWrite _ _ _ => cret Panic
      | CMemoryModel args =>
          printing (memory_model sp modules) (fun r => omap lines (print_module_memory_model r (args_kind args)))
      | CMacs summary =>
          macs <-! mac_addrs sp ;;
          out <-! cret (ounwrap (print_mac_address_range macs summary)) ;;
          cret (Ok (mkScreen (lines out) []))
      | CClearPowerFault => acting (clear_power_fault sp modules)
      | CClearDisableLatch => acting (clear_disable_latch sp modules)
      | CLeds args => printing (leds sp modules) (fun r => Ok (lines (print_led_state r (args_kind args))))
      | CSetLeds state => acting (set_leds sp modules state)
      | CMonitors args =>
          printing (monitors sp modules) (fun r => omap lines (print_monitors show_f32 r (args_kind args)))
      | CDatapath => printing (datapath sp modules) (fun r => Ok (print_datapath r))
      end.
    (** [None] is an error of the tool itself (Cli.v). *)
    Definition run_cmd (modules : ModuleId) (c : Cmd) (w : world St) : world St * outcome (option Error) screen :=
      match c with
      | CWrite page input offset =>
          let (w', r) := cmd_write sp modules (args_page page) offset (args_data input) w in
          (w', omap (fun r => mkScreen [] (failures_shown (mr_failures r))) r)
      | _ => let (w', r) := run_call modules c w in (w', omap_err Some r)
      end.
  End Run.

  (** controller/src/bin/xcvradm.rs:946-1453 *)
  Definition main (a : Args) (w : world St) : world St * outcome (option Error) screen :=
    let (w1, modules) := address_transceivers sp (match ar_transceivers a with Some t => t | None => TAll end) w in
    match modules with
    | Ok modules => run_cmd (ar_ignore_errors a) modules (ar_cmd a) w1
    | Err e => (w1, Err (Some e))
    | Panic => (w1, Panic)
    end.
End Main.
