(** Specification vocabulary for the whole command-line tool (C68). *)
From Coq Require Import String.
From Verif Require Export SpecTable SpecScope CliMain.
Import ListNotations.
Open Scope N_scope.

(** What a command may ask for besides requests that change nothing. *)
Definition may_send (c : Cmd) (q : HostRequest) (d : option (list N)) : Prop :=
  match c with
  | CReset => d = None /\ exists m, q = HAssertReset m \/ q = HDeassertReset m
  | CSetPower st => is_power_pin q = true /\ d = None \/ software_power_write st q d
  | CEnablePower => d = None /\ exists m, q = HEnablePower m
  | CDisablePower => d = None /\ exists m, q = HDisablePower m
  | CAssertReset => d = None /\ exists m, q = HAssertReset m
  | CDeassertReset => d = None /\ exists m, q = HDeassertReset m
  | CAssertLpMode => d = None /\ exists m, q = HAssertLpMode m
  | CDeassertLpMode => d = None /\ exists m, q = HDeassertLpMode m
  | CWrite page input offset =>
      exists m p data, args_page page = Ok p /\ args_data input = Ok data /\
        q = HWrite m (mkWrite p offset (Nlen data)) /\ d = Some data
  | CClearPowerFault => d = None /\ exists m, q = HClearPowerFault m
  | CClearDisableLatch => d = None /\ exists m, q = HClearDisableLatch m
  | CSetLeds st => d = None /\ exists m, q = HSetLedState m st
  | CStatus _ _ _ _ _ _ _ | CPower _ | CIdentify _ | CVendorInfo _ | CRead _ _ _ _ _ | CMemoryModel _ | CMacs _
  | CLeds _ | CMonitors _ | CDatapath => False
  end.
(** Commands that wait. *)
Definition may_wait (c : Cmd) : bool := match c with CReset | CSetPower _ => true | _ => false end.
Definition permitted (c : Cmd) (x : done) : Prop :=
  match x with
  | DRequest q d => looking q = true /\ d = None \/ may_send c q d
  | DSleep _ => may_wait c = true
  end.

(** The ports named on the command line are [m], known in world [w1]. *)
Definition named (a : Args) : Transceivers := match ar_transceivers a with Some t => t | None => TAll end.
Definition addressing {St} (sp : St -> Rpc -> St * reply) (a : Args) (w w1 : world St) (m : N) : Prop :=
  address_transceivers sp (named a) w = (w1, Ok m).

(** The lines about the failed modules on standard error. *)
Definition error_report (show : TransceiverError -> text) (a : Args) (fails : list (N * TransceiverError)) : list text :=
  if ar_ignore_errors a then []
  else match fails with
       | [] => []
       | l => T "Some operations failed, errors below" :: T "Port Error" ::
              map (fun p => port_shown (fst p) ++ [32] ++ show (snd p)) l
       end.
(** The modules of [m] that fail all reads. *)
Definition rack_fails (m : N) (k : rack) : list (N * TransceiverError) :=
  failed_ports m (fun i => match k i with inl _ => inl tt | inr b => inr (hw_fault i b) end).

(** How a table was asked for: with a head line unless it is left out; in columns, or the given fields with
    a separator. *)
Definition shown_as {F} (p : ParsableArgs F) : OutputKind F :=
  if pa_parseable p
  then OutParseable (negb (pa_omit_header p)) (pa_output p) (match pa_separator p with Some s => s | None => T ":" end)
  else OutDefault (negb (pa_omit_header p)).

(** The flags given with [--with] or [--without], none when the option is absent. *)
Definition flags_given (o : option N) : N := match o with Some f => f | None => 0 end.
(** What [status] says on standard error when [--with] or [--without] is given, but no flag in either. *)
Definition status_note (wi wo : option N) : list text :=
  match wi, wo with
  | Some 0, None | None, Some 0 | Some 0, Some 0 => [T "If specified, one of `--with` and `--without` must be non-empty"]
  | _, _ => []
  end.

(** Commands that send one request to the named modules. *)
Definition pin_commands (m : N) (s : LedState) : list (Cmd * HostRequest) :=
  [(CEnablePower, HEnablePower m); (CDisablePower, HDisablePower m); (CAssertReset, HAssertReset m);
   (CDeassertReset, HDeassertReset m); (CAssertLpMode, HAssertLpMode m); (CDeassertLpMode, HDeassertLpMode m);
   (CClearPowerFault, HClearPowerFault m); (CClearDisableLatch, HClearDisableLatch m); (CSetLeds s, HSetLedState m s)].
