(** Model of the declared command line of controller/src/bin/xcvradm.rs (141-216, 329-716): the options of
    every command, and the rules about which may or must be given together.  How [clap] 4 reads them is
    assumed: [short] and [long] without a value derive from the field's name; [requires] and
    [conflicts_with] are checked for options given on the command line (defaults do not count), the latter
    in both directions; of a required [ArgGroup] exactly one is given. *)
From Coq Require Import String Ascii.
From Verif Require Export CliMain.
Import ListNotations.
Open Scope N_scope.
Open Scope string_scope.

Record arg := mkArg
  { ag_id : string; ag_short : option ascii; ag_long : option string; ag_requires : list string;
    ag_conflicts : list string }.
Record command := mkCommand { cm_args : list arg; cm_group : option (list string) }.

(** The default names: the first letter, and the name in kebab case. *)
Definition first_letter (id : string) : option ascii := match id with String c _ => Some c | "" => None end.
Fixpoint dashed (id : string) : string :=
  match id with "" => "" | String c r => String (if Ascii.eqb c "_" then "-"%char else c) (dashed r) end.
(** [#[arg(long)]], [#[arg(short, long)]] and a positional argument. *)
Definition long_only (id : string) (requires conflicts : list string) : arg :=
  mkArg id None (Some (dashed id)) requires conflicts.
Definition both_names (id : string) (requires conflicts : list string) : arg :=
  mkArg id (first_letter id) (Some (dashed id)) requires conflicts.
Definition positional (id : string) : arg := mkArg id None None [] [].
(** Added by [clap] itself. *)
Definition help : arg := both_names "help" [] [].

(** controller/src/bin/xcvradm.rs:142-216 *)
Definition top_args : list arg :=
  [help; mkArg "version" (Some "V"%char) (Some "version") [] []; both_names "transceivers" [] [];
   both_names "address" [] []; both_names "interface" [] []; mkArg "port" (Some "P"%char) (Some "port") [] [];
   both_names "peer" [] []; long_only "peer_port" [] []; both_names "n_retries" [] [];
   both_names "retry_interval" [] []; both_names "log_level" [] [];
   mkArg "ignore_errors" (Some "E"%char) (Some "ignore-errors") [] []].
(** controller/src/bin/xcvradm.rs:699-716 *)
Definition parsable_args : list arg :=
  [both_names "parseable" [] []; both_names "output" ["parseable"] [];
   long_only "output_separator" ["parseable"] []; long_only "omit_header" [] []].
(** controller/src/bin/xcvradm.rs:333-370 *)
Definition status_args : list arg :=
  let others := ["with"; "without"; "all"] in
  [long_only "with" [] ["all"]; long_only "without" [] ["all"]; long_only "all" [] [];
   both_names "parseable" [] others; both_names "output" ["parseable"] others;
   long_only "output_separator" ["parseable"] others; long_only "omit_header" [] []].
Definition interface_args : list arg := [long_only "sff" [] []; long_only "cmis" [] []].
Definition input_args : list arg := [both_names "input" ["input_kind"] []; long_only "input_kind" [] []].
Definition page_args : list arg := [both_names "page" [] []; both_names "bank" [] ["sff"]].
Definition plain (l : list arg) : command := mkCommand (help :: l) None.
Definition on_interface (l : list arg) : command := mkCommand (help :: interface_args ++ l) (Some ["sff"; "cmis"]).

(** The declaration each command comes from: controller/src/bin/xcvradm.rs:329-696. *)
Definition declared (c : Cmd) : command :=
  match c with
  | CStatus _ _ _ _ _ _ _ => plain status_args
  | CSetPower _ | CSetLeds _ => plain [positional "state"]
  | CPower _ | CIdentify _ | CVendorInfo _ | CMemoryModel _ | CLeds _ | CMonitors _ => plain parsable_args
  | CRead page _ _ _ _ =>
      on_interface ([long_only "binary" [] []] ++ (match pg_upper page with Some _ => page_args | None => [] end) ++
                    [positional "offset"; positional "len"] ++ parsable_args)
  | CWrite page _ _ =>
      on_interface (input_args ++ (match pg_upper page with Some _ => page_args | None => [] end) ++ [positional "offset"])
  | CMacs _ => plain [both_names "summary" [] []]
  | CReset | CEnablePower | CDisablePower | CAssertReset | CDeassertReset | CAssertLpMode | CDeassertLpMode
  | CClearPowerFault | CClearDisableLatch | CDatapath => plain []
  end.

(** The options that must have been on the command line for the command to have these values, apart from
    those with a default and without a rule. *)
Definition flag (b : bool) (id : string) : list string := if b then [id] else [].
Definition is_some {A} (o : option A) : bool := match o with Some _ => true | None => false end.
Definition nonempty {A} (l : list A) : bool := match l with [] => false | _ => true end.
Definition given_parsable {F} (p : ParsableArgs F) : list string :=
  flag (pa_parseable p) "parseable" ++ flag (nonempty (pa_output p)) "output" ++
  flag (is_some (pa_separator p)) "output_separator" ++ flag (pa_omit_header p) "omit_header".
Definition given_page (p : PageArgs) : list string :=
  flag (pg_sff p) "sff" ++ flag (pg_cmis p) "cmis" ++
  flag (match pg_upper p with Some (_, Some _) => true | _ => false end) "bank".
Definition given (c : Cmd) : list string :=
  match c with
  | CStatus wi wo all pa out sep omit =>
      flag (is_some wi) "with" ++ flag (is_some wo) "without" ++ flag all "all" ++ flag pa "parseable" ++
      flag (nonempty out) "output" ++ flag (is_some sep) "output_separator" ++ flag omit "omit_header"
  | CPower p => given_parsable p
  | CIdentify p => given_parsable p
  | CVendorInfo p => given_parsable p
  | CMemoryModel p => given_parsable p
  | CLeds p => given_parsable p
  | CMonitors p => given_parsable p
  | CRead page binary _ _ p => given_page page ++ flag binary "binary" ++ given_parsable p
  | CWrite page i _ => given_page page ++ flag (is_some (in_file i)) "input" ++ flag (is_some (in_kind i)) "input_kind"
  | CMacs summary => flag summary "summary"
  | _ => []
  end.

Definition present (l : list string) (id : string) : bool := existsb (String.eqb id) l.
(** The checks of [clap]. *)
Definition arg_ok (l : list string) (a : arg) : bool :=
  negb (present l (ag_id a)) ||
  (forallb (present l) (ag_requires a) && forallb (fun x => negb (present l x)) (ag_conflicts a)).
Definition group_ok (l : list string) (g : option (list string)) : bool :=
  match g with Some ids => Nat.eqb (List.length (filter (present l) ids)) 1 | None => true end.
Definition accepted (c : Cmd) : bool :=
  forallb (arg_ok (given c)) (cm_args (declared c)) && group_ok (given c) (cm_group (declared c)).

(** The options with a given letter or name. *)
Definition by_letter (l : list arg) (c : ascii) : list string :=
  map ag_id (filter (fun a => match ag_short a with Some x => Ascii.eqb x c | None => false end) l).
Definition by_name (l : list arg) (n : string) : list string :=
  map ag_id (filter (fun a => match ag_long a with Some x => String.eqb x n | None => false end) l).
