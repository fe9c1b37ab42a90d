(** Vocabulary for C87: which command lines are accepted. *)
From Coq Require Import String Ascii.
From Verif Require Export Clap.
Import ListNotations.
Open Scope N_scope.

(** Fields and separator are for parseable output. *)
Definition fields_rule {F} (output : list F) (sep : option text) (parseable : bool) : Prop :=
  output <> [] \/ sep <> None -> parseable = true.
Definition parsable_rule {F} (p : ParsableArgs F) : Prop := fields_rule (pa_output p) (pa_separator p) (pa_parseable p).
(** One interface is named, and a bank goes with CMIS. *)
Definition page_rule (p : PageArgs) : Prop :=
  pg_sff p = negb (pg_cmis p) /\ (forall n b, pg_upper p = Some (n, Some b) -> pg_cmis p = true).
Definition rule (c : Cmd) : Prop :=
  match c with
  | CStatus wi wo all pa out sep _ =>
      (wi <> None \/ wo <> None -> all = false /\ pa = false) /\ (all = true -> pa = false) /\ fields_rule out sep pa
  | CPower p => parsable_rule p
  | CIdentify p => parsable_rule p
  | CVendorInfo p => parsable_rule p
  | CMemoryModel p => parsable_rule p
  | CLeds p => parsable_rule p
  | CMonitors p => parsable_rule p
  | CRead page _ _ _ p => page_rule page /\ parsable_rule p
  | CWrite page i _ => page_rule page /\ (in_file i <> None -> in_kind i <> None)
  | _ => True
  end.
(** The commands' own checks that [clap] did its job. *)
Definition did_its_job (c : Cmd) : Prop :=
  match c with
  | CStatus wi wo all pa _ sep _ => exists kind, status_kind wi wo all pa sep = Ok kind
  | CRead page _ _ _ _ => args_page page <> Panic
  | CWrite page i _ => args_page page <> Panic /\ ~ (in_file i <> None /\ in_kind i = None)
  | _ => True
  end.
Definition reads_upper (c : Cmd) : bool :=
  match c with CRead page _ _ _ _ => match pg_upper page with Some _ => true | None => false end | _ => false end.
Definition at_most_one {A} (l : list A) : Prop := (List.length l <= 1)%nat.

(** The options of the commands as they are typed: a letter, if there is one, and a name. *)
Definition typed_as (l : list arg) : list (option ascii * string) :=
  flat_map (fun a => match ag_long a with Some n => [(ag_short a, n)] | None => [] end) l.
Definition table_options : list (option ascii * string) :=
  [(Some "p"%char, "parseable"); (Some "o"%char, "output"); (None, "output-separator"); (None, "omit-header")]%string.
Definition page_options (p : PageArgs) : list (option ascii * string) :=
  match pg_upper p with Some _ => [(Some "p"%char, "page"); (Some "b"%char, "bank")]%string | None => [] end.
Definition command_options (c : Cmd) : list (option ascii * string) :=
  ((Some "h"%char, "help") ::
   match c with
   | CStatus _ _ _ _ _ _ _ => (None, "with") :: (None, "without") :: (None, "all") :: table_options
   | CPower _ | CIdentify _ | CVendorInfo _ | CMemoryModel _ | CLeds _ | CMonitors _ => table_options
   | CRead p _ _ _ _ => [(None, "sff"); (None, "cmis"); (None, "binary")] ++ page_options p ++ table_options
   | CWrite p _ _ => [(None, "sff"); (None, "cmis"); (Some "i"%char, "input"); (None, "input-kind")] ++ page_options p
   | CMacs _ => [(Some "s"%char, "summary")]
   | _ => []
   end)%string%list.
Definition general_options : list (option ascii * string) :=
  [(Some "h"%char, "help"); (Some "V"%char, "version"); (Some "t"%char, "transceivers"); (Some "a"%char, "address");
   (Some "i"%char, "interface"); (Some "P"%char, "port"); (Some "p"%char, "peer"); (None, "peer-port"); (Some "n"%char, "n-retries");
   (Some "r"%char, "retry-interval"); (Some "l"%char, "log-level"); (Some "E"%char, "ignore-errors")]%string.
