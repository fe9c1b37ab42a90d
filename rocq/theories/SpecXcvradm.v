(** Statement of C94: a run of xcvradm as a call of its own. *)
From Verif Require Export SpecDeadline CliMain.

(** A run that may end with an error of the tool itself, which is no error of the controller. *)
Definition as_call {St A} (c : world St -> world St * outcome (option Error) A) : ctl (St := St) (option A) := fun w =>
  let (w', r) := c w in
  (w', match r with Ok x => Ok (Some x) | Err (Some e) => Err e | Err None => Ok None | Panic => Panic end).
(** The run of the tool with the arguments [a]. *)
Definition xcvradm show_f32 show (a : Args) St (sp : St -> Rpc -> St * reply) : ctl (St := St) (option screen) :=
  as_call (main sp show_f32 show a).
Definition for_status (c : Cmd) : Prop := match c with CStatus _ _ _ _ _ _ _ => True | _ => False end.
(** An error, or an answer that is not about the extended status. *)
Definition useless (x : reply) : Prop :=
  match x with
  | Ok r => match msg_body (rpc_message r) with BSpResponse (SExtendedStatus _ _) => False | _ => True end
  | Err _ => True
  | Panic => False
  end.
Definition chosen (a : Args) : Transceivers := match ar_transceivers a with Some t => t | None => TAll end.
(** What the arguments name is in the range of its type. *)
Definition page_args_ok (p : PageArgs) : Prop :=
  match pg_upper p with
  | None => True
  | Some (page, bank) => page < 256 /\ match bank with Some b => b < 256 | None => True end
  end.
Definition args_ok (a : Args) : Prop :=
  match chosen a with TIndex m => m < 2 ^ 64 | _ => True end /\
  match ar_cmd a with
  | CRead page _ offset len _ => page_args_ok page /\ offset < 256 /\ len < 256
  | CWrite page _ offset => page_args_ok page /\ offset < 256
  | _ => True
  end.
