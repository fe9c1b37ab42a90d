(** Property C87: which command lines are accepted. *)
From Coq Require Import String Ascii.
From Verif Require Import ClapProofs.
Import ListNotations.
Open Scope N_scope.

(** C87: exactly the commands that keep the rules are accepted. *)
Theorem C87_accepted : forall c, accepted c = true <-> rule c.
Proof. exact accepted_rule. Qed.
Print Assumptions C87_accepted.
(** C87: and none of these reaches the places marked as unreachable. *)
Theorem C87_unreachable : forall c, accepted c = true -> did_its_job c.
Proof. exact job_done. Qed.
Print Assumptions C87_unreachable.
(** C87: how the options are typed. *)
Theorem C87_options : (forall c, typed_as (cm_args (declared c)) = command_options c) /\ typed_as top_args = general_options.
Proof. exact spelled. Qed.
Print Assumptions C87_options.
(** C87: no two options of a command share a name. *)
Theorem C87_names : forall c n, at_most_one (by_name (cm_args (declared c)) n) /\ at_most_one (by_name top_args n).
Proof. exact one_name. Qed.
Print Assumptions C87_names.
(** C87, full claim: nor a letter.  Proved but for [-p] of [read-upper]. *)
Theorem C87_letters_partial : forall c x, (reads_upper c = true -> x <> "p"%char) ->
  at_most_one (by_letter (cm_args (declared c)) x) /\ at_most_one (by_letter top_args x).
Proof. exact one_letter. Qed.
Print Assumptions C87_letters_partial.
(** Missing: there it is both the page and parseable output, for which [clap] panics in debug builds. *)
Theorem C87_letters_refuted : exists c, accepted c = true /\
  by_letter (cm_args (declared c)) "p" = ["page"; "parseable"]%string.
Proof. exists (CRead (mkPageArgs true false (Some (0, None))) false 128 1 (mkParsable false [] None false)). now split. Qed.
Print Assumptions C87_letters_refuted.
Example C87_witness :
  accepted (CStatus (Some 1) (Some 2) false false [] None true) = true /\
  accepted (CStatus (Some 1) None false true [] None true) = false /\
  accepted (CRead (mkPageArgs true false (Some (3, Some 1))) false 128 1 (mkParsable false [] None false)) = false /\
  accepted (CWrite (mkPageArgs false true None) (mkInput 512 512 (Some None) None []) 26) = false.
Proof. repeat split. Qed.
