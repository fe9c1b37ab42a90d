(** Specification vocabulary for per-module results (C14-C18 and the controller properties). *)
From Verif Require Export Spec SpecMessages Results.

(** In a set [m] of ports with data [d], port [i] carries [x]: [x] sits in [d] at the position
    that [i] has among the members of [m] in increasing order ([to_indices], characterised by
    C01_to_indices). *)
Definition at_port {A} (m : N) (d : list A) (i : N) (x : A) : Prop :=
  In (i, x) (combine (to_indices m) d).

(** One datum per member of the set. *)
Definition one_each {A} (m : N) (d : list A) : Prop :=
  m < 2 ^ 64 /\ length d = length (to_indices m).

(** A consistent result: one datum per successful module, one error per failed module, no module
    in both sets. *)
Definition wf_failed {E} (f : FailedModules E) : Prop := one_each (fm_modules f) (fm_errors f).
Definition wf_result {E P} (r : ModuleResult E P) : Prop :=
  one_each (mr_modules r) (mr_data r) /\ wf_failed (mr_failures r) /\
  forall i, ~ (member i (mr_modules r) /\ member i (fm_modules (mr_failures r))).

Definition succeeds {E P} (r : ModuleResult E P) (i : N) (x : P) : Prop :=
  at_port (mr_modules r) (mr_data r) i x.
Definition fails {E P} (r : ModuleResult E P) (i : N) (e : E) : Prop :=
  at_port (fm_modules (mr_failures r)) (fm_errors (mr_failures r)) i e.
Definition succeeded {E P} (r : ModuleResult E P) (i : N) : Prop := member i (mr_modules r).
Definition failed {E P} (r : ModuleResult E P) (i : N) : Prop :=
  member i (fm_modules (mr_failures r)).

(** The largest piece of a split access (C14). *)
Definition piece_limit (p : Page) : N := match p with PageSff _ => 64 | PageCmis _ => 8 end.
(** [eqb] decides equality. *)
Definition decides {A} (eqb : A -> A -> bool) : Prop := forall x y, eqb x y = true <-> x = y.
