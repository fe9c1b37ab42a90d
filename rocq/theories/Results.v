(** Model of controller/src/results.rs.  The error type is a parameter [E] (it is
    [TransceiverError] in the code); nothing in this file inspects an error. *)
From Verif Require Export ModuleId.

(** controller/src/results.rs:43-49 *)
Record FailedModules (E : Type) := mkFailed { fm_modules : ModuleId; fm_errors : list E }.
Arguments mkFailed {E}. Arguments fm_modules {E}. Arguments fm_errors {E}.

(** controller/src/results.rs:64-72 *)
Definition failed_merge {E} (a b : FailedModules E) : FailedModules E :=
  let (m, e) := merge_module_data (fm_modules a) (fm_errors a) (fm_modules b) (fm_errors b) in
  mkFailed m e.

(** controller/src/results.rs:75-80 *)
Definition failed_success {E} : FailedModules E := mkFailed m_empty [].

(** controller/src/results.rs:84-86 *)
Definition failed_iter {E} (f : FailedModules E) : list (N * E) :=
  zip_data (fm_modules f) (fm_errors f).

(** controller/src/results.rs:90-94 *)
Definition failed_nth {E} (f : FailedModules E) (i : N) : option E :=
  match find (fun p => fst p =? i) (failed_iter f) with
  | Some (_, e) => Some e
  | None => None
  end.

(** controller/src/results.rs:219-223 *)
Record ModuleResult (E P : Type) := mkResult
  { mr_modules : ModuleId; mr_data : list P; mr_failures : FailedModules E }.
Arguments mkResult {E P}. Arguments mr_modules {E P}. Arguments mr_data {E P}.
Arguments mr_failures {E P}.

(** controller/src/results.rs:228-230 *)
Definition result_iter {E P} (r : ModuleResult E P) : list (N * P) :=
  zip_data (mr_modules r) (mr_data r).
(** controller/src/results.rs:241-245 *)
Definition result_nth {E P} (r : ModuleResult E P) (i : N) : option P :=
  match find (fun p => fst p =? i) (result_iter r) with
  | Some (_, x) => Some x
  | None => None
  end.
(** controller/src/results.rs:249-251 *)
Definition result_nth_err {E P} (r : ModuleResult E P) (i : N) : option E :=
  failed_nth (mr_failures r) i.
(** controller/src/results.rs:254-256 *)
Definition result_is_success {E P} (r : ModuleResult E P) : bool :=
  m_is_empty (fm_modules (mr_failures r)).
(** controller/src/results.rs:262-272 *)
Definition result_success {E P} (m : ModuleId) (d : list P) : option (ModuleResult E P) :=
  if Nat.eqb (m_count m) (length d) then Some (mkResult m d failed_success) else None.
(** [Default] of a [ModuleResult] (derive, 218). *)
Definition result_default {E P} : ModuleResult E P := mkResult m_empty [] failed_success.

(** controller/src/results.rs:182-188, 177-179 *)
Definition ack_new {E} (m : ModuleId) (f : FailedModules E) : ModuleResult E unit :=
  mkResult m (repeat tt (m_count m)) f.
Definition ack_success {E} (m : ModuleId) : ModuleResult E unit := ack_new m failed_success.

(** controller/src/results.rs:329-332 *)
Definition without_failures_from {E P} (a b : ModuleResult E P) : ModuleId * list P :=
  remove_module_data (mr_modules a) (mr_data a) (fm_modules (mr_failures b)).

(** controller/src/results.rs:294-325 *)
Definition result_merge {E P} (a b : ModuleResult E P) : option (ModuleResult E P) :=
  if negb (m_is_empty (m_and (mr_modules a) (mr_modules b))) then None
  else if negb (m_is_empty (m_and (fm_modules (mr_failures a)) (fm_modules (mr_failures b))))
  then None
  else
    let (rm, rd) := without_failures_from a b in
    let (nm, nd) := without_failures_from b a in
    let (m, d) := merge_module_data rm rd nm nd in
    Some (mkResult m d (failed_merge (mr_failures a) (mr_failures b))).

(** The loop of controller/src/results.rs:397-402: [out.get_mut(&ix)] then append.  The map is an
    association list with distinct keys. *)
Definition append_at {P} (out : list (N * list P)) (ix : N) (d : list P) : list (N * list P) :=
  map (fun p => if fst p =? ix then (fst p, snd p ++ d) else p) out.

(** controller/src/results.rs:372-411 *)
Definition result_append {E P} (a b : ModuleResult E (list P)) : option (ModuleResult E (list P)) :=
  if negb (m_is_empty (m_and (fm_modules (mr_failures a)) (fm_modules (mr_failures b)))) then None
  else if negb (m_is_subset (mr_modules a) (m_or (mr_modules b) (fm_modules (mr_failures b))))
  then None
  else
    let (m, d) := remove_module_data (mr_modules a) (mr_data a) (fm_modules (mr_failures b)) in
    let out := fold_left (fun o p => append_at o (fst p) (snd p))
                 (zip_data (mr_modules b) (mr_data b)) (zip_data m d) in
    match from_indices (map fst out) with
    | Ok m' => Some (mkResult m' (map snd out) (failed_merge (mr_failures a) (mr_failures b)))
    | _ => None
    end.

(** controller/src/results.rs:233-235 *)
Definition result_error_iter {E P} (r : ModuleResult E P) : list (N * E) := failed_iter (mr_failures r).
(** [Vec]'s [==]. *)
Fixpoint list_eq {A} (eqb : A -> A -> bool) (a b : list A) : bool :=
  match a, b with
  | [], [] => true
  | x :: a', y :: b' => eqb x y && list_eq eqb a' b'
  | _, _ => false
  end.
(** controller/src/results.rs:42 (derive) *)
Definition failed_eq {E} (eqE : E -> E -> bool) (a b : FailedModules E) : bool :=
  (fm_modules a =? fm_modules b) && list_eq eqE (fm_errors a) (fm_errors b).
(** controller/src/results.rs:415-428 *)
Definition result_eq {E P} (eqE : E -> E -> bool) (eqP : P -> P -> bool) (a b : ModuleResult E P) : bool :=
  if negb (mr_modules a =? mr_modules b) then false
  else if negb (list_eq eqP (mr_data a) (mr_data b)) then false
  else failed_eq eqE (mr_failures a) (mr_failures b).
