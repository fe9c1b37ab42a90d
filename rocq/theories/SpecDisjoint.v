(** Statement of C100: calls at the same time, for different modules. *)
From Verif Require Export SpecOnce SpecScope.
Import ListNotations.
Open Scope N_scope.

(** The states [s] and [s'] of all modules agree on the modules of [m]. *)
Definition agree {X} (m : N) (s s' : N -> X) : Prop := forall i, member i m -> s i = s' i.
(** What is left of data on the wire: none and empty are the same there (C59). *)
Definition carried (d : option (list N)) : option (list N) := match d with Some [] => None | d => d end.
(** The SP's modules know nothing of each other: a request leaves the other modules alone; and what it does to its
    modules, and what is answered, depends only on their states and on what is asked, not on the request's id. *)
Definition local {X} (sp : (N -> X) -> Rpc -> (N -> X) * reply) : Prop :=
  (forall s id q d i, ~ member i (request_modules q) -> fst (sp s (host_request id q d)) i = s i) /\
  forall s s' id id' q d d', carried d = carried d' -> agree (request_modules q) s s' ->
    agree (request_modules q) (fst (sp s (host_request id q d))) (fst (sp s' (host_request id' q d'))) /\
    same_answer (snd (sp s (host_request id q d))) (snd (sp s' (host_request id' q d'))).
(** The call addresses modules of [m] only, if the SP answers about modules it was asked about. *)
Definition keeps_to {A} (m : N) (p : prog A) : Prop :=
  forall St (sp : St -> Rpc -> St * reply), scoped sp -> addresses m (alone p sp).

(** The calls [ps], each for its own modules [ms]: no other call is for the modules of the [i]-th. *)
Definition has_for_itself (ms : list N) (i : nat) (m : N) : Prop :=
  nth_error ms i = Some m /\ forall j m', j <> i -> nth_error ms j = Some m' -> forall k, member k m -> ~ member k m'.
(** The call [p], now at [c], did to its modules [m], which are now as in [now], what it does alone, up to where it is. *)
Definition undisturbed {X A} (sp : (N -> X) -> Rpc -> (N -> X) * reply) (w : world (N -> X)) (now : N -> X) (m : N) (p : prog A) (c : call A) : Prop :=
  (forall xs x, c = Going xs (Ret x) ->
     (exists e, In (Err e) xs /\ (stops_at_errors p -> x = Err e)) \/
     snd (alone p sp w) = x /\ agree m now (w_sp (fst (alone p sp w)))) /\
  (stops_at_errors p -> exists st, In st (stations p sp w) /\ agree m now st).

(** An honest SP whose modules each answer, and change, by their own state and by what they are asked. *)
Definition by_itself {X} (a : honest (N -> X)) : Prop := forall s s' q d d' i, s i = s' i -> carried d = carried d' -> member i (request_modules q) ->
  hs_verdict a s q d i = hs_verdict a s' q d' i /\ hs_next a s q d i = hs_next a s' q d' i.
(** It leaves other modules alone. *)
Definition minds_others {X} (a : honest (N -> X)) : Prop := forall s q d i, ~ member i (request_modules q) -> hs_next a s q d i = s i.

(** The call [c] for the modules [m] keeps to them, also if its result is made one of another type (C78). *)
Definition keeps_within {A} (m : N) (c : forall St, (St -> Rpc -> St * reply) -> ctl (St := St) A) : Prop :=
  (forall p, steps_of c p -> keeps_to m p) /\ forall B (f : A -> B) p, steps_of (fun St sp => cbind (c St sp) (fun x => cret (Ok (f x)))) p -> keeps_to m p.
