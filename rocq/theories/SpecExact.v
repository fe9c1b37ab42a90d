(** Vocabulary for what [set_power] does and reports, module by module (C38). *)
From Verif Require Export SpecController.

(** The ports of [m] for which [P] holds. *)
Definition ports_where (m : N) (P : N -> bool) : N := port_mask (filter P (to_indices m)).

Section Steps.
  (** The SP's verdicts and the contents of the modules' memories, and the modules asked for. *)
  Context (v : HostRequest -> option (list N) -> N -> verdict) (mem : N -> MemoryRead -> verdict).
  Context (k : Identifier) (st : PowerState) (m : N).

  (** What is known of the modules at first: their power modes. *)
  Definition mode_at (i : N) : PowerMode + TransceiverError := power_says (v (HStatus m) None) (control_says mem) i.
  Definition known : N := passed m mode_at.
  (** Then their status is asked for again. *)
  Definition status_at (i : N) : verdict := v (HStatus known) None i.
  Definition looked_at : N := good_mask known status_at.
  (** Modules to be raised: not supplied, or in reset.  Those not in reset are put into it first. *)
  Definition to_raise : N :=
    ports_where looked_at (fun i => match status_at i with
                                    | inl d => negb (supplied (hd 0 d)) || held_in_reset (hd 0 d)
                                    | inr _ => false end).
  Definition to_reset : N :=
    ports_where to_raise (fun i => match status_at i with inl d => negb (held_in_reset (hd 0 d)) | inr _ => false end).
  (** If a module is to be raised, only modules to be raised are treated further. *)
  Definition treated : N := if to_raise =? 0 then looked_at else good_mask to_raise (v (HEnablePower to_raise) None).
  Definition pinned : N := good_mask treated (v (lpmode_request st treated) None).
  Definition awake : N := if to_raise =? 0 then pinned else good_mask to_raise (v (HDeassertReset to_raise) None).
  Definition identified : N := good_mask awake (fun i => mem i ident_read).
  (** Modules controlled by software at first, and the others. *)
  Definition by_software (i : N) : bool :=
    match mode_at i with inl x => match pm_override x with Some true => true | _ => false end | inr _ => false end.
  Definition soft_ones : N := ports_where identified by_software.
  Definition pin_ones : N := ports_where identified (fun i => negb (by_software i)).
  Definition soft_request (override : bool) (x : N) (i : N) : verdict :=
    v (HWrite x (soft_place k)) (Some [soft_word k override st]) i.
  Definition reported : N := good_mask pin_ones (soft_request false pin_ones).

  (** Modules of [x] that refuse a request. *)
  Definition refuses (x : N) (f : N -> verdict) (i : N) : Prop := member i x /\ is_good (f i) = false.
  (** A request about the pins on the way is refused. *)
  Definition pin_refused (i : N) : Prop :=
    refuses to_reset (v (HAssertReset to_reset) None) i \/ refuses to_raise (v (HEnablePower to_raise) None) i \/
    refuses treated (v (lpmode_request st treated) None) i.
  Definition broke (i : N) : Prop :=
    (member i m /\ ~ member i known) \/ refuses known status_at i \/ pin_refused i \/
    refuses to_raise (v (HDeassertReset to_raise) None) i \/
    refuses awake (fun i => mem i ident_read) i \/
    refuses soft_ones (soft_request true soft_ones) i \/ refuses pin_ones (soft_request false pin_ones) i.

  (** The requests that follow the first query of the power modes. *)
  Definition power_deeds : list done :=
    DRequest (HStatus known) None ::
    (if to_reset =? 0 then [] else [DRequest (HAssertReset to_reset) None; DSleep 10]) ++
    (if to_raise =? 0 then [] else [DRequest (HEnablePower to_raise) None]) ++
    [DRequest (lpmode_request st treated) None] ++
    (if to_raise =? 0 then [] else [DRequest (HDeassertReset to_raise) None; DSleep 2000000]) ++
    ident_request awake.
  Definition software_requests : list done :=
    if identified =? 0 then []
    else [DRequest (HWrite soft_ones (soft_place k)) (Some [soft_word k true st]);
          DRequest (HWrite pin_ones (soft_place k)) (Some [soft_word k false st])].

  (** Several kinds: the identified modules of kind [k]; the kind with the lowest code among them; and the
      failed modules if only those of kind [k] are written to. *)
  Definition of_kind : N :=
    ports_where identified (fun i => match ident_told mem i with inl x => benum_eqb x k | inr _ => false end).
  Definition lower_code (x y : Identifier) : Prop := match x, y with Named a, Named b => a < b | _, _ => False end.
  Definition first_kind : Prop :=
    of_kind <> 0 /\
    forall i id, member i identified -> ident_told mem i = inl id -> id = k \/ lower_code k id.
  Definition broke_kinds (i : N) : Prop :=
    (member i m /\ ~ member i known) \/ refuses known status_at i \/ pin_refused i \/
    refuses to_raise (v (HDeassertReset to_raise) None) i \/
    refuses awake (fun i => mem i ident_read) i \/ refuses of_kind (soft_request false of_kind) i.
End Steps.
(** A write to no module at all. *)
Definition idle_write (d : done) : Prop := exists wr x, d = DRequest (HWrite 0 wr) x.

(** Exactly one of the two reports is made of module [i]. *)
Definition told_once (r : Result unit) (i : N) : Prop :=
  (member i (mr_modules r) /\ ~ failed r i) \/ (~ member i (mr_modules r) /\ failed r i).
Definition told_never (r : Result unit) (i : N) : Prop := ~ member i (mr_modules r) /\ ~ failed r i.
Definition told_twice (r : Result unit) (i : N) : Prop := member i (mr_modules r) /\ failed r i.
