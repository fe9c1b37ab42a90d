(** Statement of C101: what a change of the power state does to modules that are on. *)
From Verif Require Export SpecPins.

(** A request that a module refuses leaves it as it is; the LPMode pin changes neither its LED nor its memory. *)
Record settled {St} (a : honest St) (view : St -> N -> slot) : Prop := {
  se_refused : forall s q d i, is_good (hs_verdict a s q d i) = false -> view (hs_next a s q d) i = view s i;
  se_lpmode : forall s q d i, match q with HAssertLpMode _ | HDeassertLpMode _ => True | _ => False end ->
    sl_led (view (hs_next a s q d) i) = sl_led (view s i) /\ forall p o, sl_cell (view (hs_next a s q d) i) p o = sl_cell (view s i) p o }.

(** The byte of lower memory with the software power control of a module. *)
Definition power_byte (x : slot) : N := if sff_kind (slot_kind x) then 93 else 26.
(** A module that was [x], which was on, is [y] now: it was not switched off, is in the state it was in or in the state [st],
    and nothing else was changed. *)
Definition goes_to (st : PowerState) (x y : slot) : Prop :=
  supplied (sl_status y) = true /\ held_in_reset (sl_status y) = false /\ sl_led y = sl_led x /\
  (forall p o, o <> power_byte x -> sl_cell y p o = sl_cell x p o) /\ (slot_power y = slot_power x \/ slot_power y = Some st).
(** The software control overrides the LPMode pin. *)
Definition overrides (x : slot) : option bool := option_map (fun c => match c with OverrideLpModePin _ => true | UseLpModePin => false end) (slot_control x).
(** The modules [m] are of the kind [id] in state [s], and power pins do not change the kind of one. *)
Definition one_kind {St} (a : honest St) (view : St -> N -> slot) (s : St) (m : N) (id : Identifier) : Prop :=
  (forall t q d j, is_power_pin q = true -> member j m -> slot_kind (view (hs_next a t q d) j) = slot_kind (view t j)) /\
  forall j, member j m -> slot_kind (view s j) = id.
