(** Statement of C97: in which order a call sets the pins of a module. *)
From Verif Require Export SpecLive.

(** The SP's state after the requests of a log. *)
Definition led_to {St} (sp : St -> Rpc -> St * reply) (l : list act) (s : St) : St :=
  fold_left (fun s x => match x with ASend r => fst (sp s r) | ASleep _ => s end) l s.
(** [c], called in [w], comes to the state [s]; it makes the request [q] in state [s]. *)
Definition comes_to {St A} (sp : St -> Rpc -> St * reply) (c : ctl (St := St) A) (w : world St) (s : St) : Prop :=
  exists l l', w_log (fst (c w)) = w_log w ++ l ++ l' /\ s = led_to sp l (w_sp w).
Definition requests_at {St A} (sp : St -> Rpc -> St * reply) (c : ctl (St := St) A) (w : world St) (s : St) (q : HostRequest) : Prop :=
  exists l r l', w_log (fst (c w)) = w_log w ++ l ++ ASend r :: l' /\ msg_body (rpc_message r) = BHostRequest q /\ s = led_to sp l (w_sp w).

(** Module [i] refuses no request that sets its pins.  A module that refuses a request keeps its pins. *)
Definition obeys {St} (a : honest St) (i : N) : Prop :=
  forall s q d, is_power_pin q = true -> is_good (hs_verdict a s q d i) = true.
Definition firm {St} (a : honest St) (view : St -> N -> slot) : Prop :=
  forall s q d i, is_good (hs_verdict a s q d i) = false -> pins (view (hs_next a s q d) i) = pins (view s i).

(** The pins (supplied, in reset, LPMode) that [set_power] finds when it makes the request [q] of a module that had the pins
    [t] at first and obeys; it makes no others. *)
Definition pins_met (st : PowerState) (t : bool * bool * bool) (q : HostRequest) : option (bool * bool * bool) :=
  let '(p, r, l) := t in
  match st, q with
  | PowerOff, HDeassertLpMode _ => Some (p, r, l)
  | PowerOff, HAssertReset _ => Some (p, r, false)
  | PowerOff, HDisablePower _ => Some (p, true, false)
  | PowerOff, _ => None
  | _, HAssertReset _ => if p || r then None else Some (p, r, l)
  | _, HEnablePower _ => if p && negb r then None else Some (p, true, l)
  | PowerLow, HAssertLpMode _ | PowerHigh, HDeassertLpMode _ => Some (if p && negb r then (p, r, l) else (true, true, l))
  | _, HDeassertReset _ => if p && negb r then None else Some (true, true, match st with PowerLow => true | _ => false end)
  | _, _ => None
  end.
(** The pins that a module may have during [set_power] to off and during [reset], even if it refuses requests. *)
Definition pins_off (t : bool * bool * bool) : list (bool * bool * bool) :=
  let '(p, r, l) := t in [(p, r, l); (p, r, false); (p, true, false); (false, true, false)].
Definition pins_reset (t : bool * bool * bool) : list (bool * bool * bool) :=
  let '(p, r, l) := t in [(p, r, l); (p, true, l); (p, false, l)].
(** LPMode is asserted for modules that are supplied with power only: it would power others through the pin
    (controller/src/controller.rs:488-495, 608-612). *)
Definition no_back_power (x : slot) : Prop := lpmode_pin (sl_status x) = true -> supplied (sl_status x) = true.
