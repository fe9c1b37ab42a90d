(** Specification vocabulary for what calls may touch (C62, C63). *)
From Verif Require Export SpecController.

(** Requests that change nothing. *)
Definition looking (q : HostRequest) : bool :=
  match q with
  | HRead _ _ | HStatus _ | HExtendedStatus _ | HLedState _ | HMacAddrs => true
  | _ => false
  end.
(** Requests that set a module's power or reset pins. *)
Definition is_power_pin (q : HostRequest) : bool :=
  match q with
  | HAssertReset _ | HDeassertReset _ | HAssertLpMode _ | HDeassertLpMode _ | HEnablePower _
  | HDisablePower _ => true
  | _ => false
  end.
(** The one-byte write that selects a software power state: byte 93 of the SFF-8636 lower page, or byte
    26 (the code addresses it through the SFF-8636 lower page also on CMIS modules, C39). *)
Definition software_power_write (st : PowerState) (q : HostRequest) (d : option (list N)) : Prop :=
  exists m b, d = Some [b] /\
    (q = HWrite m (mkWrite (PageSff SffLower) 93 1) /\
       match st with PowerLow => b = 2 \/ b = 3 | PowerHigh => b = 0 \/ b = 1 | PowerOff => False end \/
     q = HWrite m (mkWrite (PageSff SffLower) 26 1) /\
       match st with PowerLow => b = 16 \/ b = 80 | PowerHigh => b = 0 \/ b = 64 | PowerOff => False end).
(** Whatever the SP answers, the call makes only such requests; and it sleeps only if [naps]. *)
Definition asks_only {St A} (p : HostRequest -> option (list N) -> Prop) (naps : bool) (c : ctl (St := St) A)
    : Prop :=
  forall w, Forall (fun x => match x with
                             | DRequest q d => p q d
                             | DSleep _ => naps = true
                             end) (deeds c w).
(** Nothing but requests that change nothing, without data. *)
Definition just_looks {St A} (c : ctl (St := St) A) : Prop :=
  asks_only (fun q d => looking q = true /\ d = None) false c.

(** The SP answers about modules it was asked about. *)
Definition scoped {St} (sp : St -> Rpc -> St * reply) : Prop :=
  forall s h q d resp r,
    snd (sp s (mkRpc h (message_new (BHostRequest q)) d)) = Ok resp ->
    msg_body (rpc_message resp) = BSpResponse r ->
    forall i, member i (resp_modules r) \/ member i (resp_failed r) -> member i (request_modules q).
(** Every request of the call addresses modules of [m] only. *)
Definition addresses {St A} (m : N) (c : ctl (St := St) A) : Prop :=
  forall w q d i, In (DRequest q d) (deeds c w) -> member i (request_modules q) -> member i m.
(** The result is about modules of [m] only. *)
Definition about {St P} (m : N) (c : ctl (St := St) (Result P)) : Prop :=
  forall w r i, snd (c w) = Ok r -> succeeded r i \/ failed r i -> member i m.
Definition confined {St P} (m : N) (c : ctl (St := St) (Result P)) : Prop := addresses m c /\ about m c.
