(** Specification vocabulary for the effect of calls on the modules (C74-C76). *)
From Verif Require Export SpecScope SpecQuery.

(** What can be seen of one module: the status byte, the LED, and the memory. *)
Record slot := mkSlot { sl_status : N; sl_led : LedState; sl_cell : Page -> N -> N }.
(** The write reaches byte [o] of page [p].  Bytes below 128 are the same on all pages. *)
Definition reaches (wr : MemoryWrite) (p : Page) (o : N) : Prop :=
  (o < 128 \/ p = wr_page wr) /\ wr_offset wr <= o < wr_offset wr + wr_len wr.

Definition led_byte (l : LedState) : N := match l with LedOff => 0 | LedOn => 1 | LedBlink => 2 end.

(** The SP drives modules, of which [view] tells the present state: requests affect the modules they
    address; looking changes nothing; what is answered is what is there; and a module that accepts a
    request does as it is told.  Which requests are refused, and what a module does that refuses, is
    open; so is the memory after a change of the pins. *)
Record drives {St} (a : honest St) (view : St -> N -> slot) : Prop := {
  dr_apart : forall s q d i, ~ member i (request_modules q) -> view (hs_next a s q d) i = view s i;
  dr_look : forall s q d i, looking q = true -> view (hs_next a s q d) i = view s i;
  dr_status : forall s m d i x, member i m -> hs_verdict a s (HStatus m) d i = inl x -> x = [sl_status (view s i)];
  dr_led : forall s m d i x, member i m -> hs_verdict a s (HLedState m) d i = inl x -> x = [led_byte (sl_led (view s i))];
  dr_read : forall s m rd d i x, member i m -> hs_verdict a s (HRead m rd) d i = inl x -> x = contents (sl_cell (view s i)) rd;
  dr_pin : forall s q d i x, is_power_pin q = true -> member i (request_modules q) -> hs_verdict a s q d i = inl x ->
    let t := sl_status (view s i) in
    let t' := sl_status (view (hs_next a s q d) i) in
    supplied t' = match q with HEnablePower _ => true | HDisablePower _ => false | _ => supplied t end /\
    held_in_reset t' = match q with HAssertReset _ => true | HDeassertReset _ => false | _ => held_in_reset t end /\
    lpmode_pin t' = match q with HAssertLpMode _ => true | HDeassertLpMode _ => false | _ => lpmode_pin t end;
  dr_set_led : forall s m l d i x, member i m -> hs_verdict a s (HSetLedState m l) d i = inl x ->
    sl_led (view (hs_next a s (HSetLedState m l) d) i) = l;
  dr_write : forall s m wr d i x, bytes d = true -> member i m -> hs_verdict a s (HWrite m wr) (Some d) i = inl x ->
    let y := view (hs_next a s (HWrite m wr) (Some d)) i in
    sl_status y = sl_status (view s i) /\ sl_led y = sl_led (view s i) /\
    forall p o, (reaches wr p o -> sl_cell y p o = nth (N.to_nat (o - wr_offset wr)) d 0) /\
                (~ reaches wr p o -> sl_cell y p o = sl_cell (view s i) p o) }.

(** The kind of a module, and the power state it is in: off when not supplied or in reset; otherwise
    high or low, by its software control if that overrides the LPMode pin, else by the pin. *)
Definition slot_kind (x : slot) : Identifier := kind_of (sl_cell x).
Definition slot_control (x : slot) : option PowerControl :=
  if sff_kind (slot_kind x) then
    let b := sl_cell x (PageSff SffLower) 93 in
    Some (if N.testbit b 0 then OverrideLpModePin (N.testbit b 1) else UseLpModePin)
  else if cmis_kind (slot_kind x) then
    let b := sl_cell x (PageCmis CmisLower) 26 in
    Some (if N.testbit b 6 then UseLpModePin else OverrideLpModePin (N.testbit b 4))
  else None.
Definition slot_mode (x : slot) : option PowerMode :=
  let s := sl_status x in
  if negb (supplied s) || held_in_reset s then Some (mkPowerMode PowerOff None)
  else match slot_control x with
       | None => None
       | Some (OverrideLpModePin low) => Some (mkPowerMode (low_or_high low) (Some true))
       | Some UseLpModePin => Some (mkPowerMode (low_or_high (lpmode_pin s)) (Some false))
       end.
Definition slot_power (x : slot) : option PowerState := option_map pm_state (slot_mode x).

(** The pins of a module: supplied with power, held in reset, LPMode asserted; and what an accepted
    request makes of them. *)
Definition pins (x : slot) : bool * bool * bool :=
  (supplied (sl_status x), held_in_reset (sl_status x), lpmode_pin (sl_status x)).
Definition pins_after (q : HostRequest) (t : bool * bool * bool) : bool * bool * bool :=
  let '(p, r, l) := t in
  (match q with HEnablePower _ => true | HDisablePower _ => false | _ => p end,
   match q with HAssertReset _ => true | HDeassertReset _ => false | _ => r end,
   match q with HAssertLpMode _ => true | HDeassertLpMode _ => false | _ => l end).

(** What is seen of module [i] after call [c] from [w]. *)
Definition seen_after {St A} (view : St -> N -> slot) (c : ctl (St := St) A) (w : world St) (i : N) : slot :=
  view (w_sp (fst (c w))) i.
(** The call changes no module; the call changes modules of [m] only. *)
Definition changes_nothing {St A} (view : St -> N -> slot) (c : ctl (St := St) A) : Prop :=
  forall w i, seen_after view c w i = view (w_sp w) i.
Definition changes_only {St A} (view : St -> N -> slot) (m : N) (c : ctl (St := St) A) : Prop :=
  forall w i, ~ member i m -> seen_after view c w i = view (w_sp w) i.

(** ** A concrete rack *)
(** Each module a slot; requests are refused as [refuse] says; changing the pins of a module may
    change its memory ([drift]).  Of each number only the low byte is seen. *)
Definition slots := N -> slot.
Definition seen (s : slots) (i : N) : slot :=
  mkSlot (sl_status (s i) mod 256) (sl_led (s i)) (fun p o => sl_cell (s i) p o mod 256).
Definition set_to (b : bool) (k s : N) : N := if b then N.setbit s k else N.clearbit s k.
Definition pin_effect (q : HostRequest) (s : N) : N :=
  match q with
  | HEnablePower _ => set_to true 1 (set_to true 5 s)
  | HDisablePower _ => set_to false 1 (set_to false 5 s)
  | HAssertReset _ => set_to true 2 s
  | HDeassertReset _ => set_to false 2 s
  | HAssertLpMode _ => set_to true 3 s
  | HDeassertLpMode _ => set_to false 3 s
  | _ => s
  end.
Definition page_eqb (p q : Page) : bool :=
  match p, q with
  | PageSff SffLower, PageSff SffLower | PageCmis CmisLower, PageCmis CmisLower => true
  | PageSff (SffUpper a), PageSff (SffUpper b) => a =? b
  | PageCmis (CmisUpper (mkCmisUpper None a)), PageCmis (CmisUpper (mkCmisUpper None b)) => a =? b
  | PageCmis (CmisUpper (mkCmisUpper (Some x) a)), PageCmis (CmisUpper (mkCmisUpper (Some y) b)) => (x =? y) && (a =? b)
  | _, _ => false
  end.
Definition reaches_b (wr : MemoryWrite) (p : Page) (o : N) : bool :=
  ((o <? 128) || page_eqb p (wr_page wr)) && (wr_offset wr <=? o) && (o <? wr_offset wr + wr_len wr).
Definition slot_effect (drift : slot -> Page -> N -> N) (q : HostRequest) (d : option (list N)) (x : slot) : slot :=
  match q with
  | HWrite _ wr =>
      let bs := match d with Some bs => bs | None => [] end in
      mkSlot (sl_status x) (sl_led x)
             (fun p o => if reaches_b wr p o then nth (N.to_nat (o - wr_offset wr)) bs 0 else sl_cell x p o)
  | HSetLedState _ l => mkSlot (sl_status x) l (sl_cell x)
  | _ => if is_power_pin q then mkSlot (pin_effect q (sl_status x)) (sl_led x) (drift x) else x
  end.
Definition slot_answer (x : slot) (q : HostRequest) : list N :=
  match q with
  | HRead _ rd => contents (sl_cell x) rd
  | HStatus _ => [sl_status x]
  | HLedState _ => [led_byte (sl_led x)]
  | HExtendedStatus _ => [sl_status x; 0; 0; 0]
  | _ => []
  end.
Definition slots_next (refuse : slots -> HostRequest -> option (list N) -> N -> option N)
    (drift : slot -> Page -> N -> N) (s : slots) (q : HostRequest) (d : option (list N)) : slots :=
  fun i => if N.testbit (request_modules q) i
           then match refuse s q d i with None => slot_effect drift q d (s i) | Some _ => s i end
           else s i.
Definition live_rack refuse drift : honest slots :=
  mkHonest (fun s q d i => match refuse s q d i with
                           | Some e => inr (e mod 256)
                           | None => inl (slot_answer (seen s i) q)
                           end)
           (slots_next refuse drift).
