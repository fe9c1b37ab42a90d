(** Theorems for C74-C76: what calls do to the modules and what they tell of them, for an SP that drives
    the modules it speaks for ([drives]) and may refuse any request for any module at any time. *)
From Verif Require Import Tac SpecLive LiveProofs LiveProofs2 LiveProofs3 DecodeProofs9.

(** C74: a module that [set_power] reports as done, and not as failed, is in the state asked for. *)
Theorem C74_set_power : forall St (a : honest St) view, honest_ok a -> drives a view -> forall (w : world St) m st r,
  m < 2 ^ 64 -> snd (set_power (honest_sp a) m st w) = Ok r ->
  forall i, succeeded r i -> ~ failed r i -> slot_power (seen_after view (set_power (honest_sp a) m st) w i) = Some st.
Proof. exact @live_set_power. Qed.
Print Assumptions C74_set_power.
(** C74: ... and asking for its power state next tells that state. *)
Theorem C74_told : forall St (a : honest St) view, honest_ok a -> drives a view -> forall (w : world St) m st r r',
  m < 2 ^ 64 -> snd (set_power (honest_sp a) m st w) = Ok r ->
  forall m', m' < 2 ^ 64 -> snd (power (honest_sp a) m' (fst (set_power (honest_sp a) m st w))) = Ok r' ->
  forall i x, succeeded r i -> ~ failed r i -> succeeds r' i x -> pm_state x = st.
Proof. exact @power_after_set. Qed.
Print Assumptions C74_told.
(** C74, full claim without "and not as failed": false, a module that refused to be powered is reported
    as done too (C38). *)
Theorem C74_done_refuted : exists (a : honest slots) w r, honest_ok a /\ drives a seen /\
  snd (set_power (honest_sp a) 3 PowerLow w) = Ok r /\ succeeded r 0 /\
  slot_power (seen_after seen (set_power (honest_sp a) 3 PowerLow) w 0) = Some PowerOff.
Proof.
  exists (live_rack (fun _ q _ i => match q with HEnablePower _ => if i =? 0 then Some 8 else None | _ => None end)
                    (fun x => sl_cell x)),
    (mkWorld (fun i => mkSlot (if i =? 0 then 1 else 39) LedOff (fun _ o => if o =? 0 then 17 else 0)) 0 []).
  eexists. split; [apply rack_ok|]. split; [apply rack_drives|]. split; [vm_compute; reflexivity|]. split; vm_compute; reflexivity.
Qed.
Print Assumptions C74_done_refuted.
(** C74: calls change modules they are given only. *)
Theorem C74_others : forall St (a : honest St) view, drives a view -> forall m,
  (forall q, request_modules q = m -> changes_only view m (no_payload_request (honest_sp a) q)) /\
  (forall wr data, changes_only view m (ctl_write (honest_sp a) m wr data)) /\
  changes_only view m (reset (honest_sp a) m) /\
  (forall st, changes_only view m (set_power (honest_sp a) m st)).
Proof. exact @calls_change_own. Qed.
Print Assumptions C74_others.

(** C75: what a call tells of a module is what is there when it is called, and the call leaves it there. *)
Theorem C75_told : forall St (a : honest St) view, honest_ok a -> drives a view -> forall (w : world St) m, m < 2 ^ 64 ->
  (forall r, snd (ctl_status (honest_sp a) m w) = Ok r ->
     forall i x, succeeds r i x -> member i m /\ x = sl_status (view (w_sp w) i)) /\
  (forall r, snd (leds (honest_sp a) m w) = Ok r ->
     forall i x, succeeds r i x -> member i m /\ x = sl_led (view (w_sp w) i)) /\
  (forall r, snd (identifier (honest_sp a) m w) = Ok r ->
     forall i x, succeeds r i x -> member i m /\ x = slot_kind (view (w_sp w) i)) /\
  (forall r, snd (power (honest_sp a) m w) = Ok r ->
     forall i x, succeeds r i x -> member i m /\ slot_mode (view (w_sp w) i) = Some x) /\
  (forall rd r, rd_len rd <= 255 -> snd (ctl_read (honest_sp a) m rd w) = Ok r ->
     forall i x, succeeds r i x -> member i m /\ x = contents (sl_cell (view (w_sp w) i)) rd).
Proof. exact @told_there. Qed.
Print Assumptions C75_told.
(** C75 for decoded data, [..._of] as in C64 (for datapaths with the deviations of C49). *)
Theorem C75_decoded : forall St (a : honest St) view, honest_ok a -> drives a view -> forall (w : world St) m, m < 2 ^ 64 ->
  (forall i, byte_memory (sl_cell (view (w_sp w) i))) ->
  (forall r, snd (vendor_info (honest_sp a) m w) = Ok r ->
     forall i x, succeeds r i x -> member i m /\ vendor_of (sl_cell (view (w_sp w) i)) x) /\
  (forall r, snd (memory_model (honest_sp a) m w) = Ok r ->
     forall i x, succeeds r i x -> member i m /\ memory_model_of (sl_cell (view (w_sp w) i)) x) /\
  (forall r, snd (monitors (honest_sp a) m w) = Ok r ->
     forall i x, succeeds r i x -> member i m /\ monitors_of (sl_cell (view (w_sp w) i)) x) /\
  (forall r, snd (datapath (honest_sp a) m w) = Ok r ->
     forall i x, succeeds r i x -> member i m /\ datapath_of (sl_cell (view (w_sp w) i)) x).
Proof. exact @decoded_there. Qed.
Print Assumptions C75_decoded.
(** C75 for any decoder. *)
Theorem C75_query : forall St (a : honest St) view, honest_ok a -> drives a view ->
  forall P reads (parse : Identifier -> list (list N) -> outcome DecodeError P) (w : world St) m r,
  In reads decoders -> m < 2 ^ 64 -> snd (parse_modules_by_identifier (honest_sp a) reads parse m w) = Ok r ->
  forall i x, succeeds r i x -> member i m /\
    supported_kind (kind_of (sl_cell (view (w_sp w) i))) = true /\
    decoded reads parse (kind_of (sl_cell (view (w_sp w) i))) (sl_cell (view (w_sp w) i)) = Ok x.
Proof. exact @live_decoded. Qed.
Print Assumptions C75_query.
Theorem C75_quiet : forall St (a : honest St) view, drives a view -> forall m,
  changes_nothing view (leds (honest_sp a) m) /\ changes_nothing view (ctl_status (honest_sp a) m) /\
  changes_nothing view (extended_status (honest_sp a) m) /\ changes_nothing view (mac_addrs (honest_sp a)) /\
  changes_nothing view (identifier (honest_sp a) m) /\ changes_nothing view (power (honest_sp a) m) /\
  (forall rd, changes_nothing view (ctl_read (honest_sp a) m rd)) /\
  (forall P reads (parse : Identifier -> list (list N) -> outcome DecodeError P),
     changes_nothing view (parse_modules_by_identifier (honest_sp a) reads parse m)).
Proof. exact @queries_change_nothing. Qed.
Print Assumptions C75_quiet.

(** C76: bytes reported as written are there, and nothing else of the module has changed. *)
Theorem C76_write : forall St (a : honest St) view, honest_ok a -> drives a view -> forall (w : world St) m wr data r,
  m < 2 ^ 64 -> bytes data = true -> snd (ctl_write (honest_sp a) m wr data w) = Ok r ->
  forall i, succeeded r i ->
    let x := view (w_sp w) i in
    let y := seen_after view (ctl_write (honest_sp a) m wr data) w i in
    member i m /\ ~ failed r i /\ wr_len wr = Nlen data /\ sl_status y = sl_status x /\ sl_led y = sl_led x /\
    forall p o, (reaches wr p o -> sl_cell y p o = nth (N.to_nat (o - wr_offset wr)) data 0) /\
                (~ reaches wr p o -> sl_cell y p o = sl_cell x p o).
Proof. exact @live_write. Qed.
Print Assumptions C76_write.
Theorem C76_read_back : forall St (a : honest St) view, honest_ok a -> drives a view -> forall (w : world St) m wr data r,
  m < 2 ^ 64 -> bytes data = true -> wr_len wr <= 255 -> snd (ctl_write (honest_sp a) m wr data w) = Ok r ->
  forall m' r', m' < 2 ^ 64 ->
  snd (ctl_read (honest_sp a) m' (mkRead (wr_page wr) (wr_offset wr) (wr_len wr)) (fst (ctl_write (honest_sp a) m wr data w))) = Ok r' ->
  forall i x, succeeded r i -> succeeds r' i x -> x = data.
Proof. exact @read_after_write. Qed.
Print Assumptions C76_read_back.
(** C76: the LED, the pins, and a reset, which leaves the module out of reset and its other pins alone. *)
Theorem C76_led : forall St (a : honest St) view, honest_ok a -> drives a view -> forall (w : world St) m l r,
  m < 2 ^ 64 -> snd (set_leds (honest_sp a) m l w) = Ok r ->
  forall i, succeeded r i -> member i m /\ sl_led (seen_after view (set_leds (honest_sp a) m l) w i) = l.
Proof. exact @live_set_led. Qed.
Print Assumptions C76_led.
Theorem C76_pins : forall St (a : honest St) view, honest_ok a -> drives a view -> forall (w : world St) m s c q r,
  In (c, q) (simple_calls (honest_sp a) m s) -> is_power_pin q = true -> m < 2 ^ 64 -> snd (c w) = Ok r ->
  forall i, succeeded r i -> member i m /\ ~ failed r i /\ pins (seen_after view c w i) = pins_after q (pins (view (w_sp w) i)).
Proof. exact @live_simple. Qed.
Print Assumptions C76_pins.
Theorem C76_reset : forall St (a : honest St) view, honest_ok a -> drives a view -> forall (w : world St) m r,
  m < 2 ^ 64 -> snd (reset (honest_sp a) m w) = Ok r ->
  forall i, succeeded r i -> member i m /\ ~ failed r i /\
    pins (seen_after view (reset (honest_sp a) m) w i) =
    (supplied (sl_status (view (w_sp w) i)), false, lpmode_pin (sl_status (view (w_sp w) i))).
Proof. exact @live_reset. Qed.
Print Assumptions C76_reset.

(** Four modules: 0 off, 1 in reset with software control, 2 does not answer reads, 3 a CMIS module. *)
Definition ex_slots : slots := fun i =>
  mkSlot (if i =? 0 then 1 else if i =? 1 then 39 else 35) LedOff
         (fun _ o => if o =? 0 then (if i =? 3 then 0x18 else 0x11) else if o =? 93 then (if i =? 1 then 3 else 0) else 0).
Definition ex_refuse (_ : slots) (q : HostRequest) (_ : option (list N)) (i : N) : option N :=
  match q with HRead _ _ => if i =? 2 then Some 8 else None | _ => None end.
Definition ex_live := live_rack ex_refuse (fun x => sl_cell x).
Definition ex_world : world slots := mkWorld ex_slots 0 [].
Example C74_witness :
  honest_ok ex_live /\ drives ex_live seen /\
  map (fun i => slot_power (seen ex_slots i)) [0; 1; 3] = [Some PowerOff; Some PowerOff; Some PowerHigh] /\
  snd (set_power (honest_sp ex_live) 7 PowerLow ex_world) = Ok (mkResult 3 [tt; tt] (mkFailed 4 [TeHardware 2 HwPowerFault None])) /\
  map (fun i => slot_power (seen_after seen (set_power (honest_sp ex_live) 7 PowerLow) ex_world i)) [0; 1; 3] =
    [Some PowerLow; Some PowerLow; Some PowerHigh].
Proof. split; [apply rack_ok|]. split; [apply rack_drives|]. repeat split; vm_compute; reflexivity. Qed.
Example C75_witness :
  (exists x y z, snd (power (honest_sp ex_live) 15 ex_world) = Ok (mkResult 11 [x; y; z] (mkFailed 4 [TeHardware 2 HwPowerFault None])) /\
     pm_state x = PowerOff /\ pm_state z = PowerHigh) /\
  (forall i, byte_memory (sl_cell (seen ex_slots i))) /\
  (exists x y z, snd (vendor_info (honest_sp ex_live) 15 ex_world) = Ok (mkResult 11 [x; y; z] (mkFailed 4 [TeHardware 2 HwPowerFault None]))).
Proof.
  split; [eexists _, _, _; split; [vm_compute; reflexivity|]; split; reflexivity|].
  split; [intros i p k; unfold seen; cbn [sl_cell]; apply N.mod_lt; discriminate|]. eexists _, _, _. vm_compute. reflexivity.
Qed.
Example C76_witness :
  let wr := mkWrite (PageSff SffLower) 86 2 in
  snd (ctl_write (honest_sp ex_live) 7 wr [3; 4] ex_world) = Ok (mkResult 3 [tt; tt] (mkFailed 4 [TeHardware 2 HwPowerFault None])) /\
  snd (reset (honest_sp ex_live) 7 ex_world) = Ok (mkResult 7 [tt; tt; tt] (mkFailed 0 [])) /\
  pins (seen ex_slots 1) = (true, true, false) /\
  pins (seen_after seen (reset (honest_sp ex_live) 7) ex_world 1) = (true, false, false).
Proof. repeat split; vm_compute; reflexivity. Qed.
