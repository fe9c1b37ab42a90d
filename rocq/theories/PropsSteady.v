(** Theorems for C101: modules that are on go straight to the power state asked for. *)
From Verif Require Import Tac SpecSteady SpecOnce LiveProofs PinsProofs3 ProgProofs OnceProofs4 SteadyProofs.
Import ListNotations.
Open Scope N_scope.

(** C101: a module that is on, asked for or not, is not switched off or reset at any time during [set_power] to low or high
    power; it is in its old power state or in the new one, and no other byte of its memory and nothing of its LED is changed. *)
Theorem C101_straight : forall St (a : honest St) view, honest_ok a -> drives a view -> settled a view -> forall (w : world St) m st s i old,
  m < 2 ^ 64 -> st <> PowerOff -> slot_power (view (w_sp w) i) = Some old -> old <> PowerOff ->
  comes_to (honest_sp a) (set_power (honest_sp a) m st) w s -> goes_to st (view (w_sp w) i) (view s i).
Proof. exact @straight. Qed.
Print Assumptions C101_straight.
(** C101: a module that is in the state asked for never leaves it. *)
Theorem C101_stays : forall St (a : honest St) view, honest_ok a -> drives a view -> settled a view -> forall (w : world St) m st s i,
  m < 2 ^ 64 -> st <> PowerOff -> slot_power (view (w_sp w) i) = Some st ->
  comes_to (honest_sp a) (set_power (honest_sp a) m st) w s -> slot_power (view s i) = Some st.
Proof. exact @stays. Qed.
Print Assumptions C101_stays.
(** C101: and its software control goes on overriding its LPMode pin, or not, as before, if the modules asked for are of one kind
    and powering or resetting one of them does not change its kind. *)
Theorem C101_override_partial : forall St (a : honest St) view, honest_ok a -> drives a view -> settled a view -> forall (w : world St) m st s i old id,
  m < 2 ^ 64 -> st <> PowerOff -> one_kind a view (w_sp w) m id ->
  slot_power (view (w_sp w) i) = Some old -> old <> PowerOff -> comes_to (honest_sp a) (set_power (honest_sp a) m st) w s ->
  overrides (view s i) = overrides (view (w_sp w) i).
Proof. exact @keeps_override. Qed.
Print Assumptions C101_override_partial.
(** C101 over a network that keeps order, to an SP that remembers the last datagram (C96), wherever the call is interrupted. *)
Theorem C101_network : forall St (a : honest St) view, honest_ok a -> data_blind a -> drives a view -> settled a view -> forall retries s0 c0, c0 < 2 ^ 64 ->
  let sp := remembering (honest_sp a) in
  let now p ts := kp_now (nt_sp (sy_net (sys_run sp (sys_new retries (new_keeper s0) c0 [p]) ts))) in
  forall m st p ts i old, m < 2 ^ 64 -> st <> PowerOff -> stops_at_errors p -> orderly sp (sys_new retries (new_keeper s0) c0 [p]) ts ->
  steps_of (fun St sp => set_power sp m st) p -> slot_power (view s0 i) = Some old -> old <> PowerOff -> goes_to st (view s0 i) (view (now p ts) i).
Proof. exact @straight_net. Qed.
Print Assumptions C101_network.
Theorem C101_network_override_partial : forall St (a : honest St) view, honest_ok a -> data_blind a -> drives a view -> settled a view -> forall retries s0 c0, c0 < 2 ^ 64 ->
  let sp := remembering (honest_sp a) in
  let now p ts := kp_now (nt_sp (sy_net (sys_run sp (sys_new retries (new_keeper s0) c0 [p]) ts))) in
  forall m st p ts i old id, m < 2 ^ 64 -> st <> PowerOff -> stops_at_errors p -> orderly sp (sys_new retries (new_keeper s0) c0 [p]) ts ->
  steps_of (fun St sp => set_power sp m st) p -> one_kind a view s0 m id -> slot_power (view s0 i) = Some old -> old <> PowerOff ->
  overrides (view (now p ts) i) = overrides (view s0 i).
Proof. exact @override_net. Qed.
Print Assumptions C101_network_override_partial.

(** Module 0 (CMIS) is in low power by its pin, module 1 (SFF-8636) by its software control; both go to high power. *)
Definition ex_rack := live_rack (fun _ _ _ _ => None) sl_cell.
Definition ex_cmis (pins control : N) : slot := mkSlot pins LedOff (fun _ o => if o =? 0 then 30 else if o =? 26 then control else o).
Definition ex_sff (pins control : N) : slot := mkSlot pins LedOff (fun _ o => if o =? 0 then 17 else if o =? 93 then control else o).
Definition ex_slots : slots := fun i => if i =? 0 then ex_cmis 43 64 else ex_sff 35 3.
Definition ex_world (s : slots) : world slots := mkWorld s 0 [].
Definition ex_log s m st : list act := w_log (fst (set_power (honest_sp ex_rack) m st (ex_world s))).
Definition ex_way s m st (i : N) : list (option PowerState) :=
  map (fun k => slot_power (seen (led_to (honest_sp ex_rack) (firstn k (ex_log s m st)) s) i)) (seq 0 (S (length (ex_log s m st)))).
Example C101_witness : honest_ok ex_rack /\ drives ex_rack seen /\ settled ex_rack seen /\
  overrides (seen ex_slots 0) = Some false /\ overrides (seen ex_slots 1) = Some true /\
  ex_way ex_slots 1 PowerHigh 0 = repeat (Some PowerLow) 5 ++ repeat (Some PowerHigh) 4 /\
  ex_way ex_slots 2 PowerHigh 1 = repeat (Some PowerLow) 7 ++ repeat (Some PowerHigh) 2.
Proof.
  split; [apply rack_ok|]. split; [apply rack_drives|]. split; [apply rack_settled|]. vm_compute. repeat split.
Qed.

(** Two SFF-8636 modules, one in low power by its software control, one by its pin: after a call for both, high power by the same means. *)
Definition ex_pair : slots := fun i => if i =? 0 then ex_sff 43 0 else ex_sff 35 3.
Example C101_override_witness : one_kind ex_rack seen ex_pair 3 Qsfp28 /\
  slot_power (seen ex_pair 0) = Some PowerLow /\ slot_power (seen ex_pair 1) = Some PowerLow /\
  let s := led_to (honest_sp ex_rack) (ex_log ex_pair 3 PowerHigh) ex_pair in
  slot_power (seen s 0) = Some PowerHigh /\ overrides (seen s 0) = Some false /\ slot_power (seen s 1) = Some PowerHigh /\ overrides (seen s 1) = Some true.
Proof.
  split; [|vm_compute; repeat split]. apply rack_one_kind. intros j Hj. unfold seen, ex_pair. destruct (j =? 0); reflexivity.
Qed.

(** C101, full claim for the software control: false.  In a call for these two modules, the software control of module 1 no longer
    overrides its pin afterwards. *)
Theorem C101_override_refuted : exists (a : honest slots) w m s, honest_ok a /\ drives a seen /\ settled a seen /\ m < 2 ^ 64 /\
  slot_power (seen (w_sp w) 1) = Some PowerLow /\ comes_to (honest_sp a) (set_power (honest_sp a) m PowerHigh) w s /\
  overrides (seen (w_sp w) 1) = Some true /\ overrides (seen s 1) = Some false.
Proof.
  exists ex_rack, (ex_world ex_slots), 3, (led_to (honest_sp ex_rack) (ex_log ex_slots 3 PowerHigh) ex_slots).
  split; [apply rack_ok|]. split; [apply rack_drives|]. split; [apply rack_settled|]. split; [reflexivity|]. split; [reflexivity|].
  split; [|split; vm_compute; reflexivity]. exists (ex_log ex_slots 3 PowerHigh), []. now rewrite app_nil_r.
Qed.
Print Assumptions C101_override_refuted.
(** C101, full claim for memory: false.  The other bits of the byte with the control are cleared, even for a module that is in the state
    asked for: here bit 2 of byte 93, which lets an SFF-8636 module use the power of classes 5 to 7. *)
Definition ex_class5 : slots := fun _ => ex_sff 35 5.
Theorem C101_bits_refuted : exists (a : honest slots) w m s, honest_ok a /\ drives a seen /\ settled a seen /\ m < 2 ^ 64 /\
  slot_power (seen (w_sp w) 0) = Some PowerHigh /\ comes_to (honest_sp a) (set_power (honest_sp a) m PowerHigh) w s /\
  let byte s := sl_cell (seen s 0) (PageSff SffLower) 93 in N.testbit (byte (w_sp w)) 2 = true /\ N.testbit (byte s) 2 = false.
Proof.
  exists ex_rack, (ex_world ex_class5), 1, (led_to (honest_sp ex_rack) (ex_log ex_class5 1 PowerHigh) ex_class5).
  split; [apply rack_ok|]. split; [apply rack_drives|]. split; [apply rack_settled|]. split; [reflexivity|]. split; [reflexivity|].
  split; [|split; vm_compute; reflexivity]. exists (ex_log ex_class5 1 PowerHigh), []. now rewrite app_nil_r.
Qed.
Print Assumptions C101_bits_refuted.
