(** Theorems for C97: in which order a call sets the pins of a module. *)
From Verif Require Import Tac SpecPins SpecOnce LiveProofs LiveProofs2 LiveProofs3 ProgProofs OnceProofs4 PinsProofs3.
Import ListNotations.
Open Scope N_scope.

(** C97: whatever modules refuse, [set_power] asserts LPMode for modules with power only, and takes the power from modules in
    reset with LPMode off only. A module that obeys ([pins_met]) gets its power in reset only, and leaves reset with power and
    with LPMode as asked for only; a module that is on gets neither. *)
Theorem C97_requests_partial : forall St (a : honest St) view, honest_ok a -> drives a view -> firm a view -> forall (w : world St) m st s q i,
  m < 2 ^ 64 -> requests_at (honest_sp a) (set_power (honest_sp a) m st) w s q -> is_power_pin q = true -> member i (request_modules q) ->
  match q with
  | HAssertLpMode _ => supplied (sl_status (view s i)) = true
  | HDisablePower _ => held_in_reset (sl_status (view s i)) = true /\ lpmode_pin (sl_status (view s i)) = false
  | _ => True
  end /\ (obeys a i \/ st = PowerOff -> pins_met st (pins (view (w_sp w) i)) q = Some (pins (view s i))).
Proof. exact @power_requests. Qed.
Print Assumptions C97_requests_partial.
(** C97: at any time during a call, the pins are as they were or as a step of the call left them. *)
Theorem C97_off : forall St (a : honest St) view, honest_ok a -> drives a view -> firm a view -> forall (w : world St) m s i,
  m < 2 ^ 64 -> comes_to (honest_sp a) (set_power (honest_sp a) m PowerOff) w s -> In (pins (view s i)) (pins_off (pins (view (w_sp w) i))).
Proof. exact @pins_off_times. Qed.
Print Assumptions C97_off.
Theorem C97_reset : forall St (a : honest St) view, honest_ok a -> drives a view -> firm a view -> forall (w : world St) m s i,
  m < 2 ^ 64 -> comes_to (honest_sp a) (reset (honest_sp a) m) w s -> In (pins (view s i)) (pins_reset (pins (view (w_sp w) i))).
Proof. exact @pins_reset_times. Qed.
Print Assumptions C97_reset.
(** C97: no module is ever powered through its LPMode pin. *)
Theorem C97_back_power : forall St (a : honest St) view, honest_ok a -> drives a view -> firm a view -> forall (w : world St) m s,
  m < 2 ^ 64 -> (forall i, no_back_power (view (w_sp w) i)) ->
  (exists st, comes_to (honest_sp a) (set_power (honest_sp a) m st) w s) \/ comes_to (honest_sp a) (reset (honest_sp a) m) w s ->
  forall i, no_back_power (view s i).
Proof. exact @back_times. Qed.
Print Assumptions C97_back_power.
(** C97 over a network that keeps order, to an SP that remembers the last datagram (C96), wherever the call is interrupted. *)
Theorem C97_network : forall St (a : honest St) view, honest_ok a -> data_blind a -> drives a view -> firm a view -> forall retries s0 c0, c0 < 2 ^ 64 ->
  let sp := remembering (honest_sp a) in
  let now p ts := kp_now (nt_sp (sy_net (sys_run sp (sys_new retries (new_keeper s0) c0 [p]) ts))) in
  forall m p ts i, m < 2 ^ 64 -> stops_at_errors p -> orderly sp (sys_new retries (new_keeper s0) c0 [p]) ts ->
  (steps_of (fun St sp => set_power sp m PowerOff) p -> In (pins (view (now p ts) i)) (pins_off (pins (view s0 i)))) /\
  (steps_of (fun St sp => reset sp m) p -> In (pins (view (now p ts) i)) (pins_reset (pins (view s0 i)))) /\
  ((forall i, no_back_power (view s0 i)) -> (exists st, steps_of (fun St sp => set_power sp m st) p) \/ steps_of (fun St sp => reset sp m) p ->
     no_back_power (view (now p ts) i)).
Proof. exact @pins_net. Qed.
Print Assumptions C97_network.

(** A module without power and out of reset goes to low power. *)
Definition ex_rack (refuse : HostRequest -> bool) := live_rack (fun _ q _ _ => if refuse q then Some 8 else None) sl_cell.
Definition ex_none (q : HostRequest) : bool := false.
Definition ex_off : slots := fun _ => mkSlot 1 LedOff (fun _ o => if o =? 0 then 17 else 0).
Definition ex_world : world slots := mkWorld ex_off 0 [].
Definition ex_log refuse st : list act := w_log (fst (set_power (honest_sp (ex_rack refuse)) 1 st ex_world)).
Definition ex_way refuse st : list (option HostRequest * (bool * bool * bool)) :=
  map (fun k => (match nth_error (ex_log refuse st) k with
                 | Some (ASend r) => match msg_body (rpc_message r) with BHostRequest q => if is_power_pin q then Some q else None | _ => None end
                 | _ => None end,
                 pins (seen (led_to (honest_sp (ex_rack refuse)) (firstn k (ex_log refuse st)) ex_off) 0)))
      (seq 0 (length (ex_log refuse st))).
Example C97_witness : honest_ok (ex_rack ex_none) /\ drives (ex_rack ex_none) seen /\ firm (ex_rack ex_none) seen /\ obeys (ex_rack ex_none) 0 /\
  (forall i, no_back_power (seen ex_off i)) /\ stops_at_errors (proj1_sig (den_set_power 1 PowerLow)) /\
  filter (fun x => match fst x with Some _ => true | None => false end) (ex_way ex_none PowerLow) =
    [(Some (HAssertReset 1), (false, false, false)); (Some (HEnablePower 1), (false, true, false));
     (Some (HAssertLpMode 1), (true, true, false)); (Some (HDeassertReset 1), (true, true, true))].
Proof.
  split; [apply rack_ok|]. split; [apply rack_drives|]. split; [apply rack_firm|]. split; [intros s q d _; reflexivity|].
  split; [intros i; vm_compute; discriminate|]. split; [exact (strict_stops _ (proj2 (proj2_sig (den_set_power 1 PowerLow)) eq_refl))|]. vm_compute. reflexivity.
Qed.

(** C97, full claim for modules that refuse requests: false.  A module that refuses to be held in reset is given power all the
    same; and one that refuses LPMode is released from reset with LPMode off, though low power was asked for. *)
Theorem C97_requests_refuted :
  (exists (a : honest slots) w m s q, honest_ok a /\ drives a seen /\ firm a seen /\
     requests_at (honest_sp a) (set_power (honest_sp a) m PowerLow) w s (HEnablePower q) /\ member 0 q /\ pins (seen s 0) = (false, false, false)) /\
  (exists (a : honest slots) w m s q, honest_ok a /\ drives a seen /\ firm a seen /\
     requests_at (honest_sp a) (set_power (honest_sp a) m PowerLow) w s (HDeassertReset q) /\ member 0 q /\ pins (seen s 0) = (true, true, false)).
Proof.
  split.
  - set (f := fun q : HostRequest => match q with HAssertReset _ => true | _ => false end).
    exists (ex_rack f), ex_world, 1, (led_to (honest_sp (ex_rack f)) (firstn 4 (ex_log f PowerLow)) ex_off), 1.
    split; [apply rack_ok|]. split; [apply rack_drives|]. split; [apply rack_firm|].
    split; [|split; [reflexivity|vm_compute; reflexivity]].
    eexists (firstn 4 (ex_log f PowerLow)), _, _. split; [vm_compute; reflexivity|]. split; reflexivity.
  - set (f := fun q : HostRequest => match q with HAssertLpMode _ => true | _ => false end).
    exists (ex_rack f), ex_world, 1, (led_to (honest_sp (ex_rack f)) (firstn 6 (ex_log f PowerLow)) ex_off), 1.
    split; [apply rack_ok|]. split; [apply rack_drives|]. split; [apply rack_firm|].
    split; [|split; [reflexivity|vm_compute; reflexivity]].
    eexists (firstn 6 (ex_log f PowerLow)), _, _. split; [vm_compute; reflexivity|]. split; reflexivity.
Qed.
Print Assumptions C97_requests_refuted.
(** C97, full claim for calls made at the same time: false.  One call sets a module to low power, another one to off: LPMode is left
    asserted for a module without power, and both report success. *)
Definition ex_round i k : list (turn slots) := [TCall i; TAccept 0 true; TNet (MServe k); TNet (MDeliver k)].
Definition ex_turns : list (turn slots) :=
  ex_round 0 0 ++ ex_round 0 1 ++ ex_round 0 2 ++ [TCall 0] ++ ex_round 0 3 ++ ex_round 1 4 ++ ex_round 1 5 ++ ex_round 0 6 ++ ex_round 1 7 ++
  ex_round 0 8 ++ [TCall 0] ++ ex_round 0 9 ++ ex_round 0 10 ++ ex_round 0 11.
Definition ex_ended {A} (c : call A) : option (outcome Error A) := match c with Going _ (Ret x) => Some x | _ => None end.
Theorem C97_concurrent_refuted : exists (a : honest slots) p1 p2 ts r1 r2, honest_ok a /\ data_blind a /\ drives a seen /\ firm a seen /\
  steps_of (fun St sp => set_power sp 1 PowerLow) p1 /\ steps_of (fun St sp => set_power sp 1 PowerOff) p2 /\ (forall i, no_back_power (seen ex_off i)) /\
  let s1 := sys_new None ex_off 7 [p1; p2] in orderly (honest_sp a) s1 ts /\
  map ex_ended (sy_calls (sys_run (honest_sp a) s1 ts)) = [Some (Ok r1); Some (Ok r2)] /\ succeeded r1 0 /\ succeeded r2 0 /\
  ~ no_back_power (seen (nt_sp (sy_net (sys_run (honest_sp a) s1 ts))) 0).
Proof.
  exists (ex_rack ex_none), (proj1_sig (den_set_power 1 PowerLow)), (proj1_sig (den_set_power 1 PowerOff)), ex_turns, (mkResult 1 [tt] (mkFailed 0 [])), (mkResult 1 [tt] (mkFailed 0 [])).
  split; [apply rack_ok|]. split; [apply ex_rack_blind|]. split; [apply rack_drives|]. split; [apply rack_firm|].
  split; [exact (proj1 (proj2_sig (den_set_power 1 PowerLow)))|]. split; [exact (proj1 (proj2_sig (den_set_power 1 PowerOff)))|].
  split; [intros i; vm_compute; discriminate|]. split.
  { split; [reflexivity|]. split; [discriminate|]. split; [repeat constructor; discriminate|]. apply sorted_in_turn. cbn. repeat constructor. }
  split; [vm_compute; reflexivity|]. split; [reflexivity|]. split; [reflexivity|]. vm_compute. intros H. discriminate (H eq_refl).
Qed.
Print Assumptions C97_concurrent_refuted.
