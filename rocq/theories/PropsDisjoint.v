(** Theorems for C100: calls made at the same time for different modules do not disturb each other. *)
From Coq Require Import Lia.
From Verif Require Import Tac ModuleIdProps SpecDisjoint SpecLive SpecApart NetProofs3 ProgProofs ConcProofs ScopeProofs2 LiveProofs LiveProofs2 LiveProofs3 OnceProofs4 DisjointProofs4 DisjointProofs5.
Import ListNotations.
Open Scope N_scope.

(** C100: any number of calls run at the same time over one loop and a network that loses, repeats and delays datagrams but keeps
    their order, with an SP that remembers the last datagram, whose modules know nothing of each other.  A call whose modules no
    other call is for: when it has ended and was told no error, it returns what it returns alone and has left its modules as it
    leaves them alone; if it stops at errors it was told, it returns the error, and at any time its modules are as at some point
    when it is alone.  Whatever the other calls do, in whatever order.  Modules no call is for stay as they are. *)
Theorem C100_apart : forall X A (sp : (N -> X) -> Rpc -> (N -> X) * reply), polite sp -> scoped sp -> local sp ->
  forall retries s0 c0, c0 < 2 ^ 64 -> forall (ps : list (prog A)) ms, Forall2 keeps_to ms ps ->
  forall ts, let s1 := sys_new retries (new_keeper s0) c0 ps in orderly (remembering sp) s1 ts ->
  let s := sys_run (remembering sp) s1 ts in let now := kp_now (nt_sp (sy_net s)) in
  (forall i p m, nth_error ps i = Some p -> has_for_itself ms i m ->
     exists c, nth_error (sy_calls s) i = Some c /\ undisturbed sp (mkWorld s0 c0 []) now m p c) /\
  (forall k, (forall m, In m ms -> ~ member k m) -> now k = s0 k).
Proof. exact @kept_apart. Qed.
Print Assumptions C100_apart.
(** The calls of the controller keep to the modules they are for. *)
Theorem C100_calls : forall m,
  keeps_within m (fun St sp => leds sp m) /\ keeps_within m (fun St sp => ctl_status sp m) /\ keeps_within m (fun St sp => extended_status sp m) /\
  keeps_within m (fun St sp => identifier sp m) /\ keeps_within m (fun St sp => reset sp m) /\ keeps_within m (fun St sp => power sp m) /\
  (forall q, request_modules q = m -> keeps_within m (fun St sp => no_payload_request sp q)) /\
  (forall rd, keeps_within m (fun St sp => ctl_read sp m rd)) /\ (forall wr data, keeps_within m (fun St sp => ctl_write sp m wr data)) /\
  (forall st, keeps_within m (fun St sp => set_power sp m st)) /\
  (forall P reads (parse : Identifier -> list (list N) -> outcome DecodeError P), keeps_within m (fun St sp => parse_modules_by_identifier sp reads parse m)) /\
  keeps_within 0 (fun St sp => mac_addrs sp).
Proof. exact calls_keep. Qed.
Print Assumptions C100_calls.
(** Such SPs: any whose modules answer and change each by its own state and what it is asked; those of C99. *)
Theorem C100_sps : forall X (a : honest (N -> X)), by_itself a -> minds_others a -> local (honest_sp a).
Proof. exact @honest_local. Qed.
Print Assumptions C100_sps.
Theorem C100_bays : forall X (b : bay X), (forall i x q, by_verdict b i x q (Some []) = by_verdict b i x q None /\ by_next b i x q (Some []) = by_next b i x q None) ->
  local (honest_sp (apart b)).
Proof. exact @apart_local. Qed.
Print Assumptions C100_bays.

(** C100: what each of such calls reports as done is so, as if it were the only one (C74, C76, C96). *)
Theorem C100_effects : forall X (a : honest (N -> X)) view, honest_ok a -> by_itself a -> minds_others a -> drives a view -> (forall s s' i, s i = s' i -> view s i = view s' i) ->
  forall retries s0 c0 (ps : list (prog (Result unit))) ms ts, c0 < 2 ^ 64 -> Forall2 keeps_to ms ps ->
  let sp := remembering (honest_sp a) in let s1 := sys_new retries (new_keeper s0) c0 ps in orderly sp s1 ts ->
  let s := sys_run sp s1 ts in let now := kp_now (nt_sp (sy_net s)) in
  forall j p m xs r, nth_error ps j = Some p -> has_for_itself ms j m -> m < 2 ^ 64 -> nth_error (sy_calls s) j = Some (Going xs (Ret (Ok r))) ->
  (forall st, steps_of (fun St sp => set_power sp m st) p -> forall i, succeeded r i -> ~ failed r i -> slot_power (view now i) = Some st) /\
  (steps_of (fun St sp => reset sp m) p -> forall i, succeeded r i -> pins (view now i) = (supplied (sl_status (view s0 i)), false, lpmode_pin (sl_status (view s0 i)))) /\
  (forall wr data, bytes data = true -> steps_of (fun St sp => ctl_write sp m wr data) p -> forall i, succeeded r i ->
     sl_status (view now i) = sl_status (view s0 i) /\ sl_led (view now i) = sl_led (view s0 i) /\
     forall p o, (reaches wr p o -> sl_cell (view now i) p o = nth (N.to_nat (o - wr_offset wr)) data 0) /\
                 (~ reaches wr p o -> sl_cell (view now i) p o = sl_cell (view s0 i) p o)) /\
  (forall l, steps_of (fun St sp => set_leds sp m l) p -> forall i, succeeded r i -> sl_led (view now i) = l).
Proof. exact @effects_apart. Qed.
Print Assumptions C100_effects.

(** A reset of module 0 and a reset of modules 1 and 2, their requests mixed; one datagram is lost and sent again, and one
    reaches the SP twice. *)
Definition ex_rack := live_rack (fun _ _ _ _ => None) sl_cell.
Example C100_rack : by_itself ex_rack /\ minds_others ex_rack /\ forall s s' i, s i = s' i -> seen s i = seen s' i.
Proof.
  split; [|split].
  - intros s s' q d d' i Es Ed Hi. rewrite member_testbit in Hi. cbn [ex_rack live_rack hs_verdict hs_next]. unfold slots_next, seen. rewrite Hi, Es. split; [reflexivity|].
    destruct q; cbn [slot_effect]; try reflexivity. destruct d as [[|]|], d' as [[|]|]; cbn in Ed; try discriminate; try (injection Ed as -> ->); reflexivity.
  - intros s q d i Hi. rewrite member_testbit in Hi. cbn [ex_rack live_rack hs_next]. unfold slots_next. now destruct (N.testbit _ i).
  - intros s s' i E. unfold seen. now rewrite E.
Qed.
Definition ex_modules : slots := fun _ => mkSlot 35 LedOff (fun _ o => if o =? 0 then 17 else 0).
Definition ex_reset (m : N) : prog (Result unit) := proj1_sig (den_reset m).
Definition ex_start : sys (keeper slots) (Result unit) := sys_new None (new_keeper ex_modules) 7 [ex_reset 1; ex_reset 6].
Definition ex_turns : list (turn (keeper slots)) :=
  [TCall 0; TCall 1; TAccept 1 true; TNet (MServe 0); TNet (MDeliver 0); TCall 1; TCall 1; TAccept 0 true; TNet (MTick true); TNet (MServe 2); TNet (MDeliver 1);
   TAccept 0 true; TCall 0; TCall 0; TNet (MServe 3); TNet (MServe 3); TNet (MDeliver 3); TCall 1; TAccept 0 true; TNet (MServe 4); TNet (MDeliver 4); TCall 0].
Definition ex_ended {A} (c : call A) : option (outcome Error A) := match c with Going _ (Ret x) => Some x | _ => None end.
Example C100_witness : honest_ok ex_rack /\ local (honest_sp ex_rack) /\ drives ex_rack seen /\ Forall2 keeps_to [1; 6] [ex_reset 1; ex_reset 6] /\
  has_for_itself [1; 6] 0 1 /\ has_for_itself [1; 6] 1 6 /\ orderly (remembering (honest_sp ex_rack)) ex_start ex_turns /\
  let s := sys_run (remembering (honest_sp ex_rack)) ex_start ex_turns in let s' := sys_run (remembering (honest_sp ex_rack)) ex_start (firstn 18 ex_turns) in
   map ex_ended (sy_calls s) = [Some (Ok (mkResult 1 [tt] (mkFailed 0 []))); Some (Ok (mkResult 6 [tt; tt] (mkFailed 0 [])))] /\ length (nt_mail (sy_net s)) = 5%nat /\
   map ex_ended (sy_calls s') = [None; Some (Ok (mkResult 6 [tt; tt] (mkFailed 0 [])))] /\
   map (fun i => pins (seen (kp_now (nt_sp (sy_net s))) i)) [0; 1; 2] = [(true, false, false); (true, false, false); (true, false, false)] /\
   map (fun i => pins (seen (kp_now (nt_sp (sy_net s'))) i)) [0; 1; 2] = [(true, true, false); (true, false, false); (true, false, false)].
Proof.
  split; [apply rack_ok|]. split; [apply rack_local|]. split; [apply rack_drives|].
  split; [constructor; [|constructor; [|constructor]]; apply calls_keep; exact (proj1 (proj2_sig (den_reset _)))|].
  split; [split; [reflexivity|]; intros [|[|j]] m' Ne E; try (destruct j; discriminate); [congruence|]; injection E as <-; intros k; rewrite !member_testbit; destruct k as [|p]; [discriminate|now destruct p]|].
  split; [split; [reflexivity|]; intros [|[|j]] m' Ne E; try (destruct j; discriminate); [|congruence]; injection E as <-; intros k; rewrite !member_testbit; destruct k as [|p]; [discriminate|now destruct p]|].
  split; [split; [reflexivity|]; split; [discriminate|]; split; [repeat constructor; discriminate|]; apply sorted_in_turn; cbn; repeat constructor|].
  cbv zeta. split; [vm_compute; reflexivity|]. split; [vm_compute; reflexivity|]. split; [vm_compute; reflexivity|]. split; [vm_compute; reflexivity|vm_compute; reflexivity].
Qed.

(** C100, full claim for calls for the same modules: false.  Another call asserts the reset pin of module 0 after the reset
    deasserted it: the reset is reported as done, and the module is left in reset.  The library does not keep such calls apart. *)
Definition ex_hold : prog (Result unit) := proj1_sig (den_ack (HAssertReset 1)).
Definition ex_mixed : list (turn (keeper slots)) :=
  [TCall 0; TAccept 0 true; TNet (MServe 0); TNet (MDeliver 0); TCall 0; TCall 0; TAccept 0 true; TNet (MServe 1); TNet (MDeliver 1); TCall 1; TAccept 0 true; TNet (MServe 2); TNet (MDeliver 2); TCall 0; TCall 1].
Theorem C100_shared_refuted : exists (a : honest slots) (ps : list (prog (Result unit))) ms ts m p r, honest_ok a /\ local (honest_sp a) /\ drives a seen /\ Forall2 keeps_to ms ps /\
  steps_of (fun St sp => reset sp 1) p /\ nth_error ps 0 = Some p /\ nth_error ms 0 = Some m /\
  let s1 := sys_new None (new_keeper ex_modules) 7 ps in orderly (remembering (honest_sp a)) s1 ts /\
  let s := sys_run (remembering (honest_sp a)) s1 ts in
  map ex_ended (sy_calls s) = [Some (Ok r); Some (Ok r)] /\ succeeded r 0 /\ ~ failed r 0 /\ pins (seen (kp_now (nt_sp (sy_net s))) 0) = (true, true, false).
Proof.
  exists ex_rack, [ex_reset 1; ex_hold], [1; 1], ex_mixed, 1, (ex_reset 1), (mkResult 1 [tt] (mkFailed 0 [])).
  split; [apply rack_ok|]. split; [apply rack_local|]. split; [apply rack_drives|].
  split; [destruct (calls_keep 1) as (_ & _ & _ & _ & Kr & _ & Kq & _); constructor; [apply Kr; exact (proj1 (proj2_sig (den_reset 1)))|constructor; [apply (Kq (HAssertReset 1) eq_refl); exact (proj1 (proj2_sig (den_ack _)))|constructor]]|].
  split; [exact (proj1 (proj2_sig (den_reset 1)))|]. split; [reflexivity|]. split; [reflexivity|]. cbv zeta.
  split; [split; [reflexivity|]; split; [discriminate|]; split; [repeat constructor; discriminate|]; apply sorted_in_turn; cbn; repeat constructor|].
  split; [vm_compute; reflexivity|]. split; [vm_compute; reflexivity|]. split; [vm_compute; discriminate|vm_compute; reflexivity].
Qed.
Print Assumptions C100_shared_refuted.
