(** Theorems for C96: over a network that keeps order, what is done is what was asked, each request once. *)
From Coq Require Import Lia.
From Verif Require Import Tac SpecOnce SpecLive NetProofs3 ProgProofs LiveProofs LiveProofs2 LiveProofs3 OnceProofs OnceProofs3 OnceProofs4.
Import ListNotations.
Open Scope N_scope.

(** C96: whatever the network loses, repeats and delays, if datagrams do not overtake each other and a request that comes again
    makes no difference to the SP ([repeats]), the SP does some of the requests, each once and in order, among them every request
    whose answer was returned; and that answer is the one to this request at its place. *)
Theorem C96_once : forall St (E : St -> St -> Prop) (sp : St -> Rpc -> St * reply), repeats E sp -> polite sp ->
  forall retries s0 ms, let n0 := net_new retries s0 in forallb noise_ok ms = true ->
  Forall (fun r => wf_rpc r = true) (requests (net_log sp n0 ms)) -> NoDup (map rpc_id (requests (net_log sp n0 ms))) ->
  Forall still ms -> in_turn sp n0 ms ->
  exists done, some_of done (requests (net_log sp n0 ms)) /\
    E (nt_sp (net_after sp n0 ms)) (having_done sp s0 (map as_received done)) /\
    forall tag resp, In (OReply tag (Ok resp)) (net_log sp n0 ms) -> exists before q later, done = before ++ q :: later /\
      In (OAccept tag q) (net_log sp n0 ms) /\ rpc_id resp = rpc_id q /\
      snd (sp (having_done sp s0 (map as_received before)) (as_received q)) = Ok resp.
Proof. exact @net_once. Qed.
Print Assumptions C96_once.

(** C96 for a call: when it has ended and was told no error, it returns what it returns alone, and the SP is as it leaves it
    alone; a call that stops at errors returns the error, and at any time the SP is in a state that the call goes through alone. *)
Theorem C96_call : forall St A (E : St -> St -> Prop) (sp : St -> Rpc -> St * reply), polite sp -> blind sp -> repeats E sp ->
  forall retries s0 c0, c0 < 2 ^ 64 -> forall (p : prog A) ts, let s1 := sys_new retries s0 c0 [p] in orderly sp s1 ts ->
  let s := sys_run sp s1 ts in let w := mkWorld s0 c0 [] in
  exists c, sy_calls s = [c] /\
    (forall xs x, c = Going xs (Ret x) -> (exists e, In (Err e) xs /\ (stops_at_errors p -> x = Err e)) \/
       snd (alone p sp w) = x /\ E (nt_sp (sy_net s)) (w_sp (fst (alone p sp w)))) /\
    (stops_at_errors p -> exists st, In st (stations p sp w) /\ E (nt_sp (sy_net s)) st).
Proof. exact @call_once. Qed.
Print Assumptions C96_call.

(** C96: any SP that remembers the last datagram it got is such an SP, and then the call does to it exactly what it does alone. *)
Theorem C96_memory : forall St (sp : St -> Rpc -> St * reply), repeats eq (remembering sp) /\ (polite sp -> polite (remembering sp)) /\
  (blind sp -> blind (remembering sp)).
Proof. exact @memory_suffices. Qed.
Print Assumptions C96_memory.
Theorem C96_remembered : forall St A (sp : St -> Rpc -> St * reply), polite sp -> blind sp -> forall retries s0 c0 (p : prog A) ts, c0 < 2 ^ 64 ->
  let s1 := sys_new retries (new_keeper s0) c0 [p] in orderly (remembering sp) s1 ts ->
  let s := sys_run (remembering sp) s1 ts in let w := mkWorld s0 c0 [] in let now := kp_now (nt_sp (sy_net s)) in
  exists c, sy_calls s = [c] /\
    (forall xs x, c = Going xs (Ret x) -> (exists e, In (Err e) xs /\ (stops_at_errors p -> x = Err e)) \/
       snd (alone p sp w) = x /\ now = w_sp (fst (alone p sp w))) /\
    (stops_at_errors p -> In now (stations p sp w)).
Proof. exact @call_remembered. Qed.
Print Assumptions C96_remembered.
(** C96: an SP that only sets what it is told to set, and refuses the same requests all the time, needs no memory. *)
Theorem C96_setting : forall refuse, repeats rack_same (honest_sp (live_rack (fun _ => refuse) sl_cell)).
Proof. exact rack_repeats. Qed.
Print Assumptions C96_setting.

(** C96: what a call reports as done over the network is so: C74 and C76 hold there. *)
Theorem C96_effects : forall St (a : honest St) view, honest_ok a -> data_blind a -> drives a view -> forall retries s0 c0, c0 < 2 ^ 64 ->
  let sp := remembering (honest_sp a) in let start (A : Type) (p : prog A) := sys_new retries (new_keeper s0) c0 [p] in
  let ended (A : Type) (p : prog A) ts (r : A) (s : St) := orderly sp (start A p) ts /\ (exists xs, sy_calls (sys_run sp (start A p) ts) = [Going xs (Ret (Ok r))]) /\
    s = kp_now (nt_sp (sy_net (sys_run sp (start A p) ts))) in
  (forall m st p ts r s, m < 2 ^ 64 -> steps_of (fun St sp => set_power sp m st) p -> ended _ p ts r s ->
     forall i, succeeded r i -> ~ failed r i -> slot_power (view s i) = Some st) /\
  (forall m p ts r s, m < 2 ^ 64 -> steps_of (fun St sp => reset sp m) p -> ended _ p ts r s ->
     forall i, succeeded r i -> pins (view s i) = (supplied (sl_status (view s0 i)), false, lpmode_pin (sl_status (view s0 i)))) /\
  (forall m wr data p ts r s, m < 2 ^ 64 -> bytes data = true -> steps_of (fun St sp => ctl_write sp m wr data) p -> ended _ p ts r s ->
     forall i, succeeded r i -> sl_status (view s i) = sl_status (view s0 i) /\ sl_led (view s i) = sl_led (view s0 i) /\
       forall p o, (reaches wr p o -> sl_cell (view s i) p o = nth (N.to_nat (o - wr_offset wr)) data 0) /\
                   (~ reaches wr p o -> sl_cell (view s i) p o = sl_cell (view s0 i) p o)) /\
  (forall m l p ts r s, m < 2 ^ 64 -> steps_of (fun St sp => set_leds sp m l) p -> ended _ p ts r s ->
     forall i, succeeded r i -> sl_led (view s i) = l).
Proof. exact @effects_once. Qed.
Print Assumptions C96_effects.

(** A reset of module 0.  Its first request is sent twice and both copies reach the SP, the second one after the first is answered;
    that of the second request is lost and sent again. *)
Definition ex_rack := live_rack (fun _ _ _ _ => None) sl_cell.
Definition ex_reset1 : prog (Result unit) := proj1_sig (den_reset 1).
Definition ex_modules : slots := fun _ => mkSlot 35 LedOff (fun _ o => if o =? 0 then 17 else 0).
Definition ex_turns1 : list (turn (keeper slots)) :=
  [TCall 0; TAccept 0 true; TNet (MTick true); TNet (MServe 0); TNet (MDeliver 0); TNet (MServe 1); TCall 0; TCall 0; TAccept 0 true;
   TNet (MTick true); TNet (MServe 3); TNet (MDeliver 2); TCall 0].
Definition ex_start : sys (keeper slots) (Result unit) := sys_new None (new_keeper ex_modules) 7 [ex_reset1].
Definition ex_ended {A} (c : call A) : option (outcome Error A) := match c with Going _ (Ret x) => Some x | _ => None end.
Example C96_witness : honest_ok ex_rack /\ data_blind ex_rack /\ drives ex_rack seen /\ steps_of (fun St sp => reset sp 1) ex_reset1 /\
  orderly (remembering (honest_sp ex_rack)) ex_start ex_turns1 /\
  (let s := sys_run (remembering (honest_sp ex_rack)) ex_start ex_turns1 in
   map ex_ended (sy_calls s) = [Some (Ok (mkResult 1 [tt] (mkFailed 0 [])))] /\ length (nt_mail (sy_net s)) = 3%nat /\
   pins (seen (kp_now (nt_sp (sy_net s))) 0) = (true, false, false)) /\
  pins (seen (kp_now (nt_sp (sy_net (sys_run (remembering (honest_sp ex_rack)) ex_start (firstn 7 ex_turns1))))) 0) = (true, true, false).
Proof.
  split; [apply rack_ok|]. split; [apply ex_rack_blind|]. split; [apply rack_drives|]. split; [exact (proj1 (proj2_sig (den_reset 1)))|]. split; [|split; [repeat split; vm_compute; reflexivity|vm_compute; reflexivity]].
  split; [reflexivity|]. split; [discriminate|]. split; [repeat constructor; discriminate|]. apply sorted_in_turn. cbn. repeat constructor.
Qed.

(** C96, full claim for datagrams that do overtake each other: false.  A late copy of the first request reaches the SP after the
    second one was answered: the reset is reported as done, and the module is left in reset. *)
Definition ex_late : list (turn (keeper slots)) :=
  [TCall 0; TAccept 0 true; TNet (MTick true); TNet (MServe 0); TNet (MDeliver 0); TCall 0; TCall 0; TAccept 0 true;
   TNet (MServe 2); TNet (MServe 1); TNet (MDeliver 1); TCall 0].
Theorem C96_order_refuted : exists (a : honest slots) p ts r, honest_ok a /\ data_blind a /\ drives a seen /\ steps_of (fun St sp => reset sp 1) p /\
  forallb turn_ok ts = true /\ few_turns ts /\ Forall still_turn ts /\
  let s := sys_run (remembering (honest_sp a)) (sys_new None (new_keeper ex_modules) 7 [p]) ts in
  map ex_ended (sy_calls s) = [Some (Ok r)] /\ succeeded r 0 /\ ~ failed r 0 /\ pins (seen (kp_now (nt_sp (sy_net s))) 0) = (true, true, false).
Proof.
  exists ex_rack, ex_reset1, ex_late, (mkResult 1 [tt] (mkFailed 0 [])). split; [apply rack_ok|]. split; [apply ex_rack_blind|]. split; [apply rack_drives|].
  split; [exact (proj1 (proj2_sig (den_reset 1)))|]. split; [reflexivity|]. split; [discriminate|]. split; [repeat constructor; discriminate|].
  split; [vm_compute; reflexivity|]. split; [vm_compute; reflexivity|]. split; [vm_compute; discriminate|vm_compute; reflexivity].
Qed.
Print Assumptions C96_order_refuted.
