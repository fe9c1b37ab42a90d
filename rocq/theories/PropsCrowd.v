(** C92: calls made at the same time end in time. *)
From Coq Require Import Sorted.
From Verif Require Import SpecCrowd CrowdProofs CrowdProofs2 CrowdProofs3 CrowdProofs4 ProgProofs.
Import ListNotations.
Open Scope N_scope.

(** Whatever the network, the SP and the other calls do, which may be given up at any time: if the runtime serves timers and tasks within [slack] and never more than [w] calls wait for
    replies, each call that is not given up has ended after that many waits for its turn and a reply, and its pauses. *)
Theorem C92_calls : forall m,
  in_time_among (fun St sp => leds sp m) 1 0 0 /\ in_time_among (fun St sp => ctl_status sp m) 1 0 0 /\
  in_time_among (fun St sp => extended_status sp m) 1 0 0 /\ in_time_among (fun St sp => mac_addrs sp) 1 0 0 /\
  (forall q, in_time_among (fun St sp => no_payload_request sp q) 1 0 0) /\ in_time_among (fun St sp => identifier sp m) 1 0 0 /\
  (forall rd, rd_len rd <= 255 -> in_time_among (fun St sp => ctl_read sp m rd) (1 + rounds (rd_len rd)) 0 0) /\
  (forall wr data, in_time_among (fun St sp => ctl_write sp m wr data) 2 0 0) /\
  in_time_among (fun St sp => reset sp m) 2 2000010 2 /\ in_time_among (fun St sp => power sp m) 6 0 0 /\
  in_time_among (fun St sp => set_power sp m PowerOff) 3 0 0 /\ (forall st, in_time_among (fun St sp => set_power sp m st) 20 2000010 2) /\
  in_time_among (fun St sp => vendor_info sp m) 27 0 0 /\ in_time_among (fun St sp => memory_model sp m) 9 0 0 /\
  in_time_among (fun St sp => monitors sp m) 33 0 0 /\ in_time_among (fun St sp => datapath sp m) 41 0 0.
Proof. exact calls_in_time_among. Qed.
Print Assumptions C92_calls.

(** Never more wait than there are calls. *)
Theorem C92_crowd : forall A t id (ps : list (prog A * N)) hs, crowd_most (N.of_nat (length ps)) (calls_new t id ps) hs.
Proof. exact @crowd_all. Qed.
Print Assumptions C92_crowd.

(** Requests are taken in turn: while a request waits to be taken, none that was made later is taken. *)
Theorem C92_turn : forall A n_retries interval t id (ps : list (prog A * N)) hs1 hs2 i j, idle_timed n_retries interval t ->
  let c := calls_run (calls_new t id ps) hs1 in
  in_line i c -> ~ in_line j c -> (forall hs hs', hs2 = hs ++ hs' -> in_line i (calls_run c hs)) ->
  ~ In (N.of_nat j) (taken (calls_outputs c hs2)).
Proof. exact @not_overtaken. Qed.
Print Assumptions C92_turn.

(** They do not get stuck: whatever has happened in time, all of them that were not given up can still end in time. *)
Theorem C92_ends : forall A n_retries interval slack t id (ps : list (prog A * N)) hs, idle_timed n_retries interval t ->
  goes_forward hs -> all_punctual slack (calls_new t id ps) hs ->
  exists hs', goes_forward (hs ++ hs') /\ all_punctual slack (calls_new t id ps) (hs ++ hs') /\
    forall i, (i < length ps)%nat -> ended_call i (calls_run (calls_new t id ps) (hs ++ hs')) \/ given_up i hs.
Proof. exact @always_can_end. Qed.
Print Assumptions C92_ends.

(** Each returns what the call returns when it is given its own replies one after the other. *)
Theorem C92_returns : forall A n_retries interval t id (ps : list (prog A * N)) i p start hs x at_, idle_timed n_retries interval t ->
  nth_error ps i = Some (p, start) -> nth_error (tcs_calls (calls_run (calls_new t id ps) hs)) i = Some (CReady (Ret x) at_) ->
  forall n log, snd (alone p script (mkWorld (replies_to i (calls_outputs (calls_new t id ps) hs)) n log)) = x.
Proof. exact @returns_own. Qed.
Print Assumptions C92_returns.

(** Four calls: the LED states of port 0 are asked for at 0, at 1, at 5 and at 5 again; the SP answers only the second request, and the fourth call is given
    up while it waits for the channel.  Each is served late and in turn; the others wait through all attempts. *)
Definition ex_leds := proj1_sig (den_leds 1).
Definition ex_led_reply (id : N) : event :=
  EvDatagram 7 (enc_header (header_new id KSpResponse) ++ enc_message (message_new (BSpResponse (SLedState 1 0))) ++ [1]) true.
Definition ex_four : list (N * occurrence) :=
  [(3, OcCall 0); (4, OcCall 1); (5, OcCall 2); (5, OcCall 3); (6, OcTake true); (9, OcCall 1); (20, OcDrop 3); (109, OcLoop (EvTick true)); (212, OcLoop (EvTick true));
   (215, OcTake true); (218, OcCall 2); (250, OcLoop (ex_led_reply 9)); (253, OcTake true); (356, OcLoop (EvTick true)); (459, OcLoop (EvTick true))].
Example C92_witness : forall t0, timed_new (Some 2) 100 0 = Ok t0 ->
  let c0 := calls_new t0 8 [(ex_leds, 0); (ex_leds, 1); (ex_leds, 5); (ex_leds, 5)] in
  idle_timed (Some 2) 100 t0 /\ steps_of (fun St sp => leds sp 1) ex_leds /\ goes_forward ex_four /\ all_punctual 3 c0 ex_four /\
  tcs_calls (calls_run c0 ex_four) =
    [CReady (Ret (Err (EMaxRetries 2))) 212; CReady (Ret (Ok (mkResult 1 [LedOn] (mkFailed 0 [])))) 250; CReady (Ret (Err (EMaxRetries 2))) 459; CGone] /\
  ~ given_up 2 ex_four /\ crowd (calls_run c0 (firstn 11 ex_four)) = 2 /\ crowd (calls_run c0 (firstn 6 ex_four)) = 4 /\
  in_line 1 (calls_run c0 (firstn 2 ex_four)) /\ ~ in_line 2 (calls_run c0 (firstn 2 ex_four)) /\ in_line 1 (calls_run c0 (firstn 9 ex_four)) /\
  taken (calls_outputs c0 ex_four) = [0; 1; 2] /\
  5 + 1 * (2 * 3 + 4 * (3 + attempts (Some 2) * (100 + 3))) + 0 + 0 * (2 * 3) = 847.
Proof.
  intros t0 H c0. split; [exists 0, t0, []; split; [exact H|]; injection H as <-; now split|]. split; [exact (proj1 (proj2_sig (den_leds 1)))|].
  injection H as <-. split; [repeat constructor; discriminate|]. split.
  { intros hs1 now h hs2 E. revert E. unfold ex_four.
    do 15 (destruct hs1 as [|x hs1]; [intros [= <- _ _]; unfold on_time; vm_compute; repeat constructor; discriminate|intros [= <- E]; revert E]).
    destruct hs1; discriminate. }
  assert (L : forall i c, match nth_error (tcs_calls c) i with Some (CQueued _ _ _ _) => true | _ => false end = true -> @in_line (Result LedState) i c).
  { intros i c. unfold in_line. destruct (nth_error (tcs_calls c) i) as [[| |id q d k| |]|]; try discriminate. intros _. now exists id, q, d, k. }
  assert (N : forall i c, match nth_error (tcs_calls c) i with Some (CQueued _ _ _ _) => true | _ => false end = false -> ~ @in_line (Result LedState) i c).
  { intros i c H (id & q & d & k & X). rewrite X in H. discriminate. }
  split; [vm_compute; reflexivity|]. split; [unfold given_up; cbn; intuition discriminate|]. split; [vm_compute; reflexivity|]. split; [vm_compute; reflexivity|].
  split; [apply L; vm_compute; reflexivity|]. split; [apply N; vm_compute; reflexivity|]. split; [apply L; vm_compute; reflexivity|].
  split; vm_compute; reflexivity.
Qed.
