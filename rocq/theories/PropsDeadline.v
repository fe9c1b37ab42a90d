(** C91: calls end in time. *)
From Verif Require Import SpecDeadline DeadlineProofs ProgProofs.
Import ListNotations.
Open Scope N_scope.

(** Whatever the network and the SP do: if the runtime serves timers and tasks within [slack], each call made alone
    has ended after that many waits for a reply and pauses. *)
Theorem C91_calls : forall m,
  in_time (fun St sp => leds sp m) 1 0 0 /\ in_time (fun St sp => ctl_status sp m) 1 0 0 /\
  in_time (fun St sp => extended_status sp m) 1 0 0 /\ in_time (fun St sp => mac_addrs sp) 1 0 0 /\
  (forall q, in_time (fun St sp => no_payload_request sp q) 1 0 0) /\ in_time (fun St sp => identifier sp m) 1 0 0 /\
  (forall rd, rd_len rd <= 255 -> in_time (fun St sp => ctl_read sp m rd) (1 + rounds (rd_len rd)) 0 0) /\
  (forall wr data, in_time (fun St sp => ctl_write sp m wr data) 2 0 0) /\
  in_time (fun St sp => reset sp m) 2 2000010 2 /\ in_time (fun St sp => power sp m) 6 0 0 /\
  in_time (fun St sp => set_power sp m PowerOff) 3 0 0 /\ (forall st, in_time (fun St sp => set_power sp m st) 20 2000010 2) /\
  in_time (fun St sp => vendor_info sp m) 27 0 0 /\ in_time (fun St sp => memory_model sp m) 9 0 0 /\
  in_time (fun St sp => monitors sp m) 33 0 0 /\ in_time (fun St sp => datapath sp m) 41 0 0.
Proof. exact calls_in_time. Qed.
Print Assumptions C91_calls.

(** And it does not get stuck: whatever has happened in time, it can still end in time. *)
Theorem C91_ends : forall A (p : prog A) n_retries interval slack start t id hs, idle_timed n_retries interval t ->
  in_order start hs -> punctual slack (call_new t id p start) hs ->
  exists hs', in_order start (hs ++ hs') /\ punctual slack (call_new t id p start) (hs ++ hs') /\
    ended (call_run (call_new t id p start) (hs ++ hs')).
Proof. exact @can_always_end. Qed.
Print Assumptions C91_ends.

(** It returns what the call returns when it is given the loop's replies one after the other. *)
Theorem C91_returns : forall A (p : prog A) n_retries interval t id start hs x at_, idle_timed n_retries interval t ->
  tc_stage (call_run (call_new t id p start) hs) = Ready (Ret x) at_ ->
  forall n log, snd (alone p script (mkWorld (replies_of (call_outputs (call_new t id p start) hs)) n log)) = x.
Proof. exact @returns_alone. Qed.
Print Assumptions C91_returns.

(** The bound cannot be much lower: a silent SP is waited for that long, with punctual timers.  Without a limit
    ([n_retries = None]) this is 2^64 - 1 intervals. *)
Theorem C91_silent : forall A q d (k : news -> prog A) n_retries interval t id start j,
  idle_timed n_retries interval t -> l_status (tm_loop t) = Running -> request_packet (host_request id q d) <> None ->
  j < attempts n_retries -> exists hs h, in_order start (hs ++ [(start + j * interval, h)]) /\
    punctual 0 (call_new t id (Ask q d k) start) (hs ++ [(start + j * interval, h)]) /\
    ~ ended (call_run (call_new t id (Ask q d k) start) (hs ++ [(start + j * interval, h)])).
Proof. exact silent_waits. Qed.
Print Assumptions C91_silent.

(** A reset of the ports 0 and 2: the first request is sent twice, each is acknowledged, each pause is served a little
    late; it ends before the bound. *)
Definition ex_reset : prog (Result unit) := proj1_sig (den_reset 5).
Definition ex_ack (id : N) : event :=
  EvDatagram 7 (enc_header (header_new id KSpResponse) ++ enc_message (message_new (BSpResponse (SAck 5 0)))) true.
Definition ex_happened : list (N * happening) :=
  [(10, HCall true); (112, HLoop (EvTick true)); (150, HLoop (ex_ack 8)); (151, HCall true); (163, HCall true);
   (163, HCall true); (200, HLoop (ex_ack 9)); (201, HCall true); (2000202, HCall true)].
Example C91_witness : forall t0, timed_new (Some 2) 100 0 = Ok t0 ->
  idle_timed (Some 2) 100 t0 /\ steps_of (fun St sp => reset sp 5) ex_reset /\
  punctual 2 (call_new t0 8 ex_reset 9) ex_happened /\
  tc_stage (call_run (call_new t0 8 ex_reset 9) ex_happened) = Ready (Ret (Ok (ack_new 5 (mkFailed 0 [])))) 2000202 /\
  length (replies_of (call_outputs (call_new t0 8 ex_reset 9) ex_happened)) = 2%nat /\
  9 + 2 * (2 + attempts (Some 2) * (100 + 2)) + 2000010 + 2 * (2 * 2) = 2000439.
Proof.
  intros t0 H. split; [exists 0, t0, []; split; [exact H|]; injection H as <-; now split|]. split; [exact (proj1 (proj2_sig (den_reset 5)))|].
  injection H as <-. split; [|repeat split; reflexivity]. intros hs1 now h hs2 E. cbv zeta. intros _. revert E. unfold ex_happened.
  do 9 (destruct hs1 as [|x hs1]; [intros [= <- _ _]; vm_compute; discriminate|intros [= <- E]; revert E]).
  destruct hs1; discriminate.
Qed.
(** The bound is reached by a call that is never answered: it still waits when the last timer fires at 209. *)
Definition ex_unanswered : list (N * happening) := [(3, HCall true); (106, HLoop (EvTick true)); (209, HLoop (EvTick true))].
Example C91_tight : forall t0, timed_new (Some 2) 100 0 = Ok t0 -> let c := call_new t0 8 (proj1_sig (den_leds 5)) 0 in
  punctual 3 c ex_unanswered /\ tc_stage (call_run c ex_unanswered) = Ready (Ret (Err (EMaxRetries 2))) 209 /\
  ~ ended (call_run c (firstn 2 ex_unanswered)) /\ 0 + 1 * (3 + attempts (Some 2) * (100 + 3)) + 0 + 0 * (2 * 3) = 209.
Proof.
  intros t0 [= <-] c. split.
  { intros hs1 now h hs2 E. cbv zeta. intros _. revert E. unfold ex_unanswered.
    do 3 (destruct hs1 as [|x hs1]; [intros [= <- _ _]; vm_compute; discriminate|intros [= <- E]; revert E]).
    destruct hs1; discriminate. }
  split; [reflexivity|]. split; [|reflexivity]. intros (x & y & H). discriminate.
Qed.
