(** C94: a run of xcvradm ends in time and prints what the SP's answers say, whatever the network does. *)
From Coq Require Import String.
From Verif Require Import XcvradmProofs2 ConcProofs ControllerSim PropsController.
Import ListNotations.
Open Scope N_scope.

(** A run asks, sleeps and ends; the first error ends it. *)
Theorem C94_run : forall show_f32 show a, exists p, steps_of (xcvradm show_f32 show a) p.
Proof. exact tool_program. Qed.
Print Assumptions C94_run.
Theorem C94_stops : forall show_f32 show a p, steps_of (xcvradm show_f32 show a) p -> ~ for_status (ar_cmd a) -> stops_at_errors p.
Proof. exact tool_stops. Qed.
Print Assumptions C94_stops.
(** Only a run for the status goes on, from an extended status that is not to be had to the plain one. *)
Theorem C94_status : forall show_f32 show a p, steps_of (xcvradm show_f32 show a) p -> for_status (ar_cmd a) ->
  forall xs q d, question p xs = Some (q, d) ->
  match q with
  | HExtendedStatus m => forall x, useless x -> question p (xs ++ [x]) = Some (HStatus m, None)
  | _ => forall e, resume p (xs ++ [Err e]) = Ret (Err e)
  end.
Proof. exact tool_status. Qed.
Print Assumptions C94_status.

(** With the retries and the interval of its arguments, whatever the network and the SP do: if the runtime serves timers and
    tasks within [slack], it has ended after the time for choosing the modules and for the command (C85). *)
Theorem C94_time : forall show_f32 show a p t id start slack hs now h, let c := ar_cmd a in
  let wait := slack + attempts (cf_n_retries (args_config a)) * (1000 * cf_retry_interval (args_config a) + slack) in
  steps_of (xcvradm show_f32 show a) p -> idle_timed (cf_n_retries (args_config a)) (1000 * cf_retry_interval (args_config a)) t ->
  punctual slack (call_new t id p start) (hs ++ [(now, h)]) ->
  start + (selecting (chosen a) + fst (commanding c)) * wait + snd (commanding c) + napping c * (2 * slack) < now ->
  ended (call_run (call_new t id p start) hs).
Proof. exact tool_deadline. Qed.
Print Assumptions C94_time.
(** It ends as [main] does when it is given the loop's replies one after the other. *)
Theorem C94_returns : forall show_f32 show a p n_retries interval t id start hs x at_,
  steps_of (xcvradm show_f32 show a) p -> idle_timed n_retries interval t ->
  tc_stage (call_run (call_new t id p start) hs) = Ready (Ret x) at_ ->
  forall n log, snd (xcvradm show_f32 show a _ script (mkWorld (replies_of (call_outputs (call_new t id p start) hs)) n log)) = x.
Proof. exact tool_returns. Qed.
Print Assumptions C94_returns.

(** Over a network that loses, repeats, reorders and delays, with an SP whose answers depend on the question only: a run that
    ended got an error from the loop, and ended with it unless it is for the status, or it printed what it prints when it
    talks to the SP directly. *)
Theorem C94_network : forall St (sp : St -> Rpc -> St * reply), polite sp -> alike sp -> forall show_f32 show a p,
  steps_of (xcvradm show_f32 show a) p -> forall s0 c0 ts xs x, c0 < 2 ^ 64 -> forallb turn_ok ts = true -> few_turns ts ->
  nth_error (sy_calls (sys_run sp (sys_new (cf_n_retries (args_config a)) s0 c0 [p]) ts)) 0 = Some (Going xs (Ret x)) ->
  (exists e, In (Err e) xs /\ (for_status (ar_cmd a) \/ x = Err e)) \/ forall w, snd (xcvradm show_f32 show a St sp w) = x.
Proof. exact tool_network. Qed.
Print Assumptions C94_network.
(** If everybody gets turns again and again and the arguments are in range, it ends. *)
Theorem C94_ends : forall St (sp : St -> Rpc -> St * reply), polite sp -> forall show_f32 show a p,
  args_ok a -> steps_of (xcvradm show_f32 show a) p ->
  forall s0 c0 ts, c0 < 2 ^ 64 -> (forall n, untroubled (ts n)) -> fair 1 ts ->
  exists n xs x, nth_error (sy_calls (at_time sp (sys_new (cf_n_retries (args_config a)) s0 c0 [p]) ts n)) 0 = Some (Going xs (Ret x)).
Proof. exact tool_ends. Qed.
Print Assumptions C94_ends.
(** Whatever the answers, every request of such a run is well made (C80). *)
Theorem C94_lawful : forall show_f32 show a p, args_ok a -> steps_of (xcvradm show_f32 show a) p -> lawful p.
Proof. exact tool_lawful. Qed.
Print Assumptions C94_lawful.

(** The default is no limit on retries: [xcvradm leds] then waits for a silent SP 2^64 - 1 intervals. *)
Theorem C94_waits : forall show_f32 show a args m p t id start j, ar_cmd a = CLeds args -> ar_transceivers a = Some (TIndex m) ->
  ar_n_retries a = None -> m < 2 ^ 64 -> steps_of (xcvradm show_f32 show a) p ->
  idle_timed (cf_n_retries (args_config a)) (1000 * cf_retry_interval (args_config a)) t -> l_status (tm_loop t) = Running ->
  j < 2 ^ 64 - 1 -> let late := start + j * (1000 * cf_retry_interval (args_config a)) in
  exists hs h, in_order start (hs ++ [(late, h)]) /\ punctual 0 (call_new t id p start) (hs ++ [(late, h)]) /\
    ~ ended (call_run (call_new t id p start) (hs ++ [(late, h)])).
Proof. exact tool_waits. Qed.
Print Assumptions C94_waits.

(** [xcvradm -t 0,2 -n 2 -r 100 status]: the SP does not answer for the extended status, so after two attempts the plain one
    is asked for, and printed. *)
Definition ex_args : Args :=
  mkArgs (CStatus None None false false [] None false) (Some (TIndex 5)) (repeat 0 16) (T "axgbe0") 0 None 11112 (Some 2) 100 false.
Definition ex_run : prog (option screen) := proj1_sig (run_of (fun _ => []) (fun _ => []) ex_args).
Definition ex_status (id : N) : event :=
  EvDatagram 7 (enc_header (header_new id KSpResponse) ++ enc_message (message_new (BSpResponse (SStatus 5 0))) ++ [1; 3]) true.
Definition ex_events : list (N * happening) :=
  [(10, HCall true); (100020, HLoop (EvTick true)); (200030, HLoop (EvTick true)); (200031, HCall true); (200500, HLoop (ex_status 9))].
Definition ex_printed : screen := mkScreen (lines [T "Port Status"; T "   0 PRESENT"; T "   2 PRESENT | ENABLED"]) [].
Example C94_witness : forall t0, timed_new (Some 2) 100000 0 = Ok t0 ->
  args_ok ex_args /\ steps_of (xcvradm (fun _ => []) (fun _ => []) ex_args) ex_run /\
  idle_timed (cf_n_retries (args_config ex_args)) (1000 * cf_retry_interval (args_config ex_args)) t0 /\
  punctual 20 (call_new t0 8 ex_run 9) ex_events /\
  tc_stage (call_run (call_new t0 8 ex_run 9) ex_events) = Ready (Ret (Ok (Some ex_printed))) 200500 /\
  replies_of (firstn 5 (call_outputs (call_new t0 8 ex_run 9) ex_events)) = [Err (EMaxRetries 2)] /\
  question ex_run [] = Some (HExtendedStatus 5, None) /\ question ex_run [Err (EMaxRetries 2)] = Some (HStatus 5, None) /\
  9 + (selecting (chosen ex_args) + fst (commanding (ar_cmd ex_args))) * (20 + attempts (Some 2) * (1000 * 100 + 20)) +
    snd (commanding (ar_cmd ex_args)) + napping (ar_cmd ex_args) * (2 * 20) = 400129.
Proof.
  intros t0 H. split; [split; [reflexivity|exact I]|].
  split; [exact (proj1 (proj2_sig (run_of (fun _ => []) (fun _ => []) ex_args)))|].
  split; [exists 0, t0, []; split; [exact H|]; injection H as <-; now split|]. injection H as <-. split.
  { intros hs1 now h hs2 E. cbv zeta. intros _. revert E. unfold ex_events.
    do 5 (destruct hs1 as [|x hs1]; [intros [= <- _ _]; vm_compute; discriminate|intros [= <- E]; revert E]).
    destruct hs1; discriminate. }
  split; [vm_compute; reflexivity|]. split; [vm_compute; reflexivity|]. split; [vm_compute; reflexivity|]. split; [vm_compute; reflexivity|].
  vm_compute. reflexivity.
Qed.
(** [xcvradm -t 0,2 leds] over a network that delivers the answer to the repeated request. *)
Definition ex_leds_args : Args :=
  mkArgs (CLeds (mkParsable false [] None false)) (Some (TIndex 5)) (repeat 0 16) (T "axgbe0") 0 None 11112 None 1000 false.
Definition ex_leds_run : prog (option screen) := proj1_sig (run_of (fun _ => []) (fun _ => []) ex_leds_args).
Definition ex_path : list (turn unit) :=
  [TCall 0; TAccept 0 true; TNet (MTick true); TNet (MServe 1); TNet (MDeliver 0)].
Example C94_path : polite ex_sp /\ alike ex_sp /\ steps_of (xcvradm (fun _ => []) (fun _ => []) ex_leds_args) ex_leds_run /\
  forallb turn_ok ex_path = true /\ few_turns ex_path /\
  match nth_error (sy_calls (sys_run ex_sp (sys_new None tt 0 [ex_leds_run]) ex_path)) 0 with
  | Some (Going _ (Ret (Ok (Some s)))) => Some (sc_out s) | _ => None end =
  Some (lines [T "Port LED"; T "   0 Off"; T "   2 Off"]).
Proof.
  split; [apply honest_polite, board_ok|]. split.
  { eapply steady_alike with (v := fun q d i => hs_verdict (board_sp ex_board) tt q d i).
    - intros [] q. split; [|reflexivity]. destruct q; reflexivity.
    - intros [] q d i. reflexivity. }
  split; [exact (proj1 (proj2_sig (run_of (fun _ => []) (fun _ => []) ex_leds_args)))|].
  split; [reflexivity|]. split; [discriminate|]. vm_compute. reflexivity.
Qed.
