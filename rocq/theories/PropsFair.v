(** Property C79: every call ends. *)
From Verif Require Import FairProofs2 ControllerSim PropsController PropsConc.

(** C79: any number of calls run at the same time, without end, over a network that may lose, repeat,
    reorder and delay everything.  If each call, the loop's channel and the timer get turns again and
    again, and nobody goes away, then every call ends.  Nothing is asked of the SP but that its
    answers, if any, are answers. *)
Theorem C79_end : forall St A (sp : St -> Rpc -> St * reply), polite sp ->
  forall retries s0 c0 (ps : list (prog A)) ts, c0 < 2 ^ 64 -> Forall lawful ps ->
  (forall n, untroubled (ts n)) -> fair (length ps) ts ->
  forall i, (i < length ps)%nat ->
  exists n c, nth_error (sy_calls (at_time sp (sys_new retries s0 c0 ps) ts n)) i = Some c /\ over c.
Proof. exact @lawful_end. Qed.
Print Assumptions C79_end.
(** The loop does not stop meanwhile. *)
Theorem C79_alive : forall St A (sp : St -> Rpc -> St * reply), polite sp ->
  forall retries s0 c0 (ps : list (prog A)) ts, c0 < 2 ^ 64 -> Forall lawful ps -> Forall untroubled ts ->
  alive (sys_run sp (sys_new retries s0 c0 ps) ts).
Proof. exact @stays_alive. Qed.
Print Assumptions C79_alive.
(** The calls of the controller are such calls, if what the caller names is in range. *)
Theorem C79_lawful :
  (forall m, m < 2 ^ 64 -> forall p, steps_of (fun St sp => leds sp m) p -> lawful p) /\
  (forall m, m < 2 ^ 64 -> forall p, steps_of (fun St sp => ctl_status sp m) p -> lawful p) /\
  (forall m, m < 2 ^ 64 -> forall p, steps_of (fun St sp => extended_status sp m) p -> lawful p) /\
  (forall m, m < 2 ^ 64 -> forall p, steps_of (fun St sp => identifier sp m) p -> lawful p) /\
  (forall m, m < 2 ^ 64 -> forall p, steps_of (fun St sp => reset sp m) p -> lawful p) /\
  (forall m, m < 2 ^ 64 -> forall p, steps_of (fun St sp => power sp m) p -> lawful p) /\
  (forall p, steps_of (fun St sp => mac_addrs sp) p -> lawful p) /\
  (forall q, wf_host_request q = true -> (forall m wr, q <> HWrite m wr) ->
     forall p, steps_of (fun St sp => no_payload_request sp q) p -> lawful p) /\
  (forall m rd, m < 2 ^ 64 -> wf_read rd = true -> forall p, steps_of (fun St sp => ctl_read sp m rd) p -> lawful p) /\
  (forall m wr data, m < 2 ^ 64 -> wf_write wr = true -> forall p, steps_of (fun St sp => ctl_write sp m wr data) p -> lawful p) /\
  (forall m st, m < 2 ^ 64 -> forall p, steps_of (fun St sp => set_power sp m st) p -> lawful p) /\
  (forall P reads (parse : Identifier -> list (list N) -> outcome DecodeError P) m, m < 2 ^ 64 -> reads_in_range reads ->
     forall p, steps_of (fun St sp => parse_modules_by_identifier sp reads parse m) p -> lawful p).
Proof. exact calls_lawful. Qed.
Print Assumptions C79_lawful.
(** Without conditions on the SP, the datagrams and the callers: every call ends as long as the loop runs. *)
Theorem C79_while_running : forall St A (sp : St -> Rpc -> St * reply) retries s0 c0, c0 < 2 ^ 64 ->
  forall (ps : list (prog A)) ts, fair (length ps) ts ->
  (forall n, alive (at_time sp (sys_new retries s0 c0 ps) ts n)) ->
  forall i, (i < length ps)%nat ->
  exists n c, nth_error (sy_calls (at_time sp (sys_new retries s0 c0 ps) ts n)) i = Some c /\ (over c \/ ill_formed c).
Proof. exact @all_end. Qed.
Print Assumptions C79_while_running.

(** Two reads at the same time (C78), round after round: each takes a step, the loop takes a request, some
    request is served, some answer arrives, and the timer fires. *)
Definition ex_rounds (n : nat) : turn unit :=
  match n mod 6 with
  | 0 => TCall 0
  | 1 => TCall 1
  | 2 => TAccept 0 true
  | 3 => TNet (MServe (n / 6))
  | 4 => TNet (MDeliver (n / 6))
  | _ => TNet (MTick true)
  end%nat.
Lemma ex_round k r : (r < 6)%nat -> ex_rounds (6 * k + r) = match r with
  | 0 => TCall 0 | 1 => TCall 1 | 2 => TAccept 0 true | 3 => TNet (MServe k) | 4 => TNet (MDeliver k)
  | _ => TNet (MTick true) end%nat.
Proof.
  intros H. unfold ex_rounds. replace (6 * k + r)%nat with (r + k * 6)%nat by lia.
  rewrite Nat.mod_add, Nat.mod_small, Nat.div_add, Nat.div_small by lia. reflexivity.
Qed.
Example C79_witness : polite ex_sp /\ Forall lawful ex_calls /\ fair 2 ex_rounds /\ (forall n, untroubled (ex_rounds n)) /\
  map ended (sy_calls (at_time ex_sp (sys_new None tt 18446744073709551615 ex_calls) ex_rounds 48)) =
  [Some (Ok (mkResult 5 [[65; 65; 65]; [67; 67; 67]] (mkFailed 2 [TeHardware 1 HwPowerFault None])));
   Some (Ok (mkResult 1 [[65; 65]] (mkFailed 0 [])))].
Proof.
  split; [apply honest_polite, board_ok|]. split.
  { destruct calls_lawful as (_ & _ & _ & _ & _ & _ & _ & _ & H & _).
    apply Forall_cons; [eapply H; [| |exact (proj1 (proj2_sig (ProgProofs.den_read _ _)))]; reflexivity|].
    apply Forall_cons; [eapply H; [| |exact (proj1 (proj2_sig (ProgProofs.den_read _ _)))]; reflexivity|constructor]. }
  split.
  { split.
    - intros i n Hi. exists (6 * n + i)%nat. split; [lia|]. rewrite ex_round by lia. destruct i as [|[|i]]; [reflexivity..|lia].
    - intros n. exists (6 * n + 2)%nat, true. split; [lia|]. rewrite ex_round by lia. reflexivity.
    - intros m j io. unfold ex_rounds. destruct (m mod 6)%nat as [|[|[|[|[|]]]]]; congruence.
    - intros n. exists (6 * n + 5)%nat, true. split; [lia|]. rewrite ex_round by lia. reflexivity. }
  split.
  { intros n. unfold ex_rounds. destruct (n mod 6)%nat as [|[|[|[|[|]]]]]; split; reflexivity || exact I. }
  vm_compute. reflexivity.
Qed.
