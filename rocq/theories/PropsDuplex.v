(** C90: the I/O loop and the handler of SP requests do not wait for each other. *)
From Verif Require Import SpecDuplex DuplexProofs.

(** Channels between them change nothing in what the loop does: it acts as the loop alone on some list of events;
    every SP request is handed over once, taken in order, and each is replied to once and in order. *)
Theorem C90_order : forall h n ms d os,
  duplex_run h (duplex_new n) ms = (d, os) ->
  exists es taken, run (loop_new n) es = (dx_loop d, os) /\
    dispatched os = taken ++ dx_in d ++ one (dx_wait d) /\
    (l_status (dx_loop d) = Running ->
     map (hd_reply h) taken = served es ++ dx_out d ++ one (dx_reply d)).
Proof. exact same_in_order. Qed.
Print Assumptions C90_order.

Theorem C90_capacity : forall h n ms d os,
  duplex_run h (duplex_new n) ms = (d, os) ->
  (length (dx_in d) <= hd_in h)%nat /\ (length (dx_out d) <= hd_out h)%nat.
Proof. exact within_capacity. Qed.
Print Assumptions C90_capacity.

(** While it is not waiting the loop acts on events and on replies as before. *)
Theorem C90_acts : forall h d e,
  dx_wait d = None -> outside e = true ->
  dx_loop (fst (duplex_step h d (MvLoop e))) = fst (step (dx_loop d) e) /\
  snd (duplex_step h d (MvLoop e)) = snd (step (dx_loop d) e).
Proof. exact loop_acts. Qed.
Print Assumptions C90_acts.

Theorem C90_hears : forall h d x rest io,
  dx_wait d = None -> dx_out d = x :: rest ->
  dx_loop (fst (duplex_step h d (MvReply io))) = fst (step (dx_loop d) (EvHandler x io)) /\
  snd (duplex_step h d (MvReply io)) = snd (step (dx_loop d) (EvHandler x io)) /\
  dx_out (fst (duplex_step h d (MvReply io))) = rest.
Proof. exact loop_hears. Qed.
Print Assumptions C90_hears.

(** The full claim would be: whatever has happened, a few moves of the handler bring the loop back to its
    [select!].  It holds in every state but one kind; [C90_answer_refuted] shows that kind is reached. *)
Theorem C90_return_partial : forall h n ms d os,
  (1 <= hd_in h)%nat ->
  duplex_run h (duplex_new n) ms = (d, os) ->
  stuck h d \/
  exists ms', (length ms' <= 3)%nat /\ Forall inner ms' /\
    snd (duplex_run h d ms') = [] /\ dx_loop (fst (duplex_run h d ms')) = dx_loop d /\
    dx_wait (fst (duplex_run h d ms')) = None.
Proof. exact comes_back. Qed.
Print Assumptions C90_return_partial.

(** In all other states everything pending can be dealt with, the request in flight untouched. *)
Theorem C90_drained_partial : forall h n ms d os,
  (1 <= hd_in h)%nat -> (1 <= hd_out h)%nat -> modest h ->
  duplex_run h (duplex_new n) ms = (d, os) -> l_status (dx_loop d) = Running -> ~ stuck h d ->
  exists ms', Forall (fun m => inner m \/ exists io, m = MvReply io) ms' /\
    idle (fst (duplex_run h d ms')) /\ dx_loop (fst (duplex_run h d ms')) = dx_loop d.
Proof. exact drained. Qed.
Print Assumptions C90_drained_partial.

(** What that kind of state takes: this many SP requests handed over whose reply the loop has not seen. *)
Theorem C90_count : forall h n ms d os,
  duplex_run h (duplex_new n) ms = (d, os) -> stuck h d ->
  exists es, run (loop_new n) es = (dx_loop d, os) /\
    length (dispatched os) = (length (served es) + hd_in h + hd_out h + 2)%nat.
Proof. exact stuck_counts. Qed.
Print Assumptions C90_count.

Theorem C90_few : forall h n ms d os,
  duplex_run h (duplex_new n) ms = (d, os) ->
  (length (dispatched os) <= hd_in h + hd_out h + 1)%nat -> ~ stuck h d.
Proof. exact few_not_stuck. Qed.
Print Assumptions C90_few.

(** It does not come up if the loop takes the handler's replies before anything else. *)
Theorem C90_replies_first : forall h n ms d os,
  (1 <= hd_out h)%nat -> polite h (duplex_new n) ms ->
  duplex_run h (duplex_new n) ms = (d, os) -> ~ stuck h d.
Proof. exact polite_not_stuck. Qed.
Print Assumptions C90_replies_first.

(** Once there, nothing happens any more. *)
Theorem C90_forever : forall h n ms d os ms',
  duplex_run h (duplex_new n) ms = (d, os) -> stuck h d -> duplex_run h d ms' = (d, []).
Proof. exact stuck_forever. Qed.
Print Assumptions C90_forever.

(** For any capacities and any handler, enough datagrams lead there, with a caller's request accepted and sent. *)
Theorem C90_reached : forall h n tag r p (peer : N) dg hd m,
  (1 <= hd_in h)%nat -> request_packet r = Some p -> sp_request dg hd m ->
  exists ms d os, duplex_run h (duplex_new n) ms = (d, os) /\
    length (filter is_datagram ms) = (hd_in h + hd_out h + 2)%nat /\
    In (OAccept tag r) os /\ In (OTx tag p) os /\ (forall x, ~ In (OReply tag x) os) /\ stuck h d.
Proof. exact can_get_stuck. Qed.
Print Assumptions C90_reached.

(** Such a datagram, and the tool's handler: four of them and a caller waits for ever. *)
Definition C90_datagram : list N :=
  enc_header (header_new 7 KSpRequest) ++ enc_message (message_new (BError PeSerialization)).
Definition C90_request : Rpc := mkRpc (header_new 0 KHostRequest) (message_new (BError PeSerialization)) None.

Example C90_datagram_is_request :
  sp_request C90_datagram (header_new 7 KSpRequest) (message_new (BError PeSerialization)).
Proof. do 2 eexists. vm_compute. auto. Qed.

Theorem C90_answer_refuted : exists ms d os,
  duplex_run xcvradm_handler (duplex_new (Some 3)) ms = (d, os) /\
  length (filter is_datagram ms) = 4%nat /\ In (OAccept 5 C90_request) os /\
  (forall x, ~ In (OReply 5 x) os) /\
  forall ms', duplex_run xcvradm_handler d ms' = (d, []).
Proof.
  destruct (can_get_stuck xcvradm_handler (Some 3) 5 C90_request _ 0 C90_datagram _ _ (le_n 1)
              ltac:(vm_compute; reflexivity) C90_datagram_is_request)
    as (ms & d & os & R & L & A & _ & N & S).
  exists ms, d, os. repeat split; try assumption. intro ms'. exact (stuck_forever _ _ _ _ _ ms' R S).
Qed.
Print Assumptions C90_answer_refuted.

Example C90_xcvradm_is_modest : modest xcvradm_handler.
Proof. intros r x H; discriminate H. Qed.

(** A loop that waits, and gets free. *)
Example C90_waits_then_returns :
  let g := MvLoop (EvDatagram 0 C90_datagram true) in
  let d := fst (duplex_run xcvradm_handler (duplex_new None) [g; MvTake; g; g]) in
  dx_wait d <> None /\ dx_wait (fst (duplex_run xcvradm_handler d [MvGive; MvTake; MvPut])) = None.
Proof. vm_compute. split; [discriminate|reflexivity]. Qed.

(** A schedule with replies first in which the loop waits. *)
Example C90_polite_case :
  let g := MvLoop (EvDatagram 0 C90_datagram true) in
  polite xcvradm_handler (duplex_new None) [g; MvTake; g; g; MvGive; MvTake; MvPut; MvReply true].
Proof. vm_compute. repeat split. Qed.
