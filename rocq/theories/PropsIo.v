(** Properties C19-C27: the I/O loop (controller/src/ioloop.rs) and message ids. *)
From Verif Require Import Tac Spec SpecIo IoProofs IoProofs2 IoProofs3 IoProofs4.

(** A request and datagrams used in the examples. *)
Definition ex_request (id : N) : Rpc :=
  mkRpc (mkHeader 1 id KHostRequest) (mkMessage 7 (BHostRequest (HStatus 5))) None.
Definition ex_response (id : N) : list N :=
  enc_header (mkHeader 1 id KSpResponse) ++ enc_message (mkMessage 7 (BSpResponse (SStatus 1 4)))
  ++ [3; 6].
Definition ex_history : list event :=
  [EvRequest 100 (ex_request 8) true; EvRequest 101 (ex_request 9) true;
   EvDatagram 0 (ex_response 7) true; EvTick true; EvDatagram 0 [1; 2; 3] true;
   EvDatagram 0 (ex_response 8) true; EvRequest 102 (ex_request 10) true; EvTick true].

(** C19: the tags of the answers, in order, are the tags of the accepted requests, in order, except
    that at most the last accepted one is not answered; while the loop runs that one is exactly the
    request in flight, and none is left when the loop has exited.  (A crashed loop may leave its
    request unanswered, see C25.)  The tags stand for the callers' channels; when they are pairwise
    different no request is answered twice. *)
Theorem C19_answers : forall n es,
  let s := after (loop_new n) es in
  exists pending, accepts (log (loop_new n) es) = replies (log (loop_new n) es) ++ pending /\
    (length pending <= 1)%nat /\
    (l_status s = Running ->
       pending = match l_out s with Some o => [o_tag o] | None => [] end) /\
    (l_status s = Exited -> pending = []).
Proof. exact answers_in_order. Qed.
Print Assumptions C19_answers.
Theorem C19_once : forall n es, NoDup (accepts (log (loop_new n) es)) ->
  NoDup (replies (log (loop_new n) es)).
Proof. exact replies_nodup. Qed.
Print Assumptions C19_once.
Example C19_witness :
  accepts (log (loop_new (Some 3)) ex_history) = [100; 102] /\
  replies (log (loop_new (Some 3)) ex_history) = [100] /\
  l_status (after (loop_new (Some 3)) ex_history) = Running.
Proof. vm_compute. auto. Qed.

(** C20: a success comes from a completing datagram received while the request was in flight ... *)
Theorem C20_sound : forall n es tag resp, forallb bytes_event es = true ->
  In (OReply tag (Ok resp)) (log (loop_new n) es) ->
  exists pre q mid peer d io post,
    es = pre ++ (EvRequest tag q true :: mid) ++ EvDatagram peer d io :: post /\
    in_flight_during (loop_new n) pre tag q mid /\ completes q d resp.
Proof. exact success_sound. Qed.
Print Assumptions C20_sound.
(** ... and such a datagram is always turned into that success. *)
Theorem C20_complete : forall s o peer d io resp, l_status s = Running -> l_out s = Some o ->
  o_gone o = false -> completes (o_request o) d resp ->
  step s (EvDatagram peer d io) = (set_out s None, [OReply (o_tag o) (Ok resp)]).
Proof. exact success_complete. Qed.
Print Assumptions C20_complete.
Example C20_witness :
  forallb bytes_event ex_history = true /\
  In (OReply 100 (Ok (mkRpc (mkHeader 1 8 KSpResponse) (mkMessage 7 (BSpResponse (SStatus 1 4)))
                            (Some [3; 6])))) (log (loop_new (Some 3)) ex_history).
Proof. vm_compute. auto 10. Qed.

(** C21: a datagram with another id causes no answer and no transmission, and leaves the request in
    flight as it was, but for the fault counter.  Missing from the full claim: the loop may crash,
    which the refutation below shows. *)
Theorem C21_partial : forall s o peer d io i, l_status s = Running -> l_out s = Some o ->
  datagram_id d = Some i -> i <> h_id (rpc_header (o_request o)) ->
  let (s', outs) := step s (EvDatagram peer d io) in
  filter is_rpc outs = [] /\
  (l_status s' = Running ->
   l_out s' = Some (mkOut (o_tag o) (o_request o) (o_retries o)
     (o_errors o + (if faulty (EvDatagram peer d io) then 1 else 0)) (o_gone o))).
Proof. exact foreign_step. Qed.
Print Assumptions C21_partial.
(** C21 as stated is false: a foreign SP-response header with nothing after it stops the loop, so
    the request in flight is never answered. *)
Theorem C21_refuted : exists s peer d io o, l_status s = Running /\ l_handler s = true /\
  l_out s = Some o /\ o_gone o = false /\ datagram_id d <> Some (h_id (rpc_header (o_request o))) /\
  bytes d = true /\ l_status (fst (step s (EvDatagram peer d io))) = Crashed.
Proof. exact crash_witness. Qed.
Print Assumptions C21_refuted.
Example C21_witness :
  let s := after (loop_new (Some 3)) (firstn 2 ex_history) in
  datagram_id (ex_response 7) = Some 7 /\ l_status s = Running /\
  option_map (fun o => h_id (rpc_header (o_request o))) (l_out s) = Some 8 /\
  l_status (fst (step s (EvDatagram 0 (ex_response 7) true))) = Running.
Proof. vm_compute. auto. Qed.

(** C22: the part of the log that concerns callers is a sequence of sessions, one per accepted
    request.  A session is an acceptance, then at most max(1, limit) transmissions of the same
    packet, then the answer; only the last session may still lack its answer. *)
Theorem C22_transmissions : forall n es, exists done cur,
  filter is_rpc (log (loop_new n) es) = concat (map render (done ++ cur)) /\
  Forall answered done /\ (length cur <= 1)%nat /\ Forall (fun c => ss_answer c = None) cur /\
  Forall (sent_within (match n with Some k => k | None => 2 ^ 64 - 1 end)) (done ++ cur).
Proof. exact sent_packets. Qed.
Print Assumptions C22_transmissions.
(** The packet decodes to the header, the message and the data of the request. *)
Theorem C22_packet : forall r,
  wf_header (rpc_header r) = true -> wf_message (rpc_message r) = true ->
  exists rest, dec_header (wire r) = Some (rpc_header r, rest) /\
    dec_message rest = Some (rpc_message r, match rpc_data r with Some d => d | None => [] end).
Proof. exact wire_decodes. Qed.
Print Assumptions C22_packet.
Example C22_witness :
  filter is_rpc (log (loop_new (Some 3)) ex_history) = concat (map render
    [mkSession 100 (ex_request 8) 2 (Some (Ok (mkRpc (mkHeader 1 8 KSpResponse)
        (mkMessage 7 (BSpResponse (SStatus 1 4))) (Some [3; 6]))));
     mkSession 102 (ex_request 10) 2 None]) /\
  wf_header (rpc_header (ex_request 8)) = true /\ wf_message (rpc_message (ex_request 8)) = true.
Proof. vm_compute. auto. Qed.

(** C23: once max(1, limit) ticks have passed, whatever else happened, the request has been
    answered, at the latest by the last of those ticks. *)
Theorem C23_answered : forall s tag q mid, l_status s = Running -> l_out s = None ->
  let s1 := fst (step s (EvRequest tag q true)) in
  l_status (after s1 mid) = Running -> N.max 1 (l_limit s) <= count is_tick mid ->
  exists m1 e m2 r, mid = m1 ++ e :: m2 /\ count is_tick m1 < N.max 1 (l_limit s) /\
    In (OReply tag r) (snd (step (after s1 m1) e)).
Proof. exact answered_in_time. Qed.
Print Assumptions C23_answered.
Theorem C23_silence : forall s tag q mid, l_status s = Running -> l_out s = None ->
  let s1 := fst (step s (EvRequest tag q true)) in
  l_status (after s1 mid) = Running -> N.max 1 (l_limit s) <= count is_tick mid ->
  forallb silent mid = true ->
  exists m1 m2, mid = m1 ++ EvTick true :: m2 /\
    count is_tick (m1 ++ [EvTick true]) = N.max 1 (l_limit s) /\
    snd (step (after s1 m1) (EvTick true)) =
      [OReply tag (Err (EMaxRetries (N.max 1 (l_limit s))))].
Proof. exact silence_max_retries. Qed.
Print Assumptions C23_silence.
Example C23_witness :
  let s1 := fst (step (loop_new (Some 2)) (EvRequest 100 (ex_request 8) true)) in
  let mid := [EvTick true; EvHandler HandlerDrop true; EvTick true] in
  l_status (after s1 mid) = Running /\ N.max 1 2 <= count is_tick mid /\
  forallb silent mid = true /\
  snd (run s1 mid) = [OTx 100 (wire (ex_request 8)); OReply 100 (Err (EMaxRetries 2))].
Proof. vm_compute. repeat split; discriminate. Qed.

(** C24: the failure happens at a tick, the count is the number of faulty events since this request
    was accepted, and it is at least five. *)
Theorem C24_faults : forall n es tag k,
  In (OReply tag (Err (EMaxFaultMessages k))) (log (loop_new n) es) ->
  exists pre q mid io post,
    es = pre ++ (EvRequest tag q true :: mid) ++ EvTick io :: post /\
    in_flight_during (loop_new n) pre tag q mid /\ k = count faulty mid /\ 5 <= k.
Proof. exact fault_limit. Qed.
Print Assumptions C24_faults.
Example C24_witness :
  let es := EvRequest 100 (ex_request 8) true :: repeat EvRecvError 3
            ++ repeat (EvDatagram 0 [1; 2] true) 3 ++ [EvTick true] in
  In (OReply 100 (Err (EMaxFaultMessages 6))) (log (loop_new (Some 9)) es).
Proof. vm_compute. auto. Qed.

(** C25 is false: an SP-response header without a body stops the loop whenever a request is in
    flight ([rx_buf[0]] of an empty slice, ioloop.rs:484). *)
Theorem C25_refuted : exists s peer d io o, l_status s = Running /\ l_handler s = true /\
  l_out s = Some o /\ o_gone o = false /\ datagram_id d <> Some (h_id (rpc_header (o_request o))) /\
  bytes d = true /\ l_status (fst (step s (EvDatagram peer d io))) = Crashed.
Proof. exact crash_witness. Qed.
Print Assumptions C25_refuted.
(** C25 for every other datagram, as long as the handler task listens and the caller waits. *)
Theorem C25_partial : forall s peer d io, l_status s = Running -> l_handler s = true ->
  match l_out s with Some o => o_gone o = false | None => True end ->
  match l_out s with
  | Some _ => forall h, dec_header (firstn MAX_PACKET_SIZE d) = Some (h, []) ->
                h_kind h <> KSpResponse
  | None => True
  end ->
  l_status (fst (step s (EvDatagram peer d io))) = Running.
Proof. exact survives. Qed.
Print Assumptions C25_partial.
(** What a datagram can stop a running loop with, exactly: an SP-response header alone while a
    request is in flight, an SP request while nobody handles those, or an answer to a caller that
    is gone. *)
Theorem C25_exact : forall s peer d io, l_status s = Running ->
  (l_status (fst (step s (EvDatagram peer d io))) = Crashed <->
   exists h rx, dec_header (firstn MAX_PACKET_SIZE d) = Some (h, rx) /\
    ((h_kind h = KSpResponse /\ rx = [] /\ l_out s <> None) \/
     (h_kind h = KSpRequest /\ dec_message rx <> None /\ l_handler s = false) \/
     (exists o, l_out s = Some o /\ o_gone o = true /\ h_id h = h_id (rpc_header (o_request o)) /\
        (h_kind h = KError /\
         (forall m rest, dec_message rx = Some (m, rest) -> exists e, msg_body m = BError e)
         \/ h_kind h = KSpResponse)))).
Proof. exact crash_exact. Qed.
Print Assumptions C25_exact.
(** The handler is there until it goes, whatever else happens; and once it has gone it does not
    come back: the next SP request that is understood stops the loop, however much later. *)
Theorem C25_handler : forall n es, ~ In EvHandlerGone es -> l_handler (after (loop_new n) es) = true.
Proof. exact handler_never. Qed.
Print Assumptions C25_handler.
Theorem C25_orphan : forall s pre mid peer d io h m rx rest,
  l_status (after s (pre ++ EvHandlerGone :: mid)) = Running ->
  dec_header (firstn MAX_PACKET_SIZE d) = Some (h, rx) -> h_kind h = KSpRequest ->
  dec_message rx = Some (m, rest) ->
  l_status (fst (step (after s (pre ++ EvHandlerGone :: mid)) (EvDatagram peer d io))) = Crashed.
Proof. exact orphan. Qed.
Print Assumptions C25_orphan.
Example C25_orphan_witness :
  let d := enc_header (mkHeader 1 3 KSpRequest) ++ enc_message (mkMessage 7 (BHostRequest (HStatus 5))) in
  let t es := after (loop_new (Some 3)) (es ++ ex_history) in
  l_status (t [EvHandlerGone]) = Running /\ l_status (t []) = Running /\
  l_status (fst (step (t []) (EvDatagram 0 d true))) = Running /\
  l_status (fst (step (t [EvHandlerGone]) (EvDatagram 0 d true))) = Crashed.
Proof. vm_compute. auto. Qed.
Example C25_witness :
  let s := after (loop_new (Some 3)) (firstn 1 ex_history) in
  l_status (fst (step s (EvDatagram 0 [1; 2; 3] true))) = Running /\
  l_status (fst (step s (EvDatagram 0 (enc_header (mkHeader 1 3 KSpResponse)) true))) = Crashed.
Proof. vm_compute. auto. Qed.

(** C26: two requests fewer than 2^64 apart have different ids, so one datagram cannot complete
    both. *)
Theorem C26_ids : forall c i j, c < 2 ^ 64 -> (i < j)%nat -> N.of_nat j - N.of_nat i < 2 ^ 64 ->
  h_id (nth_header c i) <> h_id (nth_header c j).
Proof. exact ids_distinct. Qed.
Print Assumptions C26_ids.
Theorem C26_own_response : forall c i j q q' d resp resp', c < 2 ^ 64 ->
  N.of_nat i - N.of_nat j < 2 ^ 64 -> N.of_nat j - N.of_nat i < 2 ^ 64 ->
  rpc_header q = nth_header c i -> rpc_header q' = nth_header c j ->
  completes q d resp -> completes q' d resp' -> i = j.
Proof. exact own_response. Qed.
Print Assumptions C26_own_response.
Example C26_witness :
  map (fun i => h_id (nth_header (2 ^ 64 - 2) i)) [0; 1; 2; 3]%nat = [2 ^ 64 - 2; 2 ^ 64 - 1; 0; 1] /\
  rpc_header (ex_request 8) = nth_header 3 5 /\
  completes (ex_request 8) (ex_response 8)
    (mkRpc (mkHeader 1 8 KSpResponse) (mkMessage 7 (BSpResponse (SStatus 1 4))) (Some [3; 6])).
Proof.
  repeat split. exists (mkHeader 1 8 KSpResponse), (mkMessage 7 (BSpResponse (SStatus 1 4))), (SStatus 1 4),
    [3; 6], []. vm_compute. repeat split.
Qed.

(** C27 is false twice.  The reply to a datagram of a kind only hosts send copies that kind into
    its own header although an error follows ... *)
Theorem C27_kind_refuted : exists s peer d io w h rest m,
  l_status s = Running /\ In (OProtoError peer w) (snd (step s (EvDatagram peer d io))) /\
  dec_header w = Some (h, rest) /\ dec_message rest = Some (m, []) /\
  h_kind h <> KError /\ msg_body m = BError PeWrongMessage.
Proof.
  exists (loop_new None), 0, (enc_header (mkHeader 1 3 KHostRequest)), true.
  eexists _, (mkHeader 1 3 KHostRequest), _, (message_new (BError PeWrongMessage)).
  split; [reflexivity|]. split; [left; reflexivity|]. vm_compute. repeat split; discriminate.
Qed.
Print Assumptions C27_kind_refuted.
(** ... and a handler's response is sent without any header. *)
Theorem C27_response_refuted : exists s r io w, l_status s = Running /\
  wf_header (rpc_header r) = true /\ wf_message (rpc_message r) = true /\
  snd (step s (EvHandler (HandlerSend r) io)) = [OResponse w] /\ dec_header w = None.
Proof.
  exists (loop_new None),
    (mkRpc (mkHeader 1 3 KHostResponse) (message_new (BError PeWrongMessage)) None), true.
  eexists. split; [reflexivity|]. split; [reflexivity|]. split; [reflexivity|].
  split; [reflexivity|]. vm_compute. reflexivity.
Qed.
Print Assumptions C27_response_refuted.
(** C27, the rest: a protocol error goes only to the sender of a datagram, never in reply to an error;
    it has the id of that datagram and an error message that says what was wrong; for an undecodable SP
    request its header says that an error follows.  A handler's response is sent with its message and data. *)
Theorem C27_partial : forall s e p w, forallb bytes_event [e] = true ->
  In (OProtoError p w) (snd (step s e)) ->
  exists d io h rx h' rest err, e = EvDatagram p d io /\ dec_header (firstn MAX_PACKET_SIZE d) = Some (h, rx) /\
    h_kind h <> KError /\ dec_header w = Some (h', rest) /\ h_id h' = h_id h /\
    dec_message rest = Some (message_new (BError err), []) /\
    match h_kind h with
    | KSpRequest => h' = header_new (h_id h) KError /\ err = PeSerialization
    | _ => err = PeWrongMessage
    end.
Proof. exact error_reply_wellformed. Qed.
Print Assumptions C27_partial.
Theorem C27_response_partial : forall s r io, l_status s = Running ->
  (length (enc_message (rpc_message r) ++ data_bytes (rpc_data r)) <= 1060)%nat ->
  snd (step s (EvHandler (HandlerSend r) io)) =
    [OResponse (enc_message (rpc_message r) ++ match rpc_data r with Some d => d | None => [] end)].
Proof. exact response_sent. Qed.
Print Assumptions C27_response_partial.
Example C27_witness :
  snd (step (loop_new None) (EvDatagram 4 (enc_header (mkHeader 1 3 KSpRequest) ++ [9]) true)) =
  [OProtoError 4 (enc_header (header_new 3 KError) ++ enc_message (message_new (BError PeSerialization)))].
Proof. vm_compute. reflexivity. Qed.
