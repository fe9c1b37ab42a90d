(** Model of controller/src/ioloop.rs: the task that owns the socket.

    One iteration of the [select!] loop is one [step]: the environment chooses which branch fires
    and with what value ([event]); the loop changes its state and acts ([output]).  A branch whose
    guard is false cannot fire; such an event leaves the state unchanged.  Panics stop the task
    ([Crashed]).  Logging, probes and the payloads of I/O errors are not modelled.  tokio's
    [select!], channels and timer are trusted to deliver events one at a time. *)
From Verif Require Export Codec Types.

(** controller/src/messages.rs:17-50.  The four types have the same fields. *)
Record Rpc := mkRpc { rpc_header : Header; rpc_message : Message; rpc_data : option (list N) }.

(** controller/src/messages.rs:52-73.  [o_tag] identifies the caller's oneshot channel;
    [o_gone]: the caller dropped its receiving half. *)
Record Outstanding := mkOut
  { o_tag : N; o_request : Rpc; o_retries : N; o_errors : N; o_gone : bool }.

(** What a caller gets back on its channel. *)
Definition reply := outcome Error Rpc.

(** What the SP-request handler sends back (controller/src/messages.rs:89-94). *)
Inductive handler_reply := HandlerSend (r : Rpc) | HandlerDrop | HandlerFailed.

(** [io] is the result of the [send_to] call, if the iteration makes one. *)
Inductive event :=
| EvRequest (tag : N) (r : Rpc) (io : bool)      (* a request arrives on outgoing_request_rx *)
| EvClosed                                        (* outgoing_request_rx is closed *)
| EvTick (io : bool)                              (* the resend timer fires *)
| EvHandler (r : handler_reply) (io : bool)       (* a reply arrives on outgoing_response_rx *)
| EvRecvError                                     (* recv_from fails *)
| EvDatagram (peer : N) (d : list N) (io : bool)  (* recv_from returns a datagram *)
| EvCallerGone                                    (* the caller in flight drops its receiver *)
| EvHandlerGone.                                  (* the SP-request handler drops its receiver *)

Inductive output :=
| OAccept (tag : N) (r : Rpc)                     (* request taken from the channel *)
| OTx (tag : N) (d : list N)                      (* request datagram passed to send_to *)
| OReply (tag : N) (r : reply)                    (* answer sent to the caller *)
| ODispatch (r : Rpc)                             (* SP request handed to the handler *)
| OProtoError (peer : N) (d : list N)             (* protocol error datagram *)
| OResponse (d : list N)                          (* handler's response datagram *)
| OPanic.

Inductive status := Running | Exited | Crashed.
Record loop := mkLoop
  { l_limit : N; l_out : option Outstanding; l_handler : bool; l_status : status }.

(** controller/src/ioloop.rs:67-89; [usize::MAX] on 64-bit. *)
Definition loop_new (n_retries : option N) : loop :=
  mkLoop (match n_retries with Some n => n | None => 2 ^ 64 - 1 end) None true Running.

Definition set_out (s : loop) (o : option Outstanding) : loop :=
  mkLoop (l_limit s) o (l_handler s) (l_status s).
Definition crash (s : loop) : loop := mkLoop (l_limit s) (l_out s) (l_handler s) Crashed.

(** [outstanding_request.take().response_tx.send(r).expect(..)]: panics if the caller is gone. *)
Definition answer (s : loop) (o : Outstanding) (r : reply) : loop * list output :=
  if o_gone o then (crash s, [OPanic]) else (set_out s None, [OReply (o_tag o) r]).

Definition data_bytes (d : option (list N)) : list N := match d with Some x => x | None => [] end.

(** controller/src/ioloop.rs:139-222.  [None] is the panic of slicing [tx_buf]. *)
Definition request_packet (r : Rpc) : option (list N) :=
  let p := enc_header (rpc_header r) ++ enc_message (rpc_message r) ++ data_bytes (rpc_data r) in
  if Nat.leb (length p) MAX_PACKET_SIZE then Some p else None.
Definition send_outgoing_request (s : loop) (o : Outstanding) (io : bool) : loop * list output :=
  match request_packet (o_request o) with
  | None => (crash s, [OPanic])
  | Some p =>
      if io
      then (set_out s (Some (mkOut (o_tag o) (o_request o) (o_retries o + 1) (o_errors o)
                                   (o_gone o))), [OTx (o_tag o) p])
      else let (s', out) := answer s o (Err EIo) in (s', OTx (o_tag o) p :: out)
  end.

(** controller/src/ioloop.rs:94-134: the message and data, no header. *)
Definition send_outgoing_response (s : loop) (r : Rpc) : loop * list output :=
  let p := enc_message (rpc_message r) ++ data_bytes (rpc_data r) in
  if Nat.leb (length p) MAX_PACKET_SIZE then (s, [OResponse p]) else (crash s, [OPanic]).

(** controller/src/ioloop.rs:225-264; [Message::from(ProtocolError)] is messages/src/message.rs:444-448. *)
Definition send_protocol_error (peer : N) (h : Header) (e : ProtocolError) : output :=
  OProtoError peer (enc_header h ++ enc_message (message_new (BError e))).

(** controller/src/ioloop.rs:386-395 *)
Definition increment_faulty (s : loop) : loop :=
  match l_out s with
  | Some o => set_out s (Some (mkOut (o_tag o) (o_request o) (o_retries o) (o_errors o + 1)
                                     (o_gone o)))
  | None => s
  end.

(** controller/src/ioloop.rs:405-419 *)
Definition fail_matching (s : loop) (h : Header) (e : ProtocolError) : loop * list output :=
  match l_out s with
  | None => (s, [])
  | Some o => if h_id (rpc_header (o_request o)) =? h_id h
              then answer s o (Err (EProtocol e))
              else (s, [])
  end.

(** controller/src/ioloop.rs:267-321 *)
Definition handle_sp_request (s : loop) (peer : N) (h : Header) (rx : list N) : loop * list output :=
  match dec_message rx with
  | Some (m, _) =>
      if l_handler s then (s, [ODispatch (mkRpc h m None)]) else (crash s, [OPanic])
  | None => (s, [send_protocol_error peer (header_new (h_id h) KError) PeSerialization])
  end.

(** controller/src/ioloop.rs:323-383 *)
Definition handle_sp_error (s : loop) (h : Header) (rx : list N) : loop * list output :=
  match dec_message rx with
  | Some (m, _) =>
      match msg_body m with
      | BError e => fail_matching (increment_faulty s) h e
      | _ => (increment_faulty s, [])
      end
  | None => fail_matching (increment_faulty s) h PeSerialization
  end.

(** controller/src/ioloop.rs:560-621: what a matching response turns into. *)
Definition matched_reply (h : Header) (m : Message) (r : SpResponse) (rest : list N) : reply :=
  match sp_expected_data_len r, sp_expected_error_data_len r with
  | None, None => Ok (mkRpc h m None)
  | dl, el =>
      let n := ((match dl with Some n => n | None => 0 end)
                + (match el with Some n => n | None => 0 end))%nat in
      if Nat.ltb (length rest) n
      then Err (EProtocol (PeWrongDataSize (N.of_nat n) (Nlen rest)))
      else Ok (mkRpc h m (Some (firstn n rest)))
  end.

(** controller/src/ioloop.rs:422-639 *)
Definition handle_sp_response (s : loop) (h : Header) (rx : list N) : loop * list output :=
  match l_out s with
  | None => (s, [])
  | Some o =>
      match dec_message rx with
      | None =>
          match rx with
          | [] => (crash s, [OPanic])  (* rx_buf[0], ioloop.rs:484 *)
          | v :: _ =>
              let e := if v <? INNER_MIN then PeVersionMismatch INNER_CURRENT v
                       else PeSerialization in
              fail_matching (increment_faulty s) h e
          end
      | Some (m, rest) =>
          match msg_body m with
          | BSpResponse r =>
              if h_id (rpc_header (o_request o)) =? h_id h
              then answer s o (matched_reply h m r rest)
              else (s, [])
          | _ => fail_matching s h PeWrongMessage
          end
      end
  end.

(** controller/src/ioloop.rs:807-883.  [recv_from] drops what does not fit in [rx_buf]. *)
Definition handle_datagram (s : loop) (peer : N) (d : list N) : loop * list output :=
  match dec_header (firstn MAX_PACKET_SIZE d) with
  | None => (increment_faulty s, [])
  | Some (h, rx) =>
      match h_kind h with
      | KHostRequest | KHostResponse =>
          (increment_faulty s, [send_protocol_error peer h PeWrongMessage])
      | KError => handle_sp_error s h rx
      | KSpRequest => handle_sp_request s peer h rx
      | KSpResponse => handle_sp_response s h rx
      end
  end.

(** controller/src/ioloop.rs:702-771 *)
Definition handle_tick (s : loop) (io : bool) : loop * list output :=
  match l_out s with
  | None => (s, [])
  | Some o =>
      if (o_retries o <? l_limit s) && (o_errors o <? NUM_ALLOWED_ERROR_MESSAGES)
      then send_outgoing_request s o io
      else if l_limit s <=? o_retries o
      then answer s o (Err (EMaxRetries (o_retries o)))
      else answer s o (Err (EMaxFaultMessages (o_errors o)))
  end.

(** controller/src/ioloop.rs:668-886 *)
Definition step (s : loop) (e : event) : loop * list output :=
  match l_status s with
  | Running =>
      match e with
      | EvRequest tag r io =>
          match l_out s with
          | Some _ => (s, [])
          | None =>
              let o := mkOut tag r 0 0 false in
              let (s', out) := send_outgoing_request (set_out s (Some o)) o io in
              (s', OAccept tag r :: out)
          end
      | EvClosed =>
          match l_out s with
          | Some _ => (s, [])
          | None => (mkLoop (l_limit s) None (l_handler s) Exited, [])
          end
      | EvTick io => handle_tick s io
      | EvHandler (HandlerSend r) _ => send_outgoing_response s r
      | EvHandler _ _ => (s, [])
      | EvRecvError => (increment_faulty s, [])
      | EvDatagram peer d _ => handle_datagram s peer d
      | EvCallerGone =>
          match l_out s with
          | Some o => (set_out s (Some (mkOut (o_tag o) (o_request o) (o_retries o) (o_errors o)
                                              true)), [])
          | None => (s, [])
          end
      | EvHandlerGone => (mkLoop (l_limit s) (l_out s) false (l_status s), [])
      end
  | _ => (s, [])
  end.

(** A run: the final state and everything the loop did, in order. *)
Fixpoint run (s : loop) (es : list event) : loop * list output :=
  match es with
  | [] => (s, [])
  | e :: r => let (s1, o1) := step s e in
              let (s2, o2) := run s1 r in (s2, o1 ++ o2)
  end.

(** controller/src/controller.rs:185-187: [fetch_add] wraps. *)
Definition next_header (counter : N) (k : MessageKind) : N * Header :=
  ((counter + 1) mod 2 ^ 64, header_new counter k).
