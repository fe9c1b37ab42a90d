(** Specification vocabulary for the I/O loop (C19-C27). *)
From Verif Require Export SpecMessages IoLoop Wf.

(** The final state and the log of a run. *)
Definition after (s : loop) (es : list event) : loop := fst (run s es).
Definition log (s : loop) (es : list event) : list output := snd (run s es).

(** The part of the log that concerns callers' requests. *)
Definition is_rpc (o : output) : bool :=
  match o with OAccept _ _ | OTx _ _ | OReply _ _ => true | _ => false end.
Definition accepts (l : list output) : list N :=
  flat_map (fun o => match o with OAccept t _ => [t] | _ => [] end) l.
Definition replies (l : list output) : list N :=
  flat_map (fun o => match o with OReply t _ => [t] | _ => [] end) l.

(** The datagram of a request: header, message, data. *)
Definition wire (r : Rpc) : list N :=
  enc_header (rpc_header r) ++ enc_message (rpc_message r)
  ++ match rpc_data r with Some d => d | None => [] end.

(** The life of one request: accepted, transmitted some number of times, perhaps answered. *)
Record session := mkSession
  { ss_tag : N; ss_request : Rpc; ss_sent : nat; ss_answer : option reply }.
Definition render (x : session) : list output :=
  OAccept (ss_tag x) (ss_request x)
  :: repeat (OTx (ss_tag x) (wire (ss_request x))) (ss_sent x)
  ++ match ss_answer x with Some r => [OReply (ss_tag x) r] | None => [] end.
Definition answered (x : session) : Prop := ss_answer x <> None.
Definition sent_within (limit : N) (x : session) : Prop :=
  N.of_nat (ss_sent x) <= N.max 1 limit.

(** Bytes a response announces after itself: data of its modules and one error byte per failed
    module. *)
Definition announced (r : SpResponse) : nat :=
  (unit_size r * length (to_indices (resp_modules r)) + length (to_indices (resp_failed r)))%nat.

(** Datagram [d] completes request [q] with [resp]: the bytes received are a header, a message and
    the announced data; the header is an SP response with the request's id; the message is an SP
    response.  A datagram longer than the receive buffer is cut (MAX_PACKET_SIZE). *)
Definition completes (q : Rpc) (d : list N) (resp : Rpc) : Prop :=
  exists h m r data rest,
    firstn MAX_PACKET_SIZE d = enc_header h ++ enc_message m ++ data ++ rest /\
    wf_header h = true /\ wf_message m = true /\
    h_kind h = KSpResponse /\ h_id h = h_id (rpc_header q) /\
    msg_body m = BSpResponse r /\ length data = announced r /\
    resp = mkRpc h m (match r with SMacAddrs _ => None | _ => Some data end).

(** Events that count towards the fault limit: socket errors and datagrams that do not parse, that
    report an error, or that no peer should send to a host. *)
Definition faulty (e : event) : bool :=
  match e with
  | EvRecvError => true
  | EvDatagram _ d _ =>
      match dec_header (firstn MAX_PACKET_SIZE d) with
      | None => true
      | Some (h, rx) =>
          match h_kind h with
          | KError | KHostRequest | KHostResponse => true
          | KSpRequest => false
          | KSpResponse => match dec_message rx with None => true | Some _ => false end
          end
      end
  | _ => false
  end.
Definition is_tick (e : event) : bool := match e with EvTick _ => true | _ => false end.
Definition count (f : event -> bool) (es : list event) : N := Nlen (filter f es).

(** Datagrams carrying the id [i], or no readable header at all. *)
Definition datagram_id (d : list N) : option N :=
  match dec_header (firstn MAX_PACKET_SIZE d) with Some (h, _) => Some (h_id h) | None => None end.

(** The request [q] accepted after the history [pre] stayed in flight during all of [mid]. *)
Definition in_flight_during (s0 : loop) (pre : list event) (tag : N) (q : Rpc) (mid : list event)
    : Prop :=
  l_out (after s0 pre) = None /\
  forall m1 m2, mid = m1 ++ m2 ->
    exists o, l_out (after s0 (pre ++ EvRequest tag q true :: m1)) = Some o /\
              o_tag o = tag /\ o_request o = q.

(** Received datagrams are byte strings. *)
Definition bytes_event (e : event) : bool :=
  match e with EvDatagram _ d _ => bytes d | _ => true end.

(** Events in which the SP says nothing and sending works. *)
Definition silent (e : event) : bool :=
  match e with
  | EvDatagram _ _ _ | EvRecvError | EvCallerGone => false
  | EvTick io | EvRequest _ _ io => io
  | EvClosed | EvHandler _ _ | EvHandlerGone => true
  end.

(** The header of the [i]-th request made by a controller whose counter starts at [c]. *)
Fixpoint nth_counter (c : N) (i : nat) : N :=
  match i with O => c | S j => fst (next_header (nth_counter c j) KHostRequest) end.
Definition nth_header (c : N) (i : nat) : Header := snd (next_header (nth_counter c i) KHostRequest).
