(** What is said about the I/O loop and the handler of SP requests side by side. *)
From Verif Require Export Duplex.

(** The SP requests handed over, in order. *)
Definition dispatched (l : list output) : list Rpc :=
  flat_map (fun o => match o with ODispatch r => [r] | _ => [] end) l.
(** The handler's replies the loop saw, in order. *)
Definition served (l : list event) : list handler_reply :=
  flat_map (fun e => match e with EvHandler x _ => [x] | _ => [] end) l.
Definition one {A} (o : option A) : list A := match o with Some x => [x] | None => [] end.
Definition is_datagram (m : move) : bool :=
  match m with MvLoop (EvDatagram _ _ _) => true | _ => false end.

(** Each waits for the other: the loop for room on the way in, which only the handler makes, and the handler for
    room on the way back, which only the loop makes. *)
Definition stuck (h : handler) (d : duplex) : Prop :=
  dx_wait d <> None /\ dx_reply d <> None /\
  (hd_in h <= length (dx_in d))%nat /\ (hd_out h <= length (dx_out d))%nat.

(** Moves that need neither the network nor a caller. *)
Definition inner (m : move) : Prop := m = MvPut \/ m = MvTake \/ m = MvGive.

(** A schedule in which the loop looks at other events only when no reply of the handler is there. *)
Fixpoint polite (h : handler) (d : duplex) (ms : list move) : Prop :=
  match ms with
  | [] => True
  | m :: r => match m with MvLoop _ => dx_out d = [] | _ => True end /\
              polite h (fst (duplex_step h d m)) r
  end.

(** A datagram that is a request of the SP: such a header and any message. *)
Definition sp_request (dg : list N) (hd : Header) (m : Message) : Prop :=
  exists rest rest', dec_header (firstn MAX_PACKET_SIZE dg) = Some (hd, rest) /\ h_kind hd = KSpRequest /\
    dec_message rest = Some (m, rest').

(** The handler never makes a reply too long for a datagram. *)
Definition modest (h : handler) : Prop := forall r x, hd_reply h r = HandlerSend x ->
  (length (enc_message (rpc_message x)) + length (data_bytes (rpc_data x)) <= MAX_PACKET_SIZE)%nat.
(** Nothing pending between the two. *)
Definition idle (d : duplex) : Prop := dx_in d = [] /\ dx_wait d = None /\ dx_reply d = None /\ dx_out d = [].
