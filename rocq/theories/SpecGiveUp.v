(** Statement of C93: a call that is given up does not disturb the others. *)
From Verif Require Export SpecCrowd.
Import ListNotations.

(** The request of the [i]-th call is in the channel or with the loop. *)
Definition submitted {A} (i : nat) (c : timed_calls A) : Prop :=
  (exists since gone, tcs_slot c = Some (mkSlot i true since gone)) \/ exists k, nth_error (tcs_calls c) i = Some (CPending k).
(** Calls are given up only while their requests are not. *)
Definition harmless {A} (c0 : timed_calls A) (hs : list (N * occurrence)) : Prop :=
  forall hs1 now i hs2, hs = hs1 ++ (now, OcDrop i) :: hs2 -> ~ submitted i (calls_run c0 hs1).
(** The I/O task has ended or panicked. *)
Definition stopped {A} (c : timed_calls A) : Prop := l_status (tm_loop (tcs_timed c)) <> Running.

(** What else stops the loop: the request in the channel or the response of the SP request handler does not fit a packet, the handler is gone when an SP
    request arrives, and a response header comes without a body while a request is with the loop (C25). *)
Definition too_long (p : list N) : Prop := (MAX_PACKET_SIZE < length p)%nat.
Definition deadly {A} (c : timed_calls A) (h : occurrence) : Prop :=
  match h with
  | OcTake _ => exists i since gone id q d k, tcs_slot c = Some (mkSlot i true since gone) /\ nth_error (tcs_calls c) i = Some (CQueued id q d k) /\
      too_long (enc_header (rpc_header (host_request id q d)) ++ enc_message (rpc_message (host_request id q d)) ++ match d with Some x => x | None => [] end)
  | OcLoop (EvHandler (HandlerSend r) _) => too_long (enc_message (rpc_message r) ++ match rpc_data r with Some x => x | None => [] end)
  | OcLoop (EvDatagram _ d _) => exists hd rest, dec_header (firstn MAX_PACKET_SIZE d) = Some (hd, rest) /\
      (h_kind hd = KSpRequest /\ l_handler (tm_loop (tcs_timed c)) = false \/ h_kind hd = KSpResponse /\ rest = [] /\ l_out (tm_loop (tcs_timed c)) <> None)
  | _ => False
  end.
