(** Which answers crash the caller (C33). *)
From Verif Require Export SpecController SpecIo.

(** The I/O loop passes [resp] on as the answer to some request: some datagram completes it (C20). *)
Definition passed_on (resp : Rpc) : Prop := exists q d, bytes d = true /\ completes q d resp.

(** The answer is [r] followed by [data]. *)
Definition carries (resp : Rpc) (r : SpResponse) (data : list N) : Prop :=
  msg_body (rpc_message resp) = BSpResponse r /\ rpc_data resp = Some data.
Definition ports (m : N) : N := N.of_nat (length (to_indices m)).

(** Some module's LED state is neither of 0, 1, 2 (message.rs:1036-1051). *)
Definition strange_led (resp : Rpc) : Prop := exists good bad data k b,
  carries resp (SLedState good bad) data /\
  N.of_nat k < ports good /\ nth_error data k = Some b /\ 3 <= b.
(** Some module's extended status has a bit beyond the nine defined ones (message.rs:886-943). *)
Definition strange_status (resp : Rpc) : Prop := exists good bad data k,
  carries resp (SExtendedStatus good bad) data /\
  N.of_nat k < ports good /\ 512 <= le_value (firstn 4 (skipn (4 * k) data)).
(** The answer describes a read of so many bytes that cutting its data into pieces of [len] bytes
    does not give one piece per module. *)
Definition strange_read (len : N) (resp : Rpc) : Prop := exists good bad rd data,
  carries resp (SRead good bad rd) data /\
  (ports good * rd_len rd < ports good * len \/ (ports good + 1) * len <= ports good * rd_len rd).
(** What the caller is then given for the [k]-th module of the answer: the [k]-th piece of [len]
    bytes, whatever length the answer states. *)
Definition cut_read (len : N) (resp : Rpc) (res : Result (list N)) : Prop := exists good bad rd data,
  carries resp (SRead good bad rd) data /\ mr_modules res = good /\ fm_modules (mr_failures res) = bad /\
  N.of_nat (length (mr_data res)) = ports good /\
  Forall (fun v => N.of_nat (length v) = len) (mr_data res) /\
  forall k, N.of_nat k < ports good ->
    nth_error (mr_data res) k = Some (firstn (N.to_nat len) (skipn (N.to_nat len * k) data)).
