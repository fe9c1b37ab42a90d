(** Runs without end in which everybody gets a turn (C79). *)
From Verif Require Export SpecConc SpecSent.

(** The system after the first [n] turns of [ts]. *)
Definition at_time {St A} (sp : St -> Rpc -> St * reply) (s0 : sys St A) (ts : nat -> turn St) (n : nat) : sys St A :=
  sys_run sp s0 (map ts (seq 0 n)).
(** Each of the calls gets turns again and again, so does the loop's channel, which is served in order,
    and the timer fires again and again.  Nothing is asked of the network and the SP. *)
Record fair {St} (calls : nat) (ts : nat -> turn St) : Prop :=
  { fr_call : forall i n, (i < calls)%nat -> exists m, (n <= m)%nat /\ ts m = TCall i;
    fr_accept : forall n, exists m io, (n <= m)%nat /\ ts m = TAccept 0 io;
    fr_order : forall m j io, ts m = TAccept j io -> j = 0%nat;
    fr_tick : forall n, exists m io, (n <= m)%nat /\ ts m = TNet (MTick io) }.
(** The loop is still running. *)
Definition alive {St A} (s : sys St A) : Prop := l_status (nt_loop (sy_net s)) = Running.
(** It ended. *)
Definition over {A} (c : call A) : Prop := exists xs x, c = Going xs (Ret x).
(** It is about to ask a question with a field out of the range of its type, which Rust's types exclude. *)
Definition ill_formed {A} (c : call A) : Prop :=
  exists xs q d k, c = Going xs (Ask q d k) /\ wf_message (message_new (BHostRequest q)) = false.

(** ** When the loop keeps running *)
(** The fields of an answer are in the range of their types. *)
Definition reply_ok (x : reply) : Prop :=
  match x with Ok r => wf_body (msg_body (rpc_message r)) = true | _ => True end.
(** Whatever the answers, every question of the call is well made (C80). *)
Definition lawful {A} (p : prog A) : Prop :=
  forall xs q d, Forall reply_ok xs -> question p xs = Some (q, d) -> well_made q d.
(** The controller is not dropped, no call is given up and the handler of SP requests stays, and its
    responses carry at most 1024 bytes; datagrams from others are no SP responses. *)
Definition untroubled {St} (t : turn St) : Prop :=
  turn_ok t = true /\
  match t with
  | TNet (MClosed | MCallerGone | MHandlerGone) => False
  | TNet (MHandler (HandlerSend r) _) => (length (data_bytes (rpc_data r)) <= 1024)%nat
  | _ => True
  end.
