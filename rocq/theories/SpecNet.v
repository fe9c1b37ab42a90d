(** Specification vocabulary for the whole path between a caller and the SP (C59-C61): the I/O loop,
    a network that may lose, delay, repeat and reorder datagrams, and an SP that may change its state
    at any time.  Only the loop is code of the project; network and SP are its environment. *)
From Verif Require Export SpecController.

(** ** The network *)
(** The loop, the SP, every request datagram sent so far and every response datagram sent so far. *)
Record net (St : Type) := mkNet
  { nt_loop : loop; nt_sp : St; nt_sent : list (list N); nt_mail : list (list N) }.
Arguments mkNet {St}. Arguments nt_loop {St}. Arguments nt_sp {St}. Arguments nt_sent {St}.
Arguments nt_mail {St}.

Inductive move (St : Type) :=
| MRequest (tag : N) (r : Rpc) (io : bool)   (* a caller hands over a request *)
| MClosed                                     (* the callers are gone *)
| MTick (io : bool)                           (* the resend timer fires *)
| MHandler (r : handler_reply) (io : bool)    (* the SP-request handler answers *)
| MRecvError                                  (* recv_from fails *)
| MCallerGone                                 (* the caller in flight gives up *)
| MHandlerGone
| MServe (k : nat)                            (* the k-th request datagram reaches the SP *)
| MDeliver (k : nat)                          (* the k-th response datagram reaches the loop *)
| MNoise (peer : N) (d : list N)              (* any other datagram reaches the loop *)
| MDrift (s : St).                            (* the SP changes by itself *)
Arguments MRequest {St}. Arguments MClosed {St}. Arguments MTick {St}. Arguments MHandler {St}.
Arguments MRecvError {St}. Arguments MCallerGone {St}. Arguments MHandlerGone {St}.
Arguments MServe {St}. Arguments MDeliver {St}. Arguments MNoise {St}. Arguments MDrift {St}.

(** On the wire, no data and empty data are the same. *)
Definition as_received (r : Rpc) : Rpc :=
  mkRpc (rpc_header r) (rpc_message r)
        (match rpc_data r with Some [] => None | d => d end).

Section Net.
  Context {St : Type} (sp : St -> Rpc -> St * reply).

  (** The SP reads a datagram, acts on it, and answers if it has an answer. *)
  Definition serve (s : St) (d : list N) : St * list (list N) :=
    match dec_header d with
    | Some (h, rx) =>
        match dec_message rx with
        | Some (m, data) =>
            let (s', x) := sp s (as_received (mkRpc h m (Some data))) in
            (s', match x with Ok resp => [wire resp] | _ => [] end)
        | None => (s, [])
        end
    | None => (s, [])
    end.

  Definition move_event (n : net St) (m : move St) : option event :=
    match m with
    | MRequest tag r io => Some (EvRequest tag r io)
    | MClosed => Some EvClosed
    | MTick io => Some (EvTick io)
    | MHandler r io => Some (EvHandler r io)
    | MRecvError => Some EvRecvError
    | MCallerGone => Some EvCallerGone
    | MHandlerGone => Some EvHandlerGone
    | MNoise peer d => Some (EvDatagram peer d true)
    | MDeliver k => match nth_error (nt_mail n) k with
                    | Some d => Some (EvDatagram 0 d true)
                    | None => None
                    end
    | MServe _ | MDrift _ => None
    end.
  Definition packets (l : list output) : list (list N) :=
    flat_map (fun o => match o with OTx _ d => [d] | _ => [] end) l.

  Definition net_step (n : net St) (m : move St) : net St * list output :=
    match m with
    | MServe k =>
        match nth_error (nt_sent n) k with
        | Some d => let (s, mail) := serve (nt_sp n) d in
                    (mkNet (nt_loop n) s (nt_sent n) (nt_mail n ++ mail), [])
        | None => (n, [])
        end
    | MDrift s => (mkNet (nt_loop n) s (nt_sent n) (nt_mail n), [])
    | _ =>
        match move_event n m with
        | Some e => let (l, outs) := step (nt_loop n) e in
                    (mkNet l (nt_sp n) (nt_sent n ++ packets outs) (nt_mail n), outs)
        | None => (n, [])
        end
    end.
  Fixpoint net_run (n : net St) (ms : list (move St)) : net St * list output :=
    match ms with
    | [] => (n, [])
    | m :: r => let (n1, o1) := net_step n m in
                let (n2, o2) := net_run n1 r in (n2, o1 ++ o2)
    end.
  Definition net_after (n : net St) (ms : list (move St)) : net St := fst (net_run n ms).
  Definition net_log (n : net St) (ms : list (move St)) : list output := snd (net_run n ms).
End Net.

(** Nothing sent, nothing answered. *)
Definition net_new {St} (retries : option N) (s : St) : net St := mkNet (loop_new retries) s [] [].

(** The requests accepted by the loop, and their ids. *)
Definition requests (l : list output) : list Rpc :=
  flat_map (fun o => match o with OAccept _ r => [r] | _ => [] end) l.
Definition rpc_id (r : Rpc) : N := h_id (rpc_header r).
(** Other datagrams are bytes and not SP responses: nobody but the SP answers. *)
Definition noise_ok {St} (m : move St) : bool :=
  match m with
  | MNoise _ d =>
      bytes d && match dec_header (firstn MAX_PACKET_SIZE d) with
                 | Some (h, _) => match h_kind h with KSpResponse => false | _ => true end
                 | None => true
                 end
  | _ => true
  end.
(** A request whose fields are in the range of their types. *)
Definition wf_rpc (r : Rpc) : bool := wf_header (rpc_header r) && wf_message (rpc_message r).
(** What the SP answers to [r] is a response to [r], of the documented size. *)
Definition polite {St} (sp : St -> Rpc -> St * reply) : Prop :=
  forall s r resp, wf_rpc r = true -> snd (sp s r) = Ok resp ->
    exists x, wf_rpc resp = true /\ h_kind (rpc_header resp) = KSpResponse /\
      rpc_id resp = rpc_id r /\ msg_body (rpc_message resp) = BSpResponse x /\
      match x with
      | SMacAddrs _ => rpc_data resp = None
      | _ => exists data, rpc_data resp = Some data /\ length data = announced x /\ bytes data = true
      end.

(** ** Calls over a lossy path *)
Definition not_ok {A} (x : outcome Error A) : Prop := forall a, x <> Ok a.
(** [c'] returns an error after some of the steps of [c], or does and returns what [c] does. *)
Definition follows {St St' A} (I : St' -> N -> Prop) (c' : ctl (St := St') A) (c : ctl (St := St) A)
    : Prop :=
  forall w' w, I (w_sp w') (w_counter w') -> w_counter w' = w_counter w ->
    (not_ok (snd (c' w')) /\ exists rest, deeds c w = deeds c' w' ++ rest) \/
    (snd (c' w') = snd (c w) /\ deeds c' w' = deeds c w).
(** Every reply is the one [sp] gives, whatever its state, or a failure; and [I] is kept. *)
Definition lossy {St St'} (I : St' -> N -> Prop) (sp' : St' -> Rpc -> St' * reply)
    (sp : St -> Rpc -> St * reply) : Prop :=
  forall s' s q d c, I s' c ->
    let r := mkRpc (header_new c KHostRequest) (message_new (BHostRequest q)) d in
    I (fst (sp' s' r)) ((c + 1) mod 2 ^ 64) /\
    (snd (sp' s' r) = snd (sp s r) \/ not_ok (snd (sp' s' r))).

(** ** The controller on top of the loop and the network *)
(** For each request a schedule says what happens until the caller goes on.  [Panic] stands for a
    call that gets no answer: the loop is gone, or the schedule ends.  Requests whose fields are not
    in the range of their types do not exist and get none either. *)
Definition reply_to (tag : N) (l : list output) : reply :=
  match find (fun o => match o with OReply t _ => t =? tag | _ => false end) l with
  | Some (OReply _ x) => x
  | _ => Panic
  end.
Definition wired (St : Type) := (net St * list (list (move St)))%type.
Definition wired_sp {St} (sp : St -> Rpc -> St * reply) (w : wired St) (r : Rpc) : wired St * reply :=
  match snd w with
  | [] => (w, Panic)
  | ms :: rest =>
      if wf_rpc r then
        let (n, outs) := net_run sp (fst w) (MRequest (rpc_id r) r true :: ms) in
        ((n, rest), reply_to (rpc_id r) outs)
      else ((fst w, rest), Panic)
  end.
(** Schedules in which nobody else uses the loop. *)
Definition own_schedule {St} (m : move St) : bool :=
  noise_ok m && match m with MRequest _ _ _ => false | _ => true end.
(** The answers of the SP do not depend on its state. *)
Definition constant {St} (sp : St -> Rpc -> St * reply) : Prop :=
  forall s s' r, snd (sp s r) = snd (sp s' r).
(** Empty data is no data to it. *)
Definition blind {St} (sp : St -> Rpc -> St * reply) : Prop :=
  forall s r, sp s (as_received r) = sp s r.
Definition data_blind {St} (a : honest St) : Prop :=
  forall s q, hs_verdict a s q (Some []) = hs_verdict a s q None /\
              hs_next a s q (Some []) = hs_next a s q None.
(** The requests handed over in a history. *)
Definition handed_over {St} (ms : list (move St)) : list Rpc :=
  flat_map (fun m => match m with MRequest _ r _ => [r] | _ => [] end) ms.
(** A loop started with [retries] and an SP started in [s0], after some history; the next request has
    id [c], and none of the ids that the remaining schedules can use was used before. *)
Definition in_use {St} (sp : St -> Rpc -> St * reply) (retries : option N) (s0 : St) (x : wired St)
    (c : N) : Prop :=
  exists ms,
    fst x = net_after sp (net_new retries s0) ms /\
    forallb noise_ok ms = true /\
    (forall tag r io, In (MRequest tag r io) ms -> wf_rpc r = true /\ tag = rpc_id r) /\
    NoDup (map rpc_id (handed_over ms)) /\
    Forall (fun l => forallb own_schedule l = true) (snd x) /\
    Nlen (snd x) <= 2 ^ 64 /\ c < 2 ^ 64 /\
    forall j, j < Nlen (snd x) -> ~ In ((c + j) mod 2 ^ 64) (map rpc_id (handed_over ms)).
