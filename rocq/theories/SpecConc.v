(** Several calls at a time (C78).  Calls of one controller run concurrently: each takes message ids
    from the shared counter and hands its requests to the I/O loop when it can. *)
From Verif Require Export SpecNet.

(** ** What a call does, step by step *)
(** What a call gets to know of a reply: the body and the data of an answer, or an error. *)
Inductive news := Told (b : MessageBody) (data : option (list N)) | Missed (e : Error).
(** A call ends, or asks the SP and goes on with what it is told, or sleeps. *)
Inductive prog (A : Type) :=
| Ret (x : outcome Error A)
| Ask (q : HostRequest) (data : option (list N)) (k : news -> prog A)
| Nap (micros : N) (p : prog A).
Arguments Ret {A}. Arguments Ask {A}. Arguments Nap {A}.

(** Running it alone. *)
Fixpoint alone {A St} (p : prog A) (sp : St -> Rpc -> St * reply) : ctl (St := St) A :=
  match p with
  | Ret x => cret x
  | Ask q d k => fun w =>
      match rpc sp q d w with
      | (w', Ok r) => alone (k (Told (msg_body (rpc_message r)) (rpc_data r))) sp w'
      | (w', Err e) => alone (k (Missed e)) sp w'
      | (w', Panic) => (w', Panic)
      end
  | Nap t p => cbind (sleep t) (fun _ => alone p sp)
  end.
(** The steps of the call [c], whatever the SP. *)
Definition steps_of {A} (c : forall St, (St -> Rpc -> St * reply) -> ctl (St := St) A) (p : prog A) : Prop :=
  forall St (sp : St -> Rpc -> St * reply) w, c St sp w = alone p sp w.

(** The SP that gives the answers [xs], one after the other; there are no more then. *)
Definition script (xs : list reply) (_ : Rpc) : list reply * reply :=
  match xs with [] => ([], Panic) | x :: r => (r, x) end.

(** What is left of a call after it got the reply [x]. *)
Definition heard {A} (k : news -> prog A) (x : reply) : prog A :=
  match x with
  | Ok r => k (Told (msg_body (rpc_message r)) (rpc_data r))
  | Err e => k (Missed e)
  | Panic => Ret Panic
  end.
(** What is left of it after the replies [xs], up to its next question; and that question. *)
Fixpoint resume {A} (p : prog A) (xs : list reply) : prog A :=
  match p with
  | Ret x => Ret x
  | Nap _ p => resume p xs
  | Ask q d k =>
      match xs with
      | [] => Ask q d k
      | Ok r :: rest => resume (k (Told (msg_body (rpc_message r)) (rpc_data r))) rest
      | Err e :: rest => resume (k (Missed e)) rest
      | Panic :: _ => Ret Panic
      end
  end.
Definition question {A} (p : prog A) (xs : list reply) : option (HostRequest * option (list N)) :=
  match resume p xs with Ask q d _ => Some (q, d) | _ => None end.

(** It stops at the first error and returns it. *)
Definition stops_at_errors {A} (p : prog A) : Prop :=
  forall xs q d e, question p xs = Some (q, d) -> resume p (xs ++ [Err e]) = Ret (Err e).
(** The call [c] is such a program. *)
Definition program {A} (c : forall St, (St -> Rpc -> St * reply) -> ctl (St := St) A) : Prop :=
  exists p, steps_of c p /\ stops_at_errors p.

(** ** Several calls, the loop, the network and the SP *)
(** A call is about to take its next step, or waits for the reply to its request with id [id].
    [xs]: the replies it got so far, for the record. *)
Inductive call (A : Type) :=
| Going (xs : list reply) (p : prog A)
| Waiting (xs : list reply) (id : N) (q : HostRequest) (data : option (list N))
    (k : news -> prog A).
Arguments Going {A}. Arguments Waiting {A}.

Definition host_request (id : N) (q : HostRequest) (d : option (list N)) : Rpc :=
  mkRpc (header_new id KHostRequest) (message_new (BHostRequest q)) d.

(** [sy_queue]: requests on their way to the loop, in any order. *)
Record sys (St A : Type) := mkSys
  { sy_net : net St; sy_counter : N; sy_queue : list Rpc; sy_calls : list (call A) }.
Arguments mkSys {St A}. Arguments sy_net {St A}. Arguments sy_counter {St A}. Arguments sy_queue {St A}.
Arguments sy_calls {St A}.

Inductive turn (St : Type) :=
| TCall (i : nat)                (* the i-th call takes a step *)
| TAccept (j : nat) (io : bool)  (* the loop takes the j-th request of the queue *)
| TNet (m : move St).            (* anything else happens to the loop, the network or the SP *)
Arguments TCall {St}. Arguments TAccept {St}. Arguments TNet {St}.

Fixpoint update {A} (n : nat) (x : A) (l : list A) : list A :=
  match l, n with
  | [], _ => []
  | _ :: r, O => x :: r
  | y :: r, S k => y :: update k x r
  end.
Fixpoint remove_nth {A} (n : nat) (l : list A) : list A :=
  match l, n with
  | [], _ => []
  | _ :: r, O => r
  | y :: r, S k => y :: remove_nth k r
  end.

(** A reply goes to the call that waits for this id. *)
Definition hear {A} (tag : N) (x : reply) (c : call A) : call A :=
  match c with
  | Waiting xs id q d k => if id =? tag then Going (xs ++ [x]) (heard k x) else c
  | Going _ _ => c
  end.
Definition hear_all {A} (outs : list output) (cs : list (call A)) : list (call A) :=
  fold_left (fun cs o => match o with OReply tag x => map (hear tag x) cs | _ => cs end) outs cs.

Section Sys.
  Context {St A : Type} (sp : St -> Rpc -> St * reply).
  (** Requests whose fields are not in the range of their types do not exist.  The loop takes requests only when it has none outstanding (ioloop.rs:673). *)
  Definition idle (n : net St) : bool :=
    match l_status (nt_loop n), l_out (nt_loop n) with Running, None => true | _, _ => false end.
  Definition sys_step (s : sys St A) (t : turn St) : sys St A :=
    match t with
    | TCall i =>
        match nth_error (sy_calls s) i with
        | Some (Going xs (Ask q d k)) =>
            if wf_rpc (host_request (sy_counter s) q d) then
              mkSys (sy_net s) ((sy_counter s + 1) mod 2 ^ 64)
                    (sy_queue s ++ [host_request (sy_counter s) q d])
                    (update i (Waiting xs (sy_counter s) q d k) (sy_calls s))
            else s
        | Some (Going xs (Nap _ p)) =>
            mkSys (sy_net s) (sy_counter s) (sy_queue s) (update i (Going xs p) (sy_calls s))
        | _ => s
        end
    | TAccept j io =>
        match nth_error (sy_queue s) j with
        | Some r =>
            if idle (sy_net s) then
              let (n, outs) := net_step sp (sy_net s) (MRequest (rpc_id r) r io) in
              mkSys n (sy_counter s) (remove_nth j (sy_queue s)) (hear_all outs (sy_calls s))
            else s
        | None => s
        end
    | TNet m =>
        match m with
        | MRequest _ _ _ => s
        | _ => let (n, outs) := net_step sp (sy_net s) m in
               mkSys n (sy_counter s) (sy_queue s) (hear_all outs (sy_calls s))
        end
    end.
  Definition sys_run (s : sys St A) (ts : list (turn St)) : sys St A := fold_left sys_step ts s.
End Sys.

(** A new controller and SP, and calls about to begin. *)
Definition sys_new {St A} (retries : option N) (s0 : St) (c0 : N) (ps : list (prog A)) : sys St A :=
  mkSys (net_new retries s0) c0 [] (map (Going []) ps).
(** Datagrams from others are no SP responses (C59). *)
Definition turn_ok {St} (t : turn St) : bool := match t with TNet m => noise_ok m | _ => true end.
(** The ids run out after 2^64 requests. *)
Definition few_turns {St} (ts : list (turn St)) : Prop := Nlen ts <= 2 ^ 64.
(** The replies a call got so far. *)
Definition got {A} (c : call A) : list reply := match c with Going xs _ | Waiting xs _ _ _ _ => xs end.
(** The call [p] is now at [c], as its replies let it. *)
Definition is_at {A} (p : prog A) (c : call A) : Prop :=
  match c with
  | Going xs p' => resume p xs = resume p' []
  | Waiting xs _ q d k => resume p xs = Ask q d k
  end.
(** The answer [resp] is the SP's: when the [i]-th call had got [xs] and waited for the answer to its
    next question, a request datagram reached the SP, which then answers [resp] to this question. *)
Definition given {St A} (sp : St -> Rpc -> St * reply) (s0 : sys St A) (ts : list (turn St)) (i : nat)
    (p : prog A) (xs : list reply) (resp : Rpc) : Prop :=
  exists (pre post : list (turn St)) n id q d k, ts = pre ++ TNet (MServe n) :: post /\ question p xs = Some (q, d) /\
    nth_error (sy_calls (sys_run sp s0 pre)) i = Some (Waiting xs id q d k) /\
    snd (sp (nt_sp (sy_net (sys_run sp s0 pre))) (as_received (host_request id q d))) = Ok resp.
(** Answers depend on the question only: not on the SP's state, the id, or whether empty data is sent. *)
Definition same_answer (x y : reply) : Prop :=
  match x, y with
  | Ok a, Ok b => msg_body (rpc_message a) = msg_body (rpc_message b) /\ rpc_data a = rpc_data b
  | Err a, Err b => a = b
  | Panic, Panic => True
  | _, _ => False
  end.
Definition alike {St} (sp : St -> Rpc -> St * reply) : Prop :=
  forall s s' id id' q d, same_answer (snd (sp s (as_received (host_request id q d)))) (snd (sp s' (host_request id' q d))).
