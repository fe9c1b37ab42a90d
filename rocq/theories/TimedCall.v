(** Model of one call of the API in time, with the loop of TimedLoop.v: rpc (controller/src/controller.rs:1301-1316)
    and tokio::time::sleep (controller.rs:299, 305, 588, 672).  Times are in microseconds.  The call runs alone: no other call uses the
    controller. *)
From Verif Require Export TimedLoop SpecConc.

(** Where a call is: about to take its next step since the time [since], asleep until [until], or waiting for the reply
    to its request [id]. *)
Inductive stage (A : Type) :=
| Ready (p : prog A) (since : N)
| Asleep (p : prog A) (until : N)
| Pending (id : N) (k : news -> prog A).
Arguments Ready {A}. Arguments Asleep {A}. Arguments Pending {A}.
Record timed_call (A : Type) := mkTimedCall { tc_timed : timed; tc_counter : N; tc_stage : stage A }.
Arguments mkTimedCall {A}. Arguments tc_timed {A}. Arguments tc_counter {A}. Arguments tc_stage {A}.

(** The call is polled ([io]: a request it hands over can be sent at once), or something else happens to the loop. *)
Inductive happening := HCall (io : bool) | HLoop (e : event).

Fixpoint answer_for (id : N) (out : list output) : option reply :=
  match out with
  | [] => None
  | OReply tag x :: r => if tag =? id then Some x else answer_for id r
  | _ :: r => answer_for id r
  end.
(** [response_rx.await.expect(..)]: a loop that ends without an answer makes the call panic. *)
Definition settle {A} (id : N) (k : news -> prog A) (t : timed) (now : N) (out : list output) : stage A :=
  match answer_for id out with
  | Some x => Ready (heard k x) now
  | None => match l_status (tm_loop t) with Running => Pending id k | _ => Ready (Ret Panic) now end
  end.
(** What becomes of the call, and what the loop does. *)
Definition call_does {A} (c : timed_call A) (now : N) (h : happening) : timed_call A * list output :=
  let stay st := (mkTimedCall (tc_timed c) (tc_counter c) st, []) in
  match h with
  | HCall io =>
      match tc_stage c with
      | Ready (Ask q d k) _ =>
          let id := tc_counter c in
          let counter := (id + 1) mod 2 ^ 64 in
          match l_status (tm_loop (tc_timed c)) with
          | Running =>
              let (t, out) := timed_step (tc_timed c) now (EvRequest id (host_request id q d) io) in
              (mkTimedCall t counter (settle id k t now out), out)
          | _ => (* [outgoing_request_tx.send(..).await.unwrap()] *)
              (mkTimedCall (tc_timed c) counter (Ready (Ret Panic) now), [])
          end
      | Ready (Nap t p) _ => stay (Asleep p (now + t))
      | Asleep p until => if until <=? now then stay (Ready p now) else (c, [])
      | _ => (c, [])
      end
  | HLoop e =>
      match e with
      | EvRequest _ _ _ | EvClosed | EvCallerGone => (c, []) (* the call is still there and alone *)
      | _ =>
          let (t, out) := timed_step (tc_timed c) now e in
          (mkTimedCall t (tc_counter c) (match tc_stage c with Pending id k => settle id k t now out | st => st end), out)
      end
  end.
Definition call_step {A} (c : timed_call A) (now : N) (h : happening) : timed_call A := fst (call_does c now h).
Definition call_run {A} (c : timed_call A) (hs : list (N * happening)) : timed_call A :=
  fold_left (fun c x => call_step c (fst x) (snd x)) hs c.
(** Everything the loop did. *)
Fixpoint call_outputs {A} (c : timed_call A) (hs : list (N * happening)) : list output :=
  match hs with
  | [] => []
  | (now, h) :: r => snd (call_does c now h) ++ call_outputs (call_step c now h) r
  end.
(** The call [p] made at the time [start]. *)
Definition call_new {A} (t : timed) (counter : N) (p : prog A) (start : N) : timed_call A :=
  mkTimedCall t counter (Ready p start).
