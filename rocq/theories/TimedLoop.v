(** Model of the resend timer of controller/src/ioloop.rs together with the loop.  Times are natural
    numbers in any unit; an iteration of the loop happens at one time. *)
From Verif Require Export IoLoop.

Record timed := mkTimed { tm_loop : loop; tm_period : N; tm_deadline : N }.

(** controller/src/ioloop.rs:67-89.  [tokio::time::interval] panics for a period of zero and ticks at
    once the first time. *)
Definition timed_new (n_retries : option N) (period now : N) : outcome unit timed :=
  if period =? 0 then Panic else Ok (mkTimed (loop_new n_retries) period now).

(** The request was sent: ioloop.rs:206-215 resets the timer, [Interval::reset]. *)
Definition sent_request (io : bool) (out : list output) : bool :=
  io && existsb (fun x => match x with OTx _ _ => true | _ => false end) out.
(** ioloop.rs:703: [tick] is polled only while there is a request and completes at the deadline or
    later; the next deadline is a period after the last ([MissedTickBehavior::Burst]). *)
Definition timed_step (t : timed) (now : N) (e : event) : timed * list output :=
  let after io d :=
    let (s, out) := step (tm_loop t) e in
    (mkTimed s (tm_period t) (if sent_request io out then now + tm_period t else d), out) in
  match e with
  | EvTick io =>
      match l_out (tm_loop t) with
      | Some _ => if now <? tm_deadline t then (t, []) else after io (tm_deadline t + tm_period t)
      | None => (t, [])
      end
  | EvRequest _ _ io => after io (tm_deadline t)
  | _ => after false (tm_deadline t)
  end.
(** A run: the final state and what the loop did and when. *)
Fixpoint timed_run (t : timed) (es : list (N * event)) : timed * list (N * output) :=
  match es with
  | [] => (t, [])
  | (now, e) :: r =>
      let (t1, o1) := timed_step t now e in
      let (t2, o2) := timed_run t1 r in (t2, map (pair now) o1 ++ o2)
  end.
