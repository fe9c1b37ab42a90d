(** Model of several calls of the API at a time, in time, with the loop of TimedLoop.v: rpc (controller/src/controller.rs:1301-1316),
    tokio::time::sleep (controller.rs:299, 305, 588, 672) and the channel to the loop (controller.rs:147; lib.rs:331-333), which holds one
    request.  Times are in microseconds. *)
From Verif Require Export TimedCall.

(** Where a call is: about to take its next step since the time [since], asleep until [until], sending its request on the channel or having sent
    it, waiting for the reply to a request the loop has taken, or given up: its future was dropped. *)
Inductive cstage (A : Type) :=
| CReady (p : prog A) (since : N)
| CAsleep (p : prog A) (until : N)
| CQueued (id : N) (q : HostRequest) (data : option (list N)) (k : news -> prog A)
| CPending (k : news -> prog A)
| CGone.
Arguments CReady {A}. Arguments CAsleep {A}. Arguments CQueued {A}. Arguments CPending {A}. Arguments CGone {A}.

(** Who has the one place in the channel: the call [sl_call], whose request is in it if [sl_sent], since [sl_since].  A sender waits for the place
    and is given it in turn; it puts its request in when it is polled next (tokio's mpsc::Sender::send).  [sl_left]: the call was given up after that. *)
Record slot := mkSlot { sl_call : nat; sl_sent : bool; sl_since : N; sl_left : bool }.
(** [tcs_waiters]: the calls that wait for the place, the next one first.  [tcs_free]: when the loop last was done with a request. *)
Record timed_calls (A : Type) := mkTimedCalls
  { tcs_timed : timed; tcs_free : N; tcs_counter : N; tcs_slot : option slot; tcs_waiters : list nat; tcs_calls : list (cstage A) }.
Arguments mkTimedCalls {A}. Arguments tcs_timed {A}. Arguments tcs_free {A}. Arguments tcs_counter {A}. Arguments tcs_slot {A}.
Arguments tcs_waiters {A}. Arguments tcs_calls {A}.

(** The [i]-th call is polled, the loop takes a request out of the channel ([io]: it can be sent at once), something else happens to the loop, or the
    [i]-th call is given up, as by a time-out of the caller's. *)
Inductive occurrence := OcCall (i : nat) | OcTake (io : bool) | OcLoop (e : event) | OcDrop (i : nat).

(** What the calls from the [i]-th on make of what the loop did.  A reply goes to the call that made the request (its oneshot channel).  If the loop
    has ended, the channels are closed and [unwrap] and [expect] panic. *)
Definition runs (t : timed) : bool := match l_status (tm_loop t) with Running => true | _ => false end.
Fixpoint hears {A} (t : timed) (now : N) (out : list output) (i : nat) (l : list (cstage A)) : list (cstage A) :=
  match l with
  | [] => []
  | c :: r =>
      match c with
      | CPending k =>
          match answer_for (N.of_nat i) out with
          | Some x => CReady (heard k x) now
          | None => if runs t then c else CReady (Ret Panic) now
          end
      | CQueued _ _ _ _ => if runs t then c else CReady (Ret Panic) now
      | _ => c
      end :: hears t now out (S i) r
  end.
(** After the loop did [out] at [now]. *)
Definition then_calls {A} (now free counter : N) (r : timed * list output) (sl : option slot) (ws : list nat) (calls : list (cstage A)) : timed_calls A :=
  let (t, out) := r in
  if runs t then mkTimedCalls t free counter sl ws (hears t now out 0 calls)
  else mkTimedCalls t free counter None [] (hears t now out 0 calls).
(** The loop takes a request whose caller is gone (ioloop.rs:673-697): as [step] does, with [o_gone] set. *)
Definition take_left (t : timed) (now tag : N) (r : Rpc) (io : bool) : timed * list output :=
  let o := mkOut tag r 0 0 true in
  let (s, out) := send_outgoing_request (set_out (tm_loop t) (Some o)) o io in
  (mkTimed s (tm_period t) (if sent_request io out then now + tm_period t else tm_deadline t), OAccept tag r :: out).
(** The place is given to the next in line. *)
Definition next_slot (now : N) (ws : list nat) : option slot := match ws with [] => None | j :: _ => Some (mkSlot j false now false) end.
Definition calls_does {A} (c : timed_calls A) (now : N) (h : occurrence) : timed_calls A * list output :=
  let stay := (c, []) in
  let t := tcs_timed c in
  match h with
  | OcCall i =>
      let becomes counter sl ws st := (mkTimedCalls t (tcs_free c) counter sl ws (update i st (tcs_calls c)), []) in
      match nth_error (tcs_calls c) i with
      | Some (CReady (Ask q d k) since) =>
          if now <? since then stay else
          let id := tcs_counter c in
          let counter := (id + 1) mod 2 ^ 64 in
          if runs t then
            match tcs_slot c with
            | None => becomes counter (Some (mkSlot i true now false)) (tcs_waiters c) (CQueued id q d k)
            | Some s => becomes counter (Some s) (tcs_waiters c ++ [i]) (CQueued id q d k)
            end
          else becomes counter (tcs_slot c) (tcs_waiters c) (CReady (Ret Panic) now)
      | Some (CReady (Nap m p) since) =>
          if now <? since then stay else becomes (tcs_counter c) (tcs_slot c) (tcs_waiters c) (CAsleep p (now + m))
      | Some (CAsleep p until) =>
          if until <=? now then becomes (tcs_counter c) (tcs_slot c) (tcs_waiters c) (CReady p now) else stay
      | Some (CQueued id q d k) =>
          match tcs_slot c with
          | Some (mkSlot j false _ _) =>
              if Nat.eqb i j then becomes (tcs_counter c) (Some (mkSlot i true now false)) (tcs_waiters c) (CQueued id q d k) else stay
          | _ => stay
          end
      | _ => stay
      end
  | OcTake io =>
      (* ioloop.rs:673: only without an outstanding request *)
      match l_out (tm_loop t), tcs_slot c with
      | None, Some (mkSlot i true _ gone) =>
          match nth_error (tcs_calls c) i with
          | Some (CQueued id q d k) =>
              let r := if gone then take_left t now (N.of_nat i) (host_request id q d) io
                       else timed_step t now (EvRequest (N.of_nat i) (host_request id q d) io) in
              (then_calls now now (tcs_counter c) r (next_slot now (tcs_waiters c)) (tl (tcs_waiters c))
                 (update i (CPending k) (tcs_calls c)), snd r)
          | _ => stay
          end
      | _, _ => stay
      end
  | OcLoop e =>
      match e with
      | EvRequest _ _ _ | EvClosed | EvCallerGone => stay (* requests are taken from the channel; [OcDrop] is for calls given up *)
      | _ =>
          let r := timed_step t now e in
          let free := match l_out (tm_loop t), l_out (tm_loop (fst r)) with Some _, None => now | _, _ => tcs_free c end in
          (then_calls now free (tcs_counter c) r (tcs_slot c) (tcs_waiters c) (tcs_calls c), snd r)
      end
  | OcDrop i =>
      (* a request that is in the channel or with the loop stays there, with nobody to take the reply; the call is kept as waiting *)
      let gone sl ws := (mkTimedCalls t (tcs_free c) (tcs_counter c) sl ws (update i CGone (tcs_calls c)), []) in
      match nth_error (tcs_calls c) i with
      | None | Some CGone | Some (CReady (Ret _) _) => stay
      | Some (CReady _ _) | Some (CAsleep _ _) => gone (tcs_slot c) (tcs_waiters c)
      | Some (CQueued _ _ _ _) =>
          match tcs_slot c with
          | Some (mkSlot j sent since _ as s) =>
              if Nat.eqb i j then
                if sent then (mkTimedCalls t (tcs_free c) (tcs_counter c) (Some (mkSlot i true since true)) (tcs_waiters c) (tcs_calls c), [])
                else gone (next_slot now (tcs_waiters c)) (tl (tcs_waiters c))
              else gone (Some s) (filter (fun j => negb (Nat.eqb i j)) (tcs_waiters c))
          | None => stay
          end
      | Some (CPending _) =>
          (mkTimedCalls (fst (timed_step t now EvCallerGone)) (tcs_free c) (tcs_counter c) (tcs_slot c) (tcs_waiters c) (tcs_calls c), [])
      end
  end.
Definition calls_step {A} (c : timed_calls A) (now : N) (h : occurrence) : timed_calls A := fst (calls_does c now h).
Definition calls_run {A} (c : timed_calls A) (hs : list (N * occurrence)) : timed_calls A :=
  fold_left (fun c x => calls_step c (fst x) (snd x)) hs c.
Fixpoint calls_outputs {A} (c : timed_calls A) (hs : list (N * occurrence)) : list output :=
  match hs with
  | [] => []
  | (now, h) :: r => snd (calls_does c now h) ++ calls_outputs (calls_step c now h) r
  end.
(** The calls [ps], each made at its time. *)
Definition calls_new {A} (t : timed) (counter : N) (ps : list (prog A * N)) : timed_calls A :=
  mkTimedCalls t 0 counter None [] (map (fun x => CReady (fst x) (snd x)) ps).
