(** Statement of C92: calls made at the same time end in time. *)
From Coq Require Import Sorted.
From Verif Require Export TimedCalls SpecDeadline.

Definition ended_call {A} (i : nat) (c : timed_calls A) : Prop := exists x at_, nth_error (tcs_calls c) i = Some (CReady (Ret x) at_).
(** When something is due: the next step of a call, the end of its sleep, its request once it has the place in the channel; the loop's timer while it
    has a request, and the request in the channel when it has none. *)
Definition call_due {A} (c : timed_calls A) (i : nat) : list N :=
  match nth_error (tcs_calls c) i with
  | Some (CReady (Ret _) _) => []
  | Some (CReady _ since) => [since]
  | Some (CAsleep _ until) => [until]
  | Some (CQueued _ _ _ _) =>
      match tcs_slot c with Some s => if Nat.eqb (sl_call s) i && negb (sl_sent s) then [sl_since s] else [] | None => [] end
  | _ => []
  end.
Definition loop_due {A} (c : timed_calls A) : list N :=
  match l_status (tm_loop (tcs_timed c)), l_out (tm_loop (tcs_timed c)), tcs_slot c with
  | Running, Some _, _ => [tm_deadline (tcs_timed c)]
  | Running, None, Some s => if sl_sent s then [N.max (sl_since s) (tcs_free c)] else []
  | _, _, _ => []
  end.
Definition all_due {A} (c : timed_calls A) : list N := flat_map (call_due c) (seq 0 (length (tcs_calls c))) ++ loop_due c.
(** Whatever is due is served no later than [slack] after: nothing else happens then. *)
Definition on_time {A} (slack : N) (c : timed_calls A) (now : N) : Prop := Forall (fun d => now <= d + slack) (all_due c).
Definition all_punctual {A} (slack : N) (c0 : timed_calls A) (hs : list (N * occurrence)) : Prop :=
  forall hs1 now h hs2, hs = hs1 ++ (now, h) :: hs2 -> on_time slack (calls_run c0 hs1) now.
(** Times do not decrease. *)
Definition goes_forward (hs : list (N * occurrence)) : Prop := StronglySorted N.le (map fst hs).

(** How many calls wait for a reply: their requests are in the channel, wait for it, or are with the loop. *)
Definition call_waits {A} (c : cstage A) : bool := match c with CQueued _ _ _ _ | CPending _ => true | _ => false end.
Definition crowd {A} (c : timed_calls A) : N := N.of_nat (length (filter call_waits (tcs_calls c))).
Definition crowd_most {A} (w : N) (c0 : timed_calls A) (hs : list (N * occurrence)) : Prop :=
  forall hs1 hs2, hs = hs1 ++ hs2 -> crowd (calls_run c0 hs1) <= w.

(** The [i]-th call is given up. *)
Definition given_up (i : nat) (hs : list (N * occurrence)) : Prop := In (OcDrop i) (map snd hs).
(** The call [c] made at the time [start] and not given up, among any others, which may be, of which never more than [w] wait for a reply at a time, has ended when anything happens
    later than this: each request waits for its turn and is then answered or given up. *)
Definition in_time_among {A} (c : forall St, (St -> Rpc -> St * reply) -> ctl (St := St) A) (n pause k : N) : Prop :=
  (exists p, steps_of c p) /\
  forall p n_retries interval t id ps i start slack w hs now h, steps_of c p -> idle_timed n_retries interval t ->
    nth_error ps i = Some (p, start) -> goes_forward (hs ++ [(now, h)]) ->
    all_punctual slack (calls_new t id ps) (hs ++ [(now, h)]) -> ~ given_up i hs -> crowd_most w (calls_new t id ps) hs ->
    start + n * (2 * slack + w * (slack + attempts n_retries * (interval + slack))) + pause + k * (2 * slack) < now ->
    ended_call i (calls_run (calls_new t id ps) hs).

(** The replies the loop gave to the [i]-th call. *)
Definition replies_to (i : nat) (out : list output) : list reply :=
  flat_map (fun o => match o with OReply tag x => if tag =? N.of_nat i then [x] else [] | _ => [] end) out.

(** The request of the [i]-th call waits to be taken by the loop. *)
Definition in_line {A} (i : nat) (c : timed_calls A) : Prop := exists id q d k, nth_error (tcs_calls c) i = Some (CQueued id q d k).
(** The requests the loop took: whose they are. *)
Definition taken (out : list output) : list N := flat_map (fun o => match o with OAccept tag _ => [tag] | _ => [] end) out.
