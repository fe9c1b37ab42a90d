(** Statement of C91: calls end in time. *)
From Verif Require Export TimedCall SpecTime SpecCost.

Definition ended {A} (c : timed_call A) : Prop := exists x at_, tc_stage c = Ready (Ret x) at_.
(** When something is due: the call's next step, the end of its sleep, or the loop's timer. *)
Definition due {A} (c : timed_call A) : N :=
  match tc_stage c with
  | Ready _ since => since
  | Asleep _ until => until
  | Pending _ _ => tm_deadline (tc_timed c)
  end.
(** Until the call has ended, whatever is due is served no later than [slack] after: nothing else happens then. *)
Definition punctual {A} (slack : N) (c0 : timed_call A) (hs : list (N * happening)) : Prop :=
  forall hs1 now h hs2, hs = hs1 ++ (now, h) :: hs2 ->
    let c := call_run c0 hs1 in ~ ended c -> now <= due c + slack.
(** Times do not decrease. *)
Fixpoint in_order (from : N) (hs : list (N * happening)) : Prop :=
  match hs with [] => True | (now, _) :: r => from <= now /\ in_order now r end.

(** How many pauses. *)
Definition naps (l : list done) : N := fold_right (fun x n => match x with DSleep _ => 1 + n | _ => n end) 0 l.
Definition pauses_most {St A} (c : ctl (St := St) A) (k : N) : Prop := forall w, naps (deeds c w) <= k.

(** A controller that has been used in any way and is idle. *)
Definition idle_timed (n_retries : option N) (interval : N) (t : timed) : Prop :=
  exists start t0 es, timed_new n_retries interval start = Ok t0 /\ t = fst (timed_run t0 es) /\ l_out (tm_loop t) = None.
(** The call [c], made at the time [start] on such a controller, has ended when anything happens later than [n] times
    the longest wait for a reply, its pauses [pause], and two slacks for each of the [k] pauses after [start]. *)
Definition in_time {A} (c : forall St, (St -> Rpc -> St * reply) -> ctl (St := St) A) (n pause k : N) : Prop :=
  (exists p, steps_of c p) /\
  forall p n_retries interval t id start slack hs now h, steps_of c p -> idle_timed n_retries interval t ->
    punctual slack (call_new t id p start) (hs ++ [(now, h)]) ->
    start + n * (slack + attempts n_retries * (interval + slack)) + pause + k * (2 * slack) < now ->
    ended (call_run (call_new t id p start) hs).

(** The replies among what the loop did. *)
Definition replies_of (out : list output) : list reply :=
  flat_map (fun o => match o with OReply _ x => [x] | _ => [] end) out.
