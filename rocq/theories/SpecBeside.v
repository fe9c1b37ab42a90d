(** Statement of C95: calls end in time beside a handler of SP requests. *)
From Coq Require Import Sorted.
From Verif Require Export Beside SpecCrowd SpecDuplex.

(** Each waits for the other: the loop for room on the way in, the handler for room on the way back. *)
Definition jammed {A} (hd : handler) (c : beside A) : Prop :=
  bs_wait c <> None /\ bs_reply c <> None /\ (hd_in hd <= length (bs_in c))%nat /\ (hd_out hd <= length (bs_out c))%nat.
Definition never_jammed {A} (hd : handler) (c0 : beside A) (hs : list (N * happens)) : Prop :=
  forall hs1 hs2, hs = hs1 ++ hs2 -> ~ jammed hd (beside_run hd c0 hs1).

(** A call's next step is served no later than [slack] after it is due.  So is what the loop has to do, or, if the loop waited then, no later than [slack]
    after that; and when it has been due for longer than [slack], the loop takes no datagram before it.  While the loop waits and the two are not jammed,
    the next step of the handler, or the loop's return, takes no longer than [lag]. *)
Definition is_gram (h : happens) : Prop := exists peer d io, h = HpCalls (OcLoop (EvDatagram peer d io)).
Definition served_by {A} (slack lag : N) (hd : handler) (c : beside A) (now : N) (h : happens) : Prop :=
  (forall i d, In d (call_due (bs_calls c) i) -> now <= d + slack) /\
  (bs_wait c = None -> forall d, In d (loop_due (bs_calls c)) -> now <= N.max d (bs_freed c) + slack /\ (is_gram h -> now <= d + slack)) /\
  (bs_wait c <> None -> ~ jammed hd c -> now <= bs_last c + lag).
Definition all_served {A} (slack lag : N) (hd : handler) (c0 : beside A) (hs : list (N * happens)) : Prop :=
  forall hs1 now h hs2, hs = hs1 ++ (now, h) :: hs2 -> served_by slack lag hd (beside_run hd c0 hs1) now h.
(** Times do not decrease. *)
Definition forward (hs : list (N * happens)) : Prop := StronglySorted N.le (map fst hs).
Definition dropped (i : nat) (hs : list (N * happens)) : Prop := In (HpCalls (OcDrop i)) (map snd hs).
Definition most_wait {A} (w : N) (hd : handler) (c0 : beside A) (hs : list (N * happens)) : Prop :=
  forall hs1 hs2, hs = hs1 ++ hs2 -> crowd (bs_calls (beside_run hd c0 hs1)) <= w.

(** As [in_time_among], with the requests the SP sends handled by [hd]. *)
Definition in_time_beside {A} (c : forall St, (St -> Rpc -> St * reply) -> ctl (St := St) A) (n pause k : N) : Prop :=
  (exists p, steps_of c p) /\
  forall p n_retries interval t id ps i start slack lag w hd ins busy outs hs now h, steps_of c p -> idle_timed n_retries interval t ->
    nth_error ps i = Some (p, start) -> (length ins <= hd_in hd)%nat -> forward (hs ++ [(now, h)]) -> let b := beside_new t id ps ins busy outs in
    all_served slack lag hd b (hs ++ [(now, h)]) -> never_jammed hd b hs -> ~ dropped i hs -> most_wait w hd b hs ->
    let late := 2 * slack + 3 * lag in
    start + n * (2 * late + w * (late + attempts n_retries * (interval + late))) + pause + k * (2 * late) < now ->
    ended_call i (bs_calls (beside_run hd b hs)).

(** The loop takes the handler's replies before any datagram. *)
Definition replies_first {A} (hd : handler) (c0 : beside A) (hs : list (N * happens)) : Prop :=
  forall hs1 now h hs2, hs = hs1 ++ (now, h) :: hs2 -> is_gram h -> bs_wait (beside_run hd c0 hs1) = None -> bs_out (beside_run hd c0 hs1) = [].
(** The [i]-th call waits for a reply. *)
Definition still_waits {A} (i : nat) (c : timed_calls A) : Prop := exists st, nth_error (tcs_calls c) i = Some st /\ call_waits st = true.
(** The loop and the handler alone, as in C90. *)
Definition as_duplex {A} (b : beside A) : duplex := mkDuplex (tm_loop (tcs_timed (bs_calls b))) (bs_in b) (bs_wait b) (bs_reply b) (bs_out b).
