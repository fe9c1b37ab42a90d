(** C84: the pace of retries. *)
From Verif Require Import Config SpecTime TimeProofs PropsIo.
Import ListNotations.
Open Scope N_scope.

(** One request is not sent more often than once in an interval, whatever happens in between. *)
Theorem C84_pace : forall n_retries interval start t0 es h1 t1 g1 d1 h2 t2 g2 d2 h3,
  timed_new n_retries interval start = Ok t0 ->
  snd (timed_run t0 es) = h1 ++ (t1, OTx g1 d1) :: h2 ++ (t2, OTx g2 d2) :: h3 -> same_request h2 ->
  t1 + interval <= t2.
Proof. exact retries_paced. Qed.
Print Assumptions C84_pace.

(** A caller is told that all retries were used only after that many transmissions and intervals. *)
Theorem C84_patience : forall n_retries interval start t0 es h1 a tag r h2 t tag' k h3,
  timed_new n_retries interval start = Ok t0 ->
  snd (timed_run t0 es) = h1 ++ (a, OAccept tag r) :: h2 ++ (t, OReply tag' (Err (EMaxRetries k))) :: h3 ->
  same_request h2 ->
  tag' = tag /\ k = attempts n_retries /\ transmissions h2 = k /\ a + k * interval <= t.
Proof. exact gives_up_late. Qed.
Print Assumptions C84_patience.

(** If the timer is served within [slack] of its deadline, no request is still waiting longer than that
    many intervals and slacks. *)
Theorem C84_bound : forall n_retries interval start t0 slack es now e h1 a tag r h2 o,
  timed_new n_retries interval start = Ok t0 -> prompt slack t0 (es ++ [(now, e)]) ->
  snd (timed_run t0 es) = h1 ++ (a, OAccept tag r) :: h2 -> same_request h2 ->
  l_status (tm_loop (fst (timed_run t0 es))) = Running -> l_out (tm_loop (fst (timed_run t0 es))) = Some o ->
  now <= a + attempts n_retries * (interval + slack).
Proof. exact waits_no_longer. Qed.
Print Assumptions C84_bound.

(** The loop can be made for every interval but zero ... *)
Theorem C84_start : forall n_retries interval start,
  timed_new n_retries interval start = Panic <-> interval = 0.
Proof. exact starts. Qed.
Print Assumptions C84_start.
(** ... which a configuration may hold: "every configuration that can be built starts a controller" is
    false. *)
Theorem C84_start_refuted : exists ifs b c now,
  build ifs b = Ok c /\ timed_new (cf_n_retries c) (cf_retry_interval c) now = Panic.
Proof.
  exists (Some [mkIf [110] (Some (In6 [0xfe80; 0; 0; 0; 0; 0; 0; 1]))]), (set_retry_interval (builder_new [110]) 0).
  eexists. exists 0. split; reflexivity.
Qed.
Print Assumptions C84_start_refuted.

(** Two attempts, 100 apart: taken up at 5, sent again at 107, given up at 210. *)
Definition ex_times : list (N * event) :=
  [(5, EvRequest 3 (ex_request 8) true); (6, EvTick true); (107, EvTick true); (206, EvTick true); (210, EvTick true)].
Example C84_witness :
  match timed_new (Some 2) 100 0 with
  | Ok t0 =>
      map (fun x => (fst x, is_accept x, is_tx x)) (snd (timed_run t0 ex_times)) =
        [(5, true, false); (5, false, true); (107, false, true); (210, false, false)] /\
      nth 3 (map snd (snd (timed_run t0 ex_times))) OPanic = OReply 3 (Err (EMaxRetries 2)) /\
      map tm_deadline [fst (timed_run t0 (firstn 1 ex_times)); fst (timed_run t0 (firstn 3 ex_times))] = [105; 207] /\
      5 + attempts (Some 2) * (100 + 3) = 211
  | _ => False
  end.
Proof. vm_compute. auto. Qed.
Example C84_prompt_witness : forall t0, timed_new (Some 2) 100 0 = Ok t0 -> prompt 3 t0 ex_times.
Proof.
  intros t0 [= <-] es1 now e es2 E. unfold ex_times in E.
  do 5 (destruct es1 as [|x es1]; [injection E as <- <- <-; vm_compute; congruence|injection E as <- E]).
  destruct es1; discriminate.
Qed.
