(** Statement of C84: the pace of retries. *)
From Verif Require Export TimedLoop.

Definition is_accept (x : N * output) : bool := match snd x with OAccept _ _ => true | _ => false end.
Definition is_tx (x : N * output) : bool := match snd x with OTx _ _ => true | _ => false end.
(** No request is taken up in this part of a trace. *)
Definition same_request (h : list (N * output)) : Prop := Forall (fun x => is_accept x = false) h.
Definition transmissions (h : list (N * output)) : N := N.of_nat (length (filter is_tx h)).

(** The timer is served no later than [slack] after its deadline: nothing else is done then while a
    request is waiting. *)
Definition prompt (slack : N) (t0 : timed) (es : list (N * event)) : Prop :=
  forall es1 now e es2, es = es1 ++ (now, e) :: es2 ->
    let t := fst (timed_run t0 es1) in
    l_out (tm_loop t) <> None -> now <= tm_deadline t + slack.
(** How often a request may be sent. *)
Definition attempts (n_retries : option N) : N :=
  match n_retries with Some n => N.max 1 n | None => 2 ^ 64 - 1 end.
