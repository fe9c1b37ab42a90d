(** Calls made at the same time: requests are taken in turn (C92). *)
From Coq Require Import Lia Sorted.
From Verif Require Export SpecCrowd.
From Verif Require Import Tac TimeProofs CostProofs ProgProofs DeadlineProofs ConcProofs CrowdProofs CrowdProofs2 CrowdProofs3.
Import ListNotations.
Open Scope N_scope.

Lemma taken_app a b : taken (a ++ b) = taken a ++ taken b.
Proof. apply flat_map_app. Qed.
Lemma answer_takes s o x : taken (snd (answer s o x)) = [].
Proof. unfold answer. now destruct (o_gone o). Qed.
Lemma send_takes s o io : taken (snd (send_outgoing_request s o io)) = [].
Proof.
  unfold send_outgoing_request. destruct (request_packet _); [|reflexivity]. destruct io; [reflexivity|].
  pose proof (answer_takes (set_out s None) o (Err EIo)) as X. unfold answer in *. now destruct (o_gone o).
Qed.
Lemma fail_takes s h e : taken (snd (fail_matching s h e)) = [].
Proof. unfold fail_matching. destruct (l_out s); [|reflexivity]. destruct (_ =? _); [apply answer_takes|reflexivity]. Qed.
Lemma step_takes s e : plain e = true -> taken (snd (step s e)) = [].
Proof.
  intro P. unfold step. destruct (l_status s); try reflexivity. destruct e as [tag r io| |io|hr io| |peer d io| |]; try discriminate P; try reflexivity.
  - unfold handle_tick. destruct (l_out s); [|reflexivity]. destruct (_ && _); [apply send_takes|]. destruct (_ <=? _); apply answer_takes.
  - destruct hr as [r| |]; try reflexivity. unfold send_outgoing_response. now destruct (Nat.leb _ _).
  - unfold handle_datagram. destruct (dec_header _) as [[h rx]|]; [|reflexivity]. destruct (h_kind h); try reflexivity.
    + unfold handle_sp_error. destruct (dec_message rx) as [[m rest]|]; [destruct (msg_body m)|]; try reflexivity; apply fail_takes.
    + unfold handle_sp_response. destruct (l_out s); [|reflexivity]. destruct (dec_message rx) as [[m rest]|].
      * destruct (msg_body m); try apply fail_takes. destruct (_ =? _); [apply answer_takes|reflexivity].
      * destruct rx; [reflexivity|apply fail_takes].
    + unfold handle_sp_request. destruct (dec_message rx) as [[m rest]|]; [|reflexivity]. now destruct (l_handler s).
Qed.
Lemma timed_takes t now e : plain e = true -> taken (snd (timed_step t now e)) = [].
Proof. intro P. destruct (timed_loop t now e) as [[_ ->]| ->]; [now apply step_takes|reflexivity]. Qed.
Lemma request_takes t now tag r io : forall g, In g (taken (snd (timed_step t now (EvRequest tag r io)))) -> g = tag.
Proof.
  intros g. destruct (timed_loop t now (EvRequest tag r io)) as [[_ ->]| ->]; [|intros []]. unfold step.
  destruct (l_status (tm_loop t)); try (now intros []). destruct (l_out (tm_loop t)); [now intros []|].
  pose proof (send_takes (set_out (tm_loop t) (Some (mkOut tag r 0 0 false))) (mkOut tag r 0 0 false) io) as X. cbv zeta.
  destruct (send_outgoing_request _ _ io) as [s outs]. cbn [snd] in *. change (taken (OAccept tag r :: outs)) with (tag :: taken outs). rewrite X. now intros [<-|[]].
Qed.

Lemma taking_takes t now tag r io b : forall g, In g (taken (snd (taking t now tag r io b))) -> g = tag.
Proof.
  unfold taking. destruct b; [|apply request_takes]. intro g. unfold take_left.
  pose proof (send_takes (set_out (tm_loop t) (Some (mkOut tag r 0 0 true))) (mkOut tag r 0 0 true) io) as X. cbv zeta.
  destruct (send_outgoing_request _ _ io) as [s outs]. cbn [snd] in *. change (taken (OAccept tag r :: outs)) with (tag :: taken outs). rewrite X. now intros [<-|[]].
Qed.
(** Everyone ahead of [i] in the line is not [j]. *)
Definition behind {A} (i j : nat) (c : timed_calls A) : Prop := exists a b, line c = a ++ i :: b /\ ~ In j a.
Lemma behind_step {A} i j (c : timed_calls A) now h : i <> j -> shape c -> behind i j c -> in_line i (calls_step c now h) ->
  behind i j (calls_step c now h) /\ ~ In (N.of_nat j) (taken (snd (calls_does c now h))).
Proof.
  intros Nij S (a & b & L & Na) Hi. pose proof (step_does c now h) as D. set (c2 := calls_step c now h) in *. clearbody c2.
  set (out := snd (calls_does c now h)) in *. clearbody out.
  destruct D as [|l q d k since sl n E Hs R1 c' Esl|l q d k since n E Hs R1|l m p' since E Hs|l p' until E Hs|l id q d k g b0 E Es|l s g id q d k io O Es E r|e P r
    |l y E Ny Hy|l id q d k g b0 E Es|l id q d k s E Es Ni|l id q d k g b0 E Es|l k E].
  - split; [now exists a, b|intros []].
  - split; [|intros []]. exists a, (b ++ [l]). split; [|exact Na]. subst sl. unfold c'. rewrite line_join by apply S. rewrite L, <- app_assoc. reflexivity.
  - split; [now exists a, b|intros []].
  - split; [now exists a, b|intros []].
  - split; [now exists a, b|intros []].
  - split; [|intros []]. exists a, b. split; [|exact Na]. rewrite <- L. unfold line. now rewrite Es.
  - set (c' := then_calls _ _ _ _ _ _ _) in *. assert (Lc : line c = l :: tcs_waiters c) by (unfold line; now rewrite Es).
    assert (Hr : runs (fst r) = true).
    { destruct Hi as (id' & q' & d' & k' & Hi). change (nth_call c' i = Some (CQueued id' q' d' k')) in Hi. unfold c' in Hi. thens.
      apply some_map in Hi. destruct Hi as (y & _ & Hy). now apply hears_queued in Hy. }
    assert (Lc' : line c' = tcs_waiters c) by (unfold line, c', next_slot; thens; rewrite Hr; now destruct (tcs_waiters c)).
    destruct a as [|y a].
    + (* [i] itself would be taken *)
      exfalso. rewrite Lc in L. injection L as -> _. destruct Hi as (id' & q' & d' & k' & Hi). change (nth_call c' i = Some (CQueued id' q' d' k')) in Hi.
      unfold c' in Hi. thens. rewrite nth_update, Nat.eqb_refl in Hi. apply some_map in Hi. destruct Hi as (y & Hy & Hz). apply hears_queued in Hz.
      destruct (nth_error (tcs_calls c) i); [|discriminate]. injection Hy as <-. destruct Hz. discriminate.
    + rewrite Lc in L. injection L as -> L. split.
      * exists a, b. split; [now rewrite Lc'|]. intro X. apply Na. now right.
      * intro X. apply taking_takes in X. apply Na. left. lia.
  - set (c' := then_calls _ _ _ _ _ _ _) in *.
    assert (Hr : runs (fst r) = true).
    { destruct Hi as (id' & q' & d' & k' & Hi). change (nth_call c' i = Some (CQueued id' q' d' k')) in Hi. unfold c' in Hi. thens.
      apply some_map in Hi. destruct Hi as (y & _ & Hy). now apply hears_queued in Hy. }
    split; [|unfold r; now rewrite timed_takes].
    exists a, b. split; [|exact Na]. rewrite <- L. unfold line, c'. thens. now rewrite Hr.
  - split; [now exists a, b|intros []].
  - split; [|intros []]. set (c' := mkTimedCalls _ _ _ _ _ _) in *.
    assert (U : nth_call c' i = if Nat.eqb l i then Some CGone else nth_call c i).
    { unfold nth_call, c'. cbn [tcs_calls]. rewrite nth_update. destruct (Nat.eqb_spec l i) as [<-|]; [|reflexivity]. unfold nth_call in E. now rewrite E. }
    destruct Hi as (id' & q' & d' & k' & Hi). change (nth_call c' i = Some (CQueued id' q' d' k')) in Hi. rewrite U in Hi.
    assert (Lc : line c = l :: tcs_waiters c) by (unfold line; now rewrite Es).
    assert (Lc' : line c' = tcs_waiters c) by (unfold line, c', next_slot; cbn [tcs_slot tcs_waiters]; now destruct (tcs_waiters c)).
    rewrite Lc in L. destruct a as [|y a]; [injection L as -> _; rewrite Nat.eqb_refl in Hi; discriminate|]. injection L as -> L.
    exists a, b. split; [now rewrite Lc'|]. intro X. apply Na. now right.
  - split; [|intros []]. set (c' := mkTimedCalls _ _ _ _ _ _) in *.
    assert (U : nth_call c' i = if Nat.eqb l i then Some CGone else nth_call c i).
    { unfold nth_call, c'. cbn [tcs_calls]. rewrite nth_update. destruct (Nat.eqb_spec l i) as [<-|]; [|reflexivity]. unfold nth_call in E. now rewrite E. }
    destruct Hi as (id' & q' & d' & k' & Hi). change (nth_call c' i = Some (CQueued id' q' d' k')) in Hi. rewrite U in Hi.
    assert (Lc' : line c' = filter (fun x => negb (Nat.eqb l x)) (line c)).
    { unfold line, c'. cbn [tcs_slot tcs_waiters]. rewrite Es. cbn [filter]. destruct (Nat.eqb_spec l (sl_call s)); [contradiction|reflexivity]. }
    destruct (Nat.eqb l i) eqn:Eli; [discriminate|].
    rewrite L in Lc'. rewrite filter_app in Lc'. cbn [filter] in Lc'. rewrite Eli in Lc'. cbn [negb] in Lc'.
    eexists _, _. split; [exact Lc'|]. intro X. apply filter_In in X. tauto.
  - split; [|intros []]. exists a, b. split; [|exact Na]. rewrite <- L. unfold line. now rewrite Es.
  - split; [|intros []]. now exists a, b.
Qed.
Lemma not_overtaken {A} n_retries interval t id (ps : list (prog A * N)) hs1 hs2 i j : idle_timed n_retries interval t ->
  let c := calls_run (calls_new t id ps) hs1 in
  in_line i c -> ~ in_line j c -> (forall hs hs', hs2 = hs ++ hs' -> in_line i (calls_run c hs)) ->
  ~ In (N.of_nat j) (taken (calls_outputs c hs2)).
Proof.
  intros I c Hi Hj H.
  assert (S : shape c) by (apply shape_run, shape_new; now apply (idle_out n_retries interval)).
  assert (Nij : i <> j) by (intros ->; contradiction).
  assert (B : behind i j c).
  { destruct Hi as (id' & q & d & k & Hi). pose proof (sh_queued c S i id' q d k Hi) as X. apply in_split in X. destruct X as (a & b & L).
    exists a, b. split; [exact L|]. intro X. apply Hj. apply (sh_in c S j). rewrite L. apply in_app_iff. now left. }
  clearbody c. clear Hi Hj. revert c S B H. induction hs2 as [|[now h] hs2 IH]; intros c S B H; [intros []|].
  pose proof (H [(now, h)] hs2 eq_refl) as H1. destruct (behind_step i j c now h Nij S B H1) as [B1 N1].
  cbn [calls_outputs]. rewrite taken_app, in_app_iff. intros [X|X]; [contradiction|]. revert X. apply IH; [now apply shape_step|exact B1|].
  intros hs hs' ->. exact (H ((now, h) :: hs) hs' eq_refl).
Qed.

Lemma crowd_all {A} t id (ps : list (prog A * N)) hs : crowd_most (N.of_nat (length ps)) (calls_new t id ps) hs.
Proof.
  intros hs1 hs2 _. unfold crowd.
  assert (Lr : forall hs (c : timed_calls A), length (tcs_calls (calls_run c hs)) = length (tcs_calls c)).
  { clear. intro hs. induction hs as [|[now h] hs IH]; intro c; [reflexivity|]. unfold calls_run in *. cbn [fold_left]. rewrite IH. apply calls_length. }
  assert (F : forall (f : cstage A -> bool) l, (length (filter f l) <= length l)%nat).
  { intros f l. induction l as [|x l IH]; cbn; [lia|]. destruct (f x); cbn; lia. }
  pose proof (F call_waits (tcs_calls (calls_run (calls_new t id ps) hs1))) as X. rewrite Lr in X. cbn in X. rewrite map_length in X. lia.
Qed.
