(** Calls end in time beside a handler of SP requests (C95). *)
From Coq Require Import Lia Sorted.
From Verif Require Export SpecBeside.
From Verif Require Import Tac TimeProofs DuplexProofs DeadlineProofs CrowdProofs.
Import ListNotations.
Open Scope N_scope.

(** ** What the loop has to do is due no earlier than before *)
Definition ld (t : timed) (free : N) (sl : option slot) : list N :=
  match l_status (tm_loop t), l_out (tm_loop t), sl with
  | Running, Some _, _ => [tm_deadline t]
  | Running, None, Some s => if sl_sent s then [N.max (sl_since s) free] else []
  | _, _, _ => []
  end.
Lemma ld_due {A} (c : timed_calls A) : loop_due c = ld (tcs_timed c) (tcs_free c) (tcs_slot c).
Proof. reflexivity. Qed.
Definition later (now : N) (a b : list N) : Prop := forall d, In d b -> now <= d \/ exists d0, In d0 a /\ d0 <= d.
Lemma later_same now a : later now a a.
Proof. intros d H. right. exists d. split; [exact H|lia]. Qed.
Lemma later_none now a : later now a [].
Proof. intros d []. Qed.
Lemma ld_stopped t free sl : l_status (tm_loop t) <> Running -> ld t free sl = [].
Proof. unfold ld. destruct (l_status (tm_loop t)); congruence. Qed.
Lemma later_then {A} now free counter r sl ws (calls : list (cstage A)) a :
  later now a (ld (fst r) free sl) -> later now a (loop_due (then_calls now free counter r sl ws calls)).
Proof.
  intro H. unfold then_calls. destruct r as [t out]. cbn [fst] in H. destruct (runs t) eqn:R; rewrite ld_due; cbn [tcs_timed tcs_free tcs_slot]; [exact H|].
  rewrite ld_stopped; [apply later_none|]. intro E. unfold runs in R. now rewrite E in R.
Qed.

Lemma send_due now period deadline s o io free ws a : let r := send_outgoing_request s o io in
  later now a (ld (mkTimed (fst r) period (if sent_request io (snd r) then now + period else deadline)) free (next_slot now ws)).
Proof.
  cbv zeta. unfold send_outgoing_request. destruct (request_packet (o_request o)) as [p|].
  2: { cbn. intros d []. }
  destruct io.
  - intros d H. left. cbn in H. unfold ld in H. cbn in H. destruct (l_status s); cbn in H; [|contradiction..]. destruct H as [<-|[]]. lia.
  - unfold answer. destruct (o_gone o); unfold ld; cbn; [intros d []|].
    destruct (l_status s); cbn; try (intros d []). destruct ws; cbn; intros d [].
Qed.
Lemma take_due t now id r io ws a free : l_out (tm_loop t) = None ->
  later now a (ld (fst (timed_step t now (EvRequest id r io))) free (next_slot now ws)).
Proof.
  intro H. unfold timed_step, step. destruct (l_status (tm_loop t)) eqn:S.
  2-3: rewrite ld_stopped; [apply later_none|cbn; congruence].
  rewrite H.
  pose proof (send_due now (tm_period t) (tm_deadline t) (set_out (tm_loop t) (Some (mkOut id r 0 0 false))) (mkOut id r 0 0 false) io free ws a) as D.
  cbv zeta in D. destruct (send_outgoing_request _ _ io) as [s out]. exact D.
Qed.
Lemma left_due t now tag r io ws a free : later now a (ld (fst (take_left t now tag r io)) free (next_slot now ws)).
Proof.
  unfold take_left.
  pose proof (send_due now (tm_period t) (tm_deadline t) (set_out (tm_loop t) (Some (mkOut tag r 0 0 true))) (mkOut tag r 0 0 true) io free ws a) as D.
  cbv zeta in D. destruct (send_outgoing_request _ _ io) as [s out]. exact D.
Qed.
Lemma event_due t now e free sl : (forall tag r io, e <> EvRequest tag r io) ->
  later now (ld t free sl)
    (ld (fst (timed_step t now e)) (match l_out (tm_loop t), l_out (tm_loop (fst (timed_step t now e))) with Some _, None => now | _, _ => free end) sl).
Proof.
  intros He. destruct (l_status (tm_loop t)) eqn:S.
  2-3: assert (X : l_status (tm_loop (fst (timed_step t now e))) <> Running);
    [destruct (timed_loop t now e) as [[-> _]| ->]; [rewrite step_stopped by congruence|]; cbn; congruence|rewrite (ld_stopped _ _ _ X); apply later_none].
  set (t' := fst (timed_step t now e)). destruct (l_status (tm_loop t')) eqn:S'.
  2-3: rewrite (ld_stopped t') by congruence; apply later_none.
  destruct (l_out (tm_loop t)) as [o|] eqn:O.
  - destruct (l_out (tm_loop t')) as [o'|] eqn:O'.
    + destruct (waits_on t now e o o' (conj S O) (conj S' O') He) as (_ & D). fold t' in D.
      unfold ld. rewrite S, S', O, O'. intros d [<-|[]]. destruct D as [[_ ->]|(_ & _ & ->)]; [right; exists (tm_deadline t); split; [now left|lia]|left; lia].
    + unfold ld. rewrite S', O'. destruct sl as [s|]; [|apply later_none]. destruct (sl_sent s); [|apply later_none]. intros d [<-|[]]. left. lia.
  - destruct (timed_idle t now e (fun _ => O) He) as [O' _]. fold t' in O'. specialize (O' S').
    unfold ld. rewrite S, S', O, O'. apply later_same.
Qed.
Lemma gone_due t now free sl : later now (ld t free sl) (ld (fst (timed_step t now EvCallerGone)) free sl).
Proof.
  pose proof (event_due t now EvCallerGone free sl ltac:(discriminate)) as H.
  destruct (l_out (tm_loop t)) as [o|] eqn:O; [|exact H].
  replace (match l_out (tm_loop (fst (timed_step t now EvCallerGone))) with Some _ => free | None => now end) with free in H; [exact H|].
  unfold timed_step, step. destruct (l_status (tm_loop t)); rewrite ?O; cbn; now rewrite ?O.
Qed.
Lemma due_grows {A} (c : timed_calls A) now h : later now (loop_due c) (loop_due (calls_step c now h)).
Proof.
  unfold calls_step. destruct h as [i|io|e|i]; cbn [calls_does].
  - destruct (nth_error (tcs_calls c) i) as [[[x|q d k|m p] since|p u|id q d k|k|]|]; try apply later_same.
    + destruct (now <? since); [apply later_same|]. destruct (runs (tcs_timed c)); [|apply later_same].
      destruct (tcs_slot c) as [s|] eqn:Sl; rewrite !ld_due; cbn [fst tcs_timed tcs_free tcs_slot]; rewrite ?Sl; [apply later_same|].
      unfold ld. destruct (l_status _); try apply later_none. destruct (l_out _); [apply later_same|]. cbn. intros d' [<-|[]]. left. lia.
    + destruct (now <? since); apply later_same.
    + destruct (u <=? now); apply later_same.
    + destruct (tcs_slot c) as [[j [] since lf]|] eqn:Sl; try apply later_same. destruct (Nat.eqb i j); [|apply later_same].
      rewrite !ld_due. cbn [fst tcs_timed tcs_free tcs_slot]. rewrite Sl. unfold ld.
      destruct (l_status _); try apply later_none. destruct (l_out _); [apply later_same|]. cbn. intros d' [<-|[]]. left. lia.
  - destruct (l_out (tm_loop (tcs_timed c))) eqn:O; [apply later_same|].
    destruct (tcs_slot c) as [[i [] since lf]|]; try apply later_same.
    destruct (nth_error (tcs_calls c) i) as [[|p u|id q d k|k|]|]; try apply later_same. cbn [fst]. apply later_then.
    destruct lf; [apply left_due|now apply take_due].
  - destruct e; try apply later_same; cbn [fst]; apply later_then, event_due; discriminate.
  - destruct (nth_error (tcs_calls c) i) as [[[x|q d k|m p] since|p u|id q d k|k|]|]; try apply later_same.
    + destruct (tcs_slot c) as [[j sent since lf]|] eqn:Sl; [|apply later_same]. destruct (Nat.eqb i j); [destruct sent|];
        rewrite !ld_due; cbn [fst tcs_timed tcs_free tcs_slot]; rewrite Sl; try apply later_same.
      unfold ld. destruct (l_status _); try apply later_none. destruct (l_out _); [apply later_same|].
      cbn. destruct (tcs_waiters c); cbn; apply later_none.
    + rewrite !ld_due. cbn [fst tcs_timed tcs_free tcs_slot]. apply gone_due.
Qed.

(** ** Only a datagram hands a request over *)
Lemma none_dispatch os : dispatched os = [] -> dispatch_of os = None.
Proof.
  intro H. unfold dispatch_of. destruct (find _ os) as [o|] eqn:F; [|reflexivity].
  destruct (find_some _ _ F) as [I B]; destruct o; try discriminate B.
  assert (In r (dispatched os)) by (apply in_flat_map; exists (ODispatch r); split; [exact I|now left]). rewrite H in *; contradiction.
Qed.
Lemma quiet_step s e : (forall p d io, e <> EvDatagram p d io) -> dispatched (snd (step s e)) = [].
Proof.
  intro He. unfold step. destruct (l_status s); try reflexivity. destruct e as [tag r io| |io|hr io| |peer dg io| |]; try (destruct (l_out s); reflexivity).
  - destruct (l_out s); [reflexivity|]. destruct (send_outgoing_request _ _ io) as [s1 o1] eqn:E. exact (send_silent _ _ _ _ _ E).
  - unfold handle_tick. destruct (l_out s) as [o|]; [|reflexivity].
    destruct (_ && _); [destruct (send_outgoing_request s o io) as [s1 o1] eqn:E; exact (send_silent _ _ _ _ _ E)|].
    destruct (_ <=? _); unfold answer; destruct (o_gone o); reflexivity.
  - destruct hr; try reflexivity. unfold send_outgoing_response. destruct (Nat.leb _ _); reflexivity.
  - now destruct (He peer dg io).
Qed.
Lemma quiet_timed t now e : (forall p d io, e <> EvDatagram p d io) -> dispatched (snd (timed_step t now e)) = [].
Proof. intro He. destruct (timed_loop t now e) as [[_ ->]| ->]; [now apply quiet_step|reflexivity]. Qed.
Lemma quiet_calls {A} (c : timed_calls A) now h : (forall p d io, h <> OcLoop (EvDatagram p d io)) -> dispatched (snd (calls_does c now h)) = [].
Proof.
  intro Hh. destruct h as [i|io|e|i]; cbn [calls_does].
  - destruct (nth_error (tcs_calls c) i) as [[[x|q d k|m p] since|p u|id q d k|k|]|]; try reflexivity;
      repeat match goal with |- context [if ?b then _ else _] => destruct b end; try reflexivity;
      destruct (tcs_slot c) as [[j [] since' lf]|]; try reflexivity; destruct (Nat.eqb i j); reflexivity.
  - destruct (l_out (tm_loop (tcs_timed c))); [reflexivity|]. destruct (tcs_slot c) as [[i [] since lf]|]; try reflexivity.
    destruct (nth_error (tcs_calls c) i) as [[|p u|id q d k|k|]|]; try reflexivity. cbn [snd].
    destruct lf; [|now apply quiet_timed]. unfold take_left.
    destruct (send_outgoing_request _ _ io) as [s1 o1] eqn:E. exact (send_silent _ _ _ _ _ E).
  - destruct e; try reflexivity; cbn [snd]; apply quiet_timed; try discriminate. intros p d0 io0 [= -> -> ->]. now apply (Hh p d0 io0).
  - destruct (nth_error (tcs_calls c) i) as [[[x|q d k|m p] since|p u|id q d k|k|]|]; try reflexivity.
    destruct (tcs_slot c) as [[j sent since lf]|]; [|reflexivity]. destruct (Nat.eqb i j); [destruct sent|]; reflexivity.
Qed.
