(** Calls end in time (C91). *)
From Coq Require Import Lia.
From Verif Require Export SpecDeadline.
From Verif Require Import Tac TimeProofs CostProofs ProgProofs.
Import ListNotations.
Open Scope N_scope.

(** ** The loop with a request *)
Lemma reply_app id a b : answer_for id (a ++ b) = match answer_for id a with Some x => Some x | None => answer_for id b end.
Proof. induction a as [|[] a IH]; cbn; try assumption; [reflexivity|]. destruct (tag =? id); [reflexivity|exact IH]. Qed.

(** What becomes of an outstanding request: it waits on, or its caller hears of it, or the loop ends. *)
Definition silent (tag : N) (out : list output) : Prop := answer_for tag out = None /\ replies_of out = [].
Definition tells (tag : N) (out : list output) (x : reply) : Prop := answer_for tag out = Some x /\ replies_of out = [x].
Definition goes_on (s : loop) (o : Outstanding) (r : loop * list output) : Prop :=
  (exists o', waiting (fst r) o' /\ o_tag o' = o_tag o /\ o_gone o' = o_gone o /\ silent (o_tag o) (snd r)) \/
  (exists x, tells (o_tag o) (snd r) x /\ l_out (fst r) = None) \/
  (l_status (fst r) <> Running /\ silent (o_tag o) (snd r)).
Lemma goes_same s o out : waiting s o -> silent (o_tag o) out -> goes_on s o (s, out).
Proof. intros H K. left. exists o. now repeat split; try apply H; try apply K. Qed.
Lemma goes_crash s o s1 : goes_on s o (crash s1, [OPanic]).
Proof. right. right. now repeat split. Qed.
Lemma goes_answer s s1 o x : goes_on s o (answer s1 o x).
Proof.
  unfold answer. destruct (o_gone o); [apply goes_crash|]. right. left. exists x. unfold tells. cbn. now rewrite N.eqb_refl.
Qed.
Lemma goes_increment s o out : waiting s o -> silent (o_tag o) out -> goes_on s o (increment_faulty s, out).
Proof.
  intros [H1 H2] K. left. unfold increment_faulty. rewrite H2. eexists. split; [split; [exact H1|reflexivity]|]. now repeat split; try apply K.
Qed.
Lemma goes_fail s o h e : waiting s o -> goes_on s o (fail_matching s h e).
Proof.
  intro H. unfold fail_matching. rewrite (proj2 H). destruct (_ =? _); [apply goes_answer|now apply goes_same].
Qed.
Lemma goes_fail_increment s o h e : waiting s o -> goes_on s o (fail_matching (increment_faulty s) h e).
Proof.
  intros [H1 H2]. unfold fail_matching, increment_faulty. rewrite H2. cbn [l_out set_out o_request]. destruct (_ =? _).
  - exact (goes_answer s _ (mkOut (o_tag o) (o_request o) (o_retries o) (o_errors o + 1) (o_gone o)) _).
  - left. eexists. split; [split; [exact H1|reflexivity]|]. now repeat split.
Qed.
Lemma goes_datagram s o peer d : waiting s o -> goes_on s o (handle_datagram s peer d).
Proof.
  intro H. unfold handle_datagram. destruct (dec_header _) as [[h rx]|]; [|now apply goes_increment].
  destruct (h_kind h); try (now apply goes_increment).
  - unfold handle_sp_error. destruct (dec_message rx) as [[m rest]|]; [|now apply goes_fail_increment].
    destruct (msg_body m); first [now apply goes_fail_increment|now apply goes_increment].
  - unfold handle_sp_response. rewrite (proj2 H). destruct (dec_message rx) as [[m rest]|].
    + destruct (msg_body m); try (now apply goes_fail). destruct (_ =? _); [apply goes_answer|now apply goes_same].
    + destruct rx as [|v rx]; [apply goes_crash|now apply goes_fail_increment].
  - unfold handle_sp_request. destruct (dec_message rx) as [[m rest]|]; [|now apply goes_same].
    destruct (l_handler s); [now apply goes_same|apply goes_crash].
Qed.
(** The request is over, with an error or the loop. *)
Definition fails_now (tag : N) (r : loop * list output) : Prop :=
  (exists e, tells tag (snd r) (Err e) /\ l_out (fst r) = None) \/ (l_status (fst r) <> Running /\ silent tag (snd r)).
Lemma fails_answer s o e : fails_now (o_tag o) (answer s o (Err e)).
Proof.
  unfold answer. destruct (o_gone o); [right; now repeat split|]. left. exists e. unfold tells. cbn. now rewrite N.eqb_refl.
Qed.
Lemma goes_send s s1 o io : l_status s1 = Running -> goes_on s o (send_outgoing_request s1 o io) /\
  (io = false -> fails_now (o_tag o) (send_outgoing_request s1 o io)).
Proof.
  intro H. unfold send_outgoing_request. destruct (request_packet (o_request o)) as [p|].
  2: { split; [apply goes_crash|]. intros _. right. now repeat split. }
  destruct io.
  - split; [|discriminate]. left. eexists. split; [split; [exact H|reflexivity]|]. now repeat split.
  - unfold answer. destruct (o_gone o).
    + split; [right; right; now repeat split|]. intros _. right. now repeat split.
    + unfold goes_on, fails_now, tells. cbn. rewrite N.eqb_refl. split; [right; left; now exists (Err EIo)|]. intros _. left. now exists EIo.
Qed.
Lemma goes_tick s o io : waiting s o -> goes_on s o (handle_tick s io) /\ (io = false -> fails_now (o_tag o) (handle_tick s io)).
Proof.
  intros [H1 H2]. unfold handle_tick. rewrite H2.
  destruct (_ && _); [now apply goes_send|]. destruct (_ <=? _); (split; [apply goes_answer|intros _; apply fails_answer]).
Qed.
Lemma goes_step s o e : waiting s o -> e <> EvCallerGone -> goes_on s o (step s e).
Proof.
  intros H He. unfold step. rewrite (proj1 H). destruct e as [tag r io| |io|hr io| |peer d io| |]; rewrite ?(proj2 H).
  - now apply goes_same.
  - now apply goes_same.
  - now apply goes_tick.
  - destruct hr as [r| |]; try (now apply goes_same). unfold send_outgoing_response. destruct (Nat.leb _ _); [now apply goes_same|apply goes_crash].
  - now apply goes_increment.
  - now apply goes_datagram.
  - congruence.
  - left. exists o. split; [now split|]. now repeat split.
Qed.
Lemma idle_step s e : (l_status s = Running -> l_out s = None) -> (forall tag r io, e <> EvRequest tag r io) ->
  (l_status (fst (step s e)) = Running -> l_out (fst (step s e)) = None) /\ replies_of (snd (step s e)) = [].
Proof.
  intros H He. unfold step. destruct (l_status s) eqn:S; [|cbn; split; [congruence|reflexivity]..]. specialize (H eq_refl).
  destruct e as [tag r io| |io|hr io| |peer d io| |]; rewrite ?H; try (cbn; split; [congruence|reflexivity]).
  - now destruct (He tag r io).
  - unfold handle_tick. now rewrite H.
  - destruct hr as [r| |]; try (cbn; split; [congruence|reflexivity]). unfold send_outgoing_response.
    destruct (Nat.leb _ _); cbn; (split; [congruence|reflexivity]).
  - unfold increment_faulty. rewrite H. now split.
  - assert (I : increment_faulty s = s) by (unfold increment_faulty; now rewrite H).
    assert (F : forall h e, fail_matching s h e = (s, [])) by (intros; unfold fail_matching; now rewrite H).
    unfold handle_datagram. rewrite I. destruct (dec_header _) as [[h rx]|]; [|cbn; split; [congruence|reflexivity]].
    destruct (h_kind h); try (cbn; split; [congruence|reflexivity]).
    + unfold handle_sp_error. rewrite I.
      destruct (dec_message rx) as [[m rest]|]; [destruct (msg_body m)|]; rewrite ?F; cbn; (split; [congruence|reflexivity]).
    + unfold handle_sp_response. rewrite H. cbn. split; [congruence|reflexivity].
    + unfold handle_sp_request. destruct (dec_message rx) as [[m rest]|]; [destruct (l_handler s)|]; cbn; (split; [congruence|reflexivity]).
Qed.

(** The same with the timer. *)
Lemma timed_loop t now e : tm_loop (fst (timed_step t now e)) = fst (step (tm_loop t) e) /\ snd (timed_step t now e) = snd (step (tm_loop t) e) \/
  timed_step t now e = (t, []).
Proof.
  unfold timed_step. destruct e; try (left; destruct (step (tm_loop t) _); now split).
  destruct (l_out (tm_loop t)); [|now right]. destruct (now <? tm_deadline t); [now right|].
  left. destruct (step (tm_loop t) _). now split.
Qed.
Lemma timed_goes t now e o : waiting (tm_loop t) o -> e <> EvCallerGone ->
  goes_on (tm_loop t) o (tm_loop (fst (timed_step t now e)), snd (timed_step t now e)).
Proof.
  intros H He. destruct (timed_loop t now e) as [[-> ->]| ->]; [|now apply goes_same].
  rewrite <- surjective_pairing. now apply goes_step.
Qed.
Lemma timed_idle t now e : (l_status (tm_loop t) = Running -> l_out (tm_loop t) = None) -> (forall tag r io, e <> EvRequest tag r io) ->
  (l_status (tm_loop (fst (timed_step t now e))) = Running -> l_out (tm_loop (fst (timed_step t now e))) = None) /\
  replies_of (snd (timed_step t now e)) = [].
Proof. intros H He. destruct (timed_loop t now e) as [[-> ->]| ->]; [now apply idle_step|now split]. Qed.

(** A request that waits on keeps its deadline or was sent again. *)
Lemma waits_on t now e o o' : waiting (tm_loop t) o -> waiting (tm_loop (fst (timed_step t now e))) o' ->
  (forall tag r io, e <> EvRequest tag r io) ->
  tm_period (fst (timed_step t now e)) = tm_period t /\
  (o_retries o' = o_retries o /\ tm_deadline (fst (timed_step t now e)) = tm_deadline t \/
   o_retries o' = o_retries o + 1 /\ o_retries o < l_limit (tm_loop t) /\
     tm_deadline (fst (timed_step t now e)) = now + tm_period t).
Proof.
  intros H H' He. destruct (timed_did t now e) as [D _].
  destruct (timed_step t now e) as [t' out]. cbn [fst snd] in *.
  inversion D as [tag r s p Hn Hw|tag r s d out' Hn Hw Q|tag r s d p out' Hn Hw Q|s o1 o2 p Ho Hd Hl Hw Ht Hr
                 |s d o1 p out' Ho Hd Hl Hw Q|s d o1 Ho Hd Hl Hw|s d out' Q Hw]; subst t' out; cbn [tm_loop tm_period tm_deadline] in *.
  - destruct H as [_ H]. congruence.
  - now apply Hw in H'.
  - now apply Hw in H'.
  - assert (o1 = o) by (destruct H, Ho; congruence). assert (o2 = o') by (destruct H', Hw; congruence). subst.
    split; [reflexivity|]. right. now repeat split.
  - now apply Hw in H'.
  - now apply Hw in H'.
  - destruct (Hw o' H') as (-> & o1 & Ho & _ & Hr). assert (o1 = o) by (destruct H, Ho; congruence). subst.
    split; [reflexivity|]. left. now split.
Qed.
Lemma taken_up t now id r io : l_status (tm_loop t) = Running -> l_out (tm_loop t) = None ->
  let t' := fst (timed_step t now (EvRequest id r io)) in let out := snd (timed_step t now (EvRequest id r io)) in
  (silent id out /\ waiting (tm_loop t') (mkOut id r 1 0 false) /\ tm_deadline t' = now + tm_period t /\ io = true) \/
  fails_now id (tm_loop t', out).
Proof.
  intros H1 H2. cbv zeta. unfold timed_step, step. rewrite H1, H2. unfold send_outgoing_request. cbn [o_request o_tag].
  destruct (request_packet r) as [p|].
  - destruct io.
    + left. cbn. repeat split; assumption.
    + right. left. exists EIo. unfold tells. cbn. now rewrite N.eqb_refl.
  - right. right. destruct io; now repeat split.
Qed.

(** ** What the call has done *)
Inductive walk {A} : prog A -> list reply -> list done -> prog A -> Prop :=
| WalkNone p : walk p [] [] p
| WalkNap t p xs l p' : walk p xs l p' -> walk (Nap t p) xs (DSleep t :: l) p'
| WalkAsk q d k x xs l p' : walk (heard k x) xs l p' -> walk (Ask q d k) (x :: xs) (DRequest q d :: l) p'.
Lemma walk_nap {A} (p : prog A) xs l t p' : walk p xs l (Nap t p') -> walk p xs (l ++ [DSleep t]) p'.
Proof.
  remember (Nap t p') as p1 eqn:E. induction 1 as [p|t' p xs l p1 H IH|q d k x xs l p1 H IH]; subst; cbn [app].
  - repeat constructor.
  - constructor. now apply IH.
  - constructor. now apply IH.
Qed.
Lemma walk_ask {A} (p : prog A) xs l q d k x : walk p xs l (Ask q d k) -> walk p (xs ++ [x]) (l ++ [DRequest q d]) (heard k x).
Proof.
  remember (Ask q d k) as p1 eqn:E. induction 1 as [p|t' p xs l p1 H IH|q' d' k' x' xs l p1 H IH]; subst; cbn [app].
  - repeat constructor.
  - constructor. now apply IH.
  - constructor. now apply IH.
Qed.
(** The same against the SP that gives these answers. *)
Lemma walk_alone {A} (p : prog A) xs l p' : walk p xs l p' -> forall ys n log, exists n' log',
  alone p script (mkWorld (xs ++ ys) n log) = alone p' script (mkWorld ys n' (log ++ log')) /\ flat_map deed log' = l.
Proof.
  induction 1 as [p|t p xs l p1 H IH|q d k x xs l p1 H IH]; intros ys n log.
  - exists n, []. now rewrite app_nil_r.
  - cbn [alone]. unfold cbind, sleep. cbn [w_sp w_counter w_log].
    destruct (IH ys n (log ++ [ASleep t])) as (n' & log' & E & D). exists n', (ASleep t :: log').
    split; [|cbn; now rewrite D]. rewrite E, <- app_assoc. reflexivity.
  - cbn [alone app]. unfold cbind, rpc. cbn [w_sp w_counter w_log next_header script].
    set (r := mkRpc _ _ _).
    destruct (IH ys ((n + 1) mod 2 ^ 64) (log ++ [ASend r])) as (n' & log' & E & D). exists n', (ASend r :: log').
    split; [|cbn; now rewrite D]. rewrite <- app_assoc in E. cbn [app] in E. rewrite <- E.
    destruct x as [y|e|]; reflexivity.
Qed.
(** The next thing the call does. *)
Definition next_deed {A} (p : prog A) : list done :=
  match p with Ret _ => [] | Ask q d _ => [DRequest q d] | Nap t _ => [DSleep t] end.
Lemma walk_deeds {A} (p : prog A) xs l p' n : walk p xs l p' ->
  exists rest, deeds (alone p script) (mkWorld xs n []) = l ++ next_deed p' ++ rest.
Proof.
  intro H. destruct (walk_alone p xs l p' H [] n []) as (n' & log' & E & D). rewrite app_nil_r in E.
  unfold deeds. cbn [w_log length skipn]. rewrite E. cbn [app].
  assert (G : forall (p : prog A) ys n log, exists log', w_log (fst (alone p script (mkWorld ys n log))) = log ++ log').
  { clear. intro p. induction p as [x|q d k IH|t p IH]; intros ys n log; cbn [alone]; unfold cbind.
    - exists []. cbn. now rewrite app_nil_r.
    - unfold rpc. cbn [w_sp w_counter w_log next_header]. set (r := mkRpc _ _ _).
      destruct (script ys r) as [ys' x]. destruct x as [y|e|]; [| |now exists [ASend r]].
      + destruct (IH (Told (msg_body (rpc_message y)) (rpc_data y)) ys' ((n + 1) mod 2 ^ 64) (log ++ [ASend r])) as (l & ->).
        exists (ASend r :: l). now rewrite <- app_assoc.
      + destruct (IH (Missed e) ys' ((n + 1) mod 2 ^ 64) (log ++ [ASend r])) as (l & ->).
        exists (ASend r :: l). now rewrite <- app_assoc.
    - cbn [sleep w_sp w_counter w_log]. destruct (IH ys n (log ++ [ASleep t])) as (l & ->).
      exists (ASleep t :: l). now rewrite <- app_assoc. }
  destruct p' as [x|q d k|t p']; cbn [alone next_deed app].
  - exists []. cbn. now rewrite D, app_nil_r.
  - unfold cbind, rpc. cbn [w_sp w_counter w_log next_header script fst]. exists [].
    rewrite flat_map_app, D. cbn. reflexivity.
  - unfold cbind. cbn [sleep w_sp w_counter w_log]. destruct (G p' [] n' (log' ++ [ASleep t])) as (log2 & ->).
    exists (flat_map deed log2). rewrite !flat_map_app, D. cbn. now rewrite <- app_assoc.
Qed.

(** ** Time *)
Section Time.
  Context {A : Type} (p : prog A) (n_retries : option N) (interval slack start : N).
  Local Notation K := (attempts n_retries).
  Local Notation wait := (slack + K * (interval + slack)).
  Local Notation W l := (weigh (2 * slack) wait l).
  Definition clocked (c : timed_call A) : Prop :=
    tm_period (tc_timed c) = interval /\ N.max 1 (l_limit (tm_loop (tc_timed c))) = K /\
    exists xs l,
    match tc_stage c with
    | Ready p' since => walk p xs l p' /\ since <= start + W l /\
        (l_status (tm_loop (tc_timed c)) = Running -> l_out (tm_loop (tc_timed c)) = None)
    | Asleep p' until => walk p xs l p' /\ until + slack <= start + W l /\
        (l_status (tm_loop (tc_timed c)) = Running -> l_out (tm_loop (tc_timed c)) = None)
    | Pending id k => exists q d o a, walk p xs l (Ask q d k) /\ waiting (tm_loop (tc_timed c)) o /\ o_tag o = id /\
        1 <= o_retries o <= K /\ a <= start + W l + slack /\
        tm_deadline (tc_timed c) + slack <= a + o_retries o * (interval + slack)
    end.
  Lemma wait_long : slack <= wait.
  Proof. lia. Qed.
  Lemma limit_kept t now e : l_limit (tm_loop (fst (timed_step t now e))) = l_limit (tm_loop t) /\ tm_period (fst (timed_step t now e)) = tm_period t.
  Proof. destruct (timed_did t now e) as [D L]. split; [exact L|]. inversion D; reflexivity. Qed.
  Lemma K_pos : 1 <= K.
  Proof. unfold attempts. destruct n_retries; [lia|discriminate]. Qed.
  Definition timely (c : timed_call A) (now : N) : Prop := ~ ended c -> now <= due c + slack.
  Lemma not_ended_ask t n q d k since : ~ ended (mkTimedCall (A := A) t n (Ready (Ask q d k) since)).
  Proof. intros (x & y & H). discriminate. Qed.
  Lemma not_ended_nap t n m p' since : ~ ended (mkTimedCall (A := A) t n (Ready (Nap m p') since)).
  Proof. intros (x & y & H). discriminate. Qed.
  Lemma not_ended_asleep t n p' u : ~ ended (mkTimedCall (A := A) t n (Asleep p' u)).
  Proof. intros (x & y & H). discriminate. Qed.
  Lemma not_ended_pending t n id k : ~ ended (mkTimedCall (A := A) t n (Pending id k)).
  Proof. intros (x & y & H). discriminate. Qed.
  (** A request that is over. *)
  Lemma clocked_over t n id k q d xs l now out : tm_period t = interval -> N.max 1 (l_limit (tm_loop t)) = K ->
    walk p xs l (Ask q d k) -> now <= start + W l + wait ->
    (exists x, tells id out x /\ l_out (tm_loop t) = None) \/ (l_status (tm_loop t) <> Running /\ silent id out) ->
    clocked (mkTimedCall t n (settle id k t now out)) /\ timely (mkTimedCall t n (settle id k t now out)) now.
  Proof.
    intros Hp Hl Hw Hn Ho.
    assert (G : exists x, settle id k t now out = Ready (heard k x) now).
    { unfold settle. destruct (answer_for id out) as [x|] eqn:E; [now exists x|].
      destruct Ho as [(x & [H _] & _)|[Ho _]]; [congruence|]. exists Panic. destruct (l_status (tm_loop t)); [congruence|reflexivity..]. }
    destruct G as (x & ->). split; [|intros _; unfold due; cbn; lia].
    split; [exact Hp|]. split; [exact Hl|]. exists (xs ++ [x]), (l ++ [DRequest q d]). cbn [tc_stage tc_timed].
    split; [now apply walk_ask|]. split; [rewrite weigh_app; cbn [weigh fold_right]; lia|].
    destruct Ho as [(y & _ & H)|[Ho _]]; [auto|contradiction].
  Qed.
  Lemma clocked_step c now h : clocked c -> timely c now -> clocked (call_step c now h) /\ timely (call_step c now h) now.
  Proof.
    intros C T. destruct c as [t n st]. pose proof K_pos as KP. destruct C as (Cp & Cl & xs & l & C). cbn [tc_timed tc_stage] in *.
    destruct h as [io|e].
    - unfold call_step. cbn [call_does tc_stage tc_timed tc_counter]. destruct st as [[x|q d k|m p'] since|p' until|id k].
      + split; [|exact T]. split; [exact Cp|]. split; [exact Cl|]. now exists xs, l.
      + destruct C as (Hw & Hs & Hi). specialize (T (not_ended_ask _ _ _ _ _ _)). unfold due in T. cbn [tc_stage] in T.
        destruct (l_status (tm_loop t)) eqn:S; cbn [fst].
        2,3: (split; [|intros _; unfold due; cbn; lia]; split; [exact Cp|]; split; [exact Cl|];
              exists (xs ++ [Panic]), (l ++ [DRequest q d]); cbn [tc_stage tc_timed];
              split; [now apply (walk_ask p xs l q d k Panic)|];
              split; [rewrite weigh_app; cbn [weigh fold_right]; lia|rewrite S; discriminate]).
        specialize (Hi eq_refl). pose proof (taken_up t now n (host_request n q d) io S Hi) as U. cbv zeta in U.
        destruct (limit_kept t now (EvRequest n (host_request n q d) io)) as [L1 L2].
        destruct (timed_step t now (EvRequest n (host_request n q d) io)) as [t' out] eqn:E. cbn [fst snd] in *.
        destruct U as [(U1 & U2 & U3 & _)|U].
        * unfold settle. rewrite (proj1 U1), (proj1 U2). split; [|intros _; unfold due; cbn; lia].
          split; [cbn; congruence|]. split; [cbn; congruence|]. exists xs, l. cbn [tc_stage tc_timed].
          exists q, d, (mkOut n (host_request n q d) 1 0 false), now. split; [exact Hw|]. split; [exact U2|]. split; [reflexivity|].
          cbn [o_retries]. split; [lia|]. split; [lia|]. rewrite U3, Cp. lia.
        * apply (clocked_over t' _ n k q d xs l now out); [congruence|congruence|exact Hw|nia|].
          destruct U as [(e & U)|U]; [left; now exists (Err e)|now right].
      + destruct C as (Hw & Hs & Hi). specialize (T (not_ended_nap _ _ _ _ _)). unfold due in T. cbn [tc_stage] in T.
        split; [|intros _; unfold due; cbn; lia]. split; [exact Cp|]. split; [exact Cl|].
        exists xs, (l ++ [DSleep m]). cbn [tc_stage tc_timed]. split; [now apply walk_nap|].
        split; [rewrite weigh_app; cbn [weigh fold_right]; lia|exact Hi].
      + destruct C as (Hw & Hs & Hi). specialize (T (not_ended_asleep _ _ _ _)). unfold due in T. cbn [tc_stage] in T.
        destruct (N.leb_spec until now); cbn [fst].
        * split; [|intros _; unfold due; cbn; lia]. split; [exact Cp|]. split; [exact Cl|]. exists xs, l.
          cbn [tc_stage tc_timed]. split; [exact Hw|]. split; [lia|exact Hi].
        * split; [|intros _; exact T]. split; [exact Cp|]. split; [exact Cl|]. exists xs, l. now cbn [tc_stage tc_timed].
      + split; [|exact T]. split; [exact Cp|]. split; [exact Cl|]. now exists xs, l.
    - assert (Skip : clocked (mkTimedCall t n st) /\ timely (mkTimedCall t n st) now)
        by (split; [split; [exact Cp|]; split; [exact Cl|]; now exists xs, l|exact T]).
      assert (D : (forall tag r io, e <> EvRequest tag r io) -> e <> EvCallerGone ->
        let r := timed_step t now e in
        let c' := mkTimedCall (fst r) n (match st with Pending id k => settle id k (fst r) now (snd r) | st => st end) in
        clocked c' /\ timely c' now).
      { intros E1 E2. cbv zeta. destruct (limit_kept t now e) as [L1 L2]. destruct st as [p' since|p' until|id k].
        - destruct C as (Hw & Hs & Hi). split; [|exact T]. split; [cbn; congruence|]. split; [cbn; congruence|]. exists xs, l.
          cbn [tc_stage tc_timed]. split; [exact Hw|]. split; [exact Hs|]. now apply timed_idle.
        - destruct C as (Hw & Hs & Hi). split; [|exact T]. split; [cbn; congruence|]. split; [cbn; congruence|]. exists xs, l.
          cbn [tc_stage tc_timed]. split; [exact Hw|]. split; [exact Hs|]. now apply timed_idle.
        - specialize (T (not_ended_pending _ _ _ _)). unfold due in T. cbn [tc_stage tc_timed] in T.
          destruct C as (q & d & o & a & Hw & Ho & Ht & Hr & Ha & Hd).
          destruct (timed_goes t now e o Ho E2) as [(o' & G1 & G2 & G3 & G4)|G]; cbn [fst snd] in *.
          + destruct (waits_on t now e o o' Ho G1 E1) as [_ G5]. rewrite Ht in G4. unfold settle. rewrite (proj1 G4), (proj1 G1).
            split.
            * split; [cbn; congruence|]. split; [cbn; congruence|]. exists xs, l. cbn [tc_stage tc_timed].
              exists q, d, o', a. split; [exact Hw|]. split; [exact G1|]. split; [congruence|].
              destruct G5 as [[-> ->]|(-> & Lim & ->)].
              -- split; [lia|]. split; [lia|]. exact Hd.
              -- split; [lia|]. split; [lia|]. rewrite Cp. nia.
            * intros _. unfold due. cbn [tc_stage tc_timed]. destruct G5 as [[_ ->]|(_ & _ & ->)]; lia.
          + rewrite Ht in G. apply (clocked_over _ _ id k q d xs l now _); [congruence|congruence|exact Hw| |exact G]. nia. }
      unfold call_step. destruct e; cbn [call_does tc_timed tc_counter tc_stage fst]; try exact Skip;
        match goal with |- context [timed_step t now ?e] =>
          specialize (D ltac:(discriminate) ltac:(discriminate)); cbv zeta in D; destruct (timed_step t now e) as [t' out]; cbn [fst snd] in *; destruct st; exact D end.
  Qed.
  Lemma clocked_new t id : idle_timed n_retries interval t -> clocked (call_new t id p start).
  Proof.
    intros (s & t0 & es & H & -> & Ho). destruct (new_facts _ _ _ _ H) as [Fp Fl]. destruct (inv_run _ _ _ _ 0 es H) as [Ip Il _ _].
    split; [cbn; congruence|]. split; [cbn; congruence|]. exists [], []. cbn [tc_stage call_new tc_timed].
    split; [constructor|]. split; [cbn; lia|]. intros _. exact Ho.
  Qed.
  Lemma punctual_prefix (c0 : timed_call A) hs x : punctual slack c0 (hs ++ [x]) -> punctual slack c0 hs.
  Proof. intros H hs1 now h hs2 ->. apply (H hs1 now h (hs2 ++ [x])). now rewrite <- app_assoc. Qed.
  Lemma run_snoc (c0 : timed_call A) hs now h : call_run c0 (hs ++ [(now, h)]) = call_step (call_run c0 hs) now h.
  Proof. unfold call_run. now rewrite fold_left_app. Qed.
  Lemma punctual_snoc (c0 : timed_call A) hs now h : punctual slack c0 hs -> timely (call_run c0 hs) now -> punctual slack c0 (hs ++ [(now, h)]).
  Proof.
    intros H T hs1 now' h' hs2 E. destruct (exists_last (l := (now', h') :: hs2) ltac:(discriminate)) as (l & z & El). rewrite El in E.
    rewrite app_assoc in E. apply app_inj_tail in E. destruct E as [-> <-].
    destruct l as [|w l]; cbn [app] in El.
    - injection El as -> -> _. rewrite app_nil_r in *. exact T.
    - injection El as <- ->. now apply (H hs1 now' h' l).
  Qed.
  Lemma clocked_run c0 hs : clocked c0 -> punctual slack c0 hs ->
    clocked (call_run c0 hs) /\ forall hs1 now h, hs = hs1 ++ [(now, h)] -> timely (call_run c0 hs) now.
  Proof.
    intros C. induction hs as [|[now h] hs IH] using rev_ind; intro P.
    - split; [exact C|]. intros [|? ?] ? ? E; discriminate.
    - destruct (IH (punctual_prefix _ _ _ P)) as [C1 _]. rewrite run_snoc.
      destruct (clocked_step (call_run c0 hs) now h C1) as [S1 S2].
      { intro Hn. exact (P hs now h [] eq_refl Hn). }
      split; [exact S1|]. intros hs1 now' h' E. apply app_inj_tail in E. destruct E as [_ [= <- <-]]. exact S2.
  Qed.
  (** What a call that has not ended does in all takes longer. *)
  Lemma clocked_late c now : clocked c -> ~ ended c -> now <= due c + slack ->
    exists xs, now <= start + W (deeds (alone p script) (mkWorld xs 0 [])).
  Proof.
    intros (_ & _ & xs & l & C) E T. exists xs. unfold due in T. pose proof K_pos as KP. destruct c as [t n st]. cbn [tc_stage tc_timed] in *.
    destruct st as [p' since|p' until|id k].
    - destruct C as (Hw & Hs & _). destruct (walk_deeds p xs l p' 0 Hw) as (rest & ->). rewrite !weigh_app.
      destruct p' as [x|q d k|m p']; cbn [next_deed weigh fold_right]; [|nia|lia].
      exfalso. apply E. now exists x, since.
    - destruct C as (Hw & Hs & _). destruct (walk_deeds p xs l p' 0 Hw) as (rest & ->). rewrite !weigh_app. lia.
    - destruct C as (q & d & o & a & Hw & Ho & Ht & Hr & Ha & Hd). destruct (walk_deeds p xs l _ 0 Hw) as (rest & ->).
      rewrite !weigh_app. cbn [next_deed weigh fold_right]. nia.
  Qed.
End Time.

(** ** It can always end *)
Lemma settled_err {A} id (k : news -> prog A) t now out :
  fails_now id (tm_loop t, out) ->
  (exists e, settle id k t now out = Ready (k (Missed e)) now) \/ settle id k t now out = Ready (Ret Panic) now.
Proof.
  intros H. unfold settle, fails_now, tells, silent in *. cbn [fst snd] in H. destruct H as [(e & [-> _] & _)|[H [-> _]]]; [left; now exists e|].
  right. destruct (l_status (tm_loop t)); [congruence|reflexivity..].
Qed.
Section Ends.
  Context {A : Type} (p : prog A) (n_retries : option N) (interval slack start : N).
  Local Notation clk := (clocked p n_retries interval slack start).
  (** From [c], with the time [last] reached. *)
  Definition can_end (c : timed_call A) (last : N) : Prop :=
    exists hs, in_order last hs /\ punctual slack c hs /\ ended (call_run c hs).
  Lemma can_step c last now h : last <= now -> timely slack c now -> can_end (call_step c now h) now -> can_end c last.
  Proof.
    intros L T (hs & O & P & E). exists ((now, h) :: hs). split; [now split|]. split; [|exact E].
    intros [|x hs1] now' h' hs2 Q.
    - injection Q as <- _ _. exact T.
    - injection Q as <- Q. exact (P hs1 now' h' hs2 Q).
  Qed.
  Lemma can_done c last : ended c -> can_end c last.
  Proof. intro E. exists []. repeat split; [|exact E]. intros [|? ?] ? ? ? Q; discriminate. Qed.
  Lemma due_timely (c : timed_call A) last : timely slack c last -> timely slack c (N.max last (due c)).
  Proof. intros H E. specialize (H E). lia. Qed.
  Lemma can_ready p' : forall t n since last, clk (mkTimedCall t n (Ready p' since)) ->
    timely slack (mkTimedCall t n (Ready p' since)) last -> can_end (mkTimedCall t n (Ready p' since)) last.
  Proof.
    induction p' as [x|q d k IH|m p' IH]; intros t n since last C T.
    - apply can_done. now exists x, since.
    - pose proof (due_timely _ _ T) as T1. unfold due in T1. cbn [tc_stage] in T1.
      destruct (clocked_step p n_retries interval slack start _ _ (HCall false) C T1) as [C1 S1].
      apply (can_step _ _ (N.max last since) (HCall false)); [lia|exact T1|].
      destruct C as (_ & _ & xs & l & Hw & _ & Hi). unfold call_step in *. cbn [call_does tc_stage tc_timed tc_counter fst] in *.
      destruct (l_status (tm_loop t)) eqn:S; [|apply can_done; now exists Panic, (N.max last since)..].
      pose proof (taken_up t (N.max last since) n (host_request n q d) false S (Hi eq_refl)) as U. cbv zeta in U.
      destruct (timed_step t _ _) as [t' out]. cbn [fst snd] in U, C1, S1 |- *.
      assert (F : fails_now n (tm_loop t', out)) by (destruct U as [(_ & _ & _ & U)|U]; [discriminate|exact U]).
      destruct (settled_err n k t' (N.max last since) out F) as [(e & Es)|Es]; rewrite Es in *; [now apply IH|].
      apply can_done. now exists Panic, (N.max last since).
    - pose proof (due_timely _ _ T) as T1. unfold due in T1. cbn [tc_stage] in T1.
      destruct (clocked_step p n_retries interval slack start _ _ (HCall false) C T1) as [C1 S1].
      apply (can_step _ _ (N.max last since) (HCall false)); [lia|exact T1|].
      unfold call_step in *. cbn [call_does tc_stage tc_timed tc_counter fst] in *. set (now := N.max last since) in *.
      pose proof (due_timely _ _ S1) as T2. unfold due in T2. cbn [tc_stage] in T2. replace (N.max now (now + m)) with (now + m) in T2 by lia.
      destruct (clocked_step p n_retries interval slack start _ _ (HCall false) C1 T2) as [C2 S2].
      apply (can_step _ _ (now + m) (HCall false)); [lia|exact T2|].
      unfold call_step in *. cbn [call_does tc_stage tc_timed tc_counter fst] in *. rewrite N.leb_refl in *. now apply IH.
  Qed.
  Lemma can_all c last : clk c -> timely slack c last -> can_end c last.
  Proof.
    intros C T. destruct c as [t n [p' since|p' until|id k]].
    - now apply can_ready.
    - pose proof (due_timely _ _ T) as T1. unfold due in T1. cbn [tc_stage] in T1.
      destruct (clocked_step p n_retries interval slack start _ _ (HCall false) C T1) as [C1 S1].
      apply (can_step _ _ (N.max last until) (HCall false)); [lia|exact T1|].
      unfold call_step in *. cbn [call_does tc_stage tc_timed tc_counter fst] in *.
      destruct (N.leb_spec until (N.max last until)); [now apply can_ready|lia].
    - pose proof (due_timely _ _ T) as T1. unfold due in T1. cbn [tc_stage tc_timed] in T1. set (now := N.max last (tm_deadline t)) in *.
      apply (can_step _ _ now (HLoop (EvTick false))); [lia|exact T1|].
      destruct (clocked_step p n_retries interval slack start _ _ (HLoop (EvTick false)) C T1) as [C1 S1].
      destruct C as (_ & _ & xs & l & q & d & o & a & Hw & Ho & Ht & _). unfold call_step in *. cbn [call_does tc_stage tc_timed tc_counter fst] in *.
      pose proof (proj2 (goes_tick (tm_loop t) o false Ho) eq_refl) as G. unfold timed_step in *. rewrite (proj2 Ho) in *.
      destruct (N.ltb_spec now (tm_deadline t)); [lia|]. unfold step in *. rewrite (proj1 Ho) in *.
      destruct (handle_tick (tm_loop t) false) as [s out]. cbn [fst snd] in G, C1, S1 |- *. subst id.
      match goal with |- context [settle _ _ ?t' _ _] => destruct (settled_err (o_tag o) k t' now out G) as [(e & Es)|Es] end;
        rewrite Es in *; [now apply can_ready|]. apply can_done. now exists Panic, now.
  Qed.
End Ends.
Definition time_reached (start : N) (hs : list (N * happening)) : N := match rev hs with [] => start | (now, _) :: _ => now end.
Lemma in_order_app from a b : in_order from a -> in_order (time_reached from a) b -> in_order from (a ++ b).
Proof.
  revert from. induction a as [|[now h] a IH]; intros from H K; cbn [app in_order] in *; [exact K|]. split; [apply H|]. apply IH; [apply H|].
  unfold time_reached in *. cbn [rev] in K. destruct (rev a) as [|[n' h'] r]; exact K.
Qed.
Lemma can_always_end {A} (p : prog A) n_retries interval slack start t id hs : idle_timed n_retries interval t ->
  in_order start hs -> punctual slack (call_new t id p start) hs ->
  exists hs', in_order start (hs ++ hs') /\ punctual slack (call_new t id p start) (hs ++ hs') /\
    ended (call_run (call_new t id p start) (hs ++ hs')).
Proof.
  intros I O P. pose proof (clocked_new p n_retries interval slack start t id I) as C.
  destruct (clocked_run p n_retries interval slack start _ hs C P) as [C1 T1].
  destruct (can_all p n_retries interval slack start (call_run (call_new t id p start) hs) (time_reached start hs) C1) as (hs' & O' & P' & E').
  { destruct hs as [|x hs _] using rev_ind; [intros _; cbn; lia|]. unfold time_reached. rewrite rev_app_distr. cbn [rev app].
    destruct x as [now h]. now apply (T1 hs now h). }
  exists hs'. split; [now apply in_order_app|]. unfold call_run in *. rewrite fold_left_app. split; [|exact E'].
  intros hs1 now h hs2 Q. cbv zeta.
  assert (D : (exists y, hs = hs1 ++ (now, h) :: y) \/ exists y, hs1 = hs ++ y).
  { clear - Q. revert hs Q. induction hs1 as [|z hs1 IH]; intros [|z' hs] Q; cbn [app] in Q.
    - right. now exists [].
    - injection Q as -> _. left. now exists hs.
    - right. now exists (z :: hs1).
    - injection Q as -> Q. destruct (IH hs Q) as [(y & ->)|(y & ->)]; [left; now exists y|right; now exists y]. }
  destruct D as [(y & ->)|(y & ->)]; [exact (P hs1 now h y eq_refl)|].
  rewrite <- app_assoc in Q. apply app_inv_head in Q. unfold call_run. rewrite fold_left_app. exact (P' y now h hs2 Q).
Qed.

(** ** What it returns *)
Lemma replies_app a b : replies_of (a ++ b) = replies_of a ++ replies_of b.
Proof. unfold replies_of. apply flat_map_app. Qed.
(** A script that ends in a crash goes on like one that ends before. *)
Lemma script_end {A} (p : prog A) : forall R n log,
  snd (alone p script (mkWorld (R ++ [Panic]) n log)) = snd (alone p script (mkWorld R n log)).
Proof.
  induction p as [x|q d k IH|t p IH]; intros R n log; cbn [alone]; [reflexivity| |].
  - unfold cbind, rpc. cbn [w_sp w_counter w_log next_header]. destruct R as [|[y|e|] R]; cbn [app script]; [reflexivity| | |reflexivity]; apply IH.
  - unfold cbind, sleep. cbn [w_sp w_counter w_log]. apply IH.
Qed.
Section Told.
  Context {A : Type} (p : prog A).
  Definition quiet (t : timed) : Prop := l_status (tm_loop t) = Running -> l_out (tm_loop t) = None.
  (** The call is where the replies [R] lead it. *)
  Definition traced (c : timed_call A) (R : list reply) : Prop :=
    match tc_stage c with
    | Ready p' _ => exists xs l, walk p xs l p' /\ (xs = R \/ (xs = R ++ [Panic] /\ p' = Ret Panic)) /\ quiet (tc_timed c)
    | Asleep p' _ => exists l, walk p R l p' /\ quiet (tc_timed c)
    | Pending id k => exists q d l o, walk p R l (Ask q d k) /\ waiting (tm_loop (tc_timed c)) o /\ o_tag o = id
    end.
  Lemma traced_over t n id k q d R l now out : walk p R l (Ask q d k) ->
    (exists x, tells id out x /\ l_out (tm_loop t) = None) \/ (l_status (tm_loop t) <> Running /\ silent id out) ->
    traced (mkTimedCall t n (settle id k t now out)) (R ++ replies_of out).
  Proof.
    intros Hw [(x & [H1 H2] & H3)|[H1 [H2 H3]]]; unfold settle, traced.
    - rewrite H1, H2. cbn [tc_stage tc_timed]. exists (R ++ [x]), (l ++ [DRequest q d]). split; [now apply walk_ask|]. split; [now left|].
      intros _. exact H3.
    - rewrite H2, H3, app_nil_r. pose proof (walk_ask p R l q d k Panic Hw) as W.
      destruct (l_status (tm_loop t)) eqn:S; [congruence|..]; cbn [tc_stage tc_timed]; exists (R ++ [Panic]), (l ++ [DRequest q d]);
        (split; [exact W|]; split; [now right|]; intro; congruence).
  Qed.
  Lemma traced_step c now h R : traced c R -> traced (call_step c now h) (R ++ replies_of (snd (call_does c now h))).
  Proof.
    intro T. destruct c as [t n st]. unfold call_step. destruct h as [io|e].
    - cbn [call_does tc_stage tc_timed tc_counter]. destruct st as [[x|q d k|m p'] since|p' until|id k].
      + cbn [fst snd replies_of flat_map]. rewrite app_nil_r. exact T.
      + destruct T as (xs & l & Hw & Hx & Hq). cbn [tc_timed] in Hq.
        assert (xs = R) by (destruct Hx as [H|[_ H]]; [exact H|discriminate]). subst xs. clear Hx.
        destruct (l_status (tm_loop t)) eqn:S.
        2,3: (cbn [fst snd replies_of flat_map]; rewrite app_nil_r; exists (R ++ [Panic]), (l ++ [DRequest q d]);
              split; [exact (walk_ask p R l q d k Panic Hw)|]; split; [now right|]; exact Hq).
        pose proof (taken_up t now n (host_request n q d) io S (Hq S)) as U. cbv zeta in U.
        destruct (timed_step t now (EvRequest n (host_request n q d) io)) as [t' out]. cbn [fst snd] in *.
        destruct U as [(U1 & U2 & _)|U].
        * unfold settle. rewrite (proj1 U1), (proj2 U1), app_nil_r, (proj1 U2).
          exists q, d, l, (mkOut n (host_request n q d) 1 0 false). now repeat split; try apply U2.
        * apply (traced_over t' _ n k q d R l now out Hw). destruct U as [(e & U)|U]; [left; now exists (Err e)|now right].
      + destruct T as (xs & l & Hw & Hx & Hq). assert (xs = R) by (destruct Hx as [H|[_ H]]; [exact H|discriminate]). subst xs.
        cbn [fst snd replies_of flat_map]. rewrite app_nil_r. exists (l ++ [DSleep m]). split; [now apply walk_nap|exact Hq].
      + destruct (until <=? now); cbn [fst snd replies_of flat_map]; rewrite app_nil_r; [|exact T].
        destruct T as (l & Hw & Hq). exists R, l. split; [exact Hw|]. split; [now left|exact Hq].
      + cbn [fst snd replies_of flat_map]. rewrite app_nil_r. exact T.
    - assert (Skip : traced (fst (mkTimedCall t n st, @nil output)) (R ++ replies_of (snd (mkTimedCall t n st, @nil output))))
        by (cbn [fst snd replies_of flat_map]; rewrite app_nil_r; exact T).
      assert (D : (forall tag r io, e <> EvRequest tag r io) -> e <> EvCallerGone ->
        let r := timed_step t now e in
        traced (mkTimedCall (fst r) n (match st with Pending id k => settle id k (fst r) now (snd r) | st => st end)) (R ++ replies_of (snd r))).
      { intros E1 E2. cbv zeta. destruct st as [p' since|p' until|id k].
        - destruct T as (xs & l & Hw & Hx & Hq). destruct (timed_idle t now e Hq E1) as [I1 ->]. rewrite app_nil_r.
          exists xs, l. split; [exact Hw|]. split; [exact Hx|exact I1].
        - destruct T as (l & Hw & Hq). destruct (timed_idle t now e Hq E1) as [I1 ->]. rewrite app_nil_r. exists l. now split.
        - destruct T as (q & d & l & o & Hw & Ho & Ht). cbn [tc_timed] in Ho.
          destruct (timed_goes t now e o Ho E2) as [(o' & G1 & G2 & G3 & G4)|G]; cbn [fst snd] in *; rewrite Ht in *.
          + unfold settle. rewrite (proj1 G4), (proj2 G4), app_nil_r, (proj1 G1). exists q, d, l, o'. now split; [|split].
          + now apply (traced_over _ _ id k q d R l). }
      destruct e; cbn [call_does tc_timed tc_counter tc_stage]; try exact Skip;
        match goal with |- context [timed_step t now ?e] =>
          specialize (D ltac:(discriminate) ltac:(discriminate)); cbv zeta in D; destruct (timed_step t now e) as [t' out]; cbn [fst snd] in *; destruct st; exact D end.
  Qed.
  Lemma traced_run hs : forall c R, traced c R -> traced (call_run c hs) (R ++ replies_of (call_outputs c hs)).
  Proof.
    induction hs as [|[now h] hs IH]; intros c R T; cbn [call_outputs call_run fold_left fst snd].
    - cbn. rewrite app_nil_r. exact T.
    - rewrite replies_app, app_assoc. apply IH. now apply traced_step.
  Qed.
End Told.
Lemma returns_alone {A} (p : prog A) n_retries interval t id start hs x at_ : idle_timed n_retries interval t ->
  tc_stage (call_run (call_new t id p start) hs) = Ready (Ret x) at_ ->
  forall n log, snd (alone p script (mkWorld (replies_of (call_outputs (call_new t id p start) hs)) n log)) = x.
Proof.
  intros (s & t0 & es & _ & _ & Ho) E n log.
  assert (T : traced p (call_new t id p start) []).
  { exists [], []. split; [constructor|]. split; [now left|]. intros _. exact Ho. }
  apply (traced_run p hs) in T. cbn [app] in T. unfold traced in T. rewrite E in T.
  destruct T as (xs & l & Hw & Hx & _). set (R := replies_of _) in *.
  destruct (walk_alone p xs l _ Hw [] n log) as (n' & log' & Q & _). rewrite app_nil_r in Q.
  transitivity (snd (alone p script (mkWorld xs n log))); [|now rewrite Q].
  destruct Hx as [-> |[-> _]]; [reflexivity|]. symmetry. apply script_end.
Qed.

Lemma weigh_split s d l : weigh s d l = takes d l + naps l * s.
Proof.
  induction l as [|[q x|t] l IH]; [reflexivity|..]; cbn [weigh takes naps fold_right]; fold (weigh s d l) (takes d l) (naps l); rewrite IH; lia.
Qed.
Lemma ended_dec {A} (c : timed_call A) : ended c \/ ~ ended c.
Proof.
  destruct c as [t n [[x|q d k|m p] since|p u|id k]]; [left; now exists x, since|right; intros (x & y & H); discriminate..].
Qed.
Lemma ends_in_time {st A} (c : forall St, (St -> Rpc -> St * reply) -> ctl (St := St) A) n pause k :
  denoted_as st c -> (forall St sp, costs (c St sp) n pause) -> (forall St sp, pauses_most (c St sp) k) -> in_time c n pause k.
Proof.
  intros (p0 & D0 & _) Hc Hn. split; [now exists p0|]. intros p n_retries interval t id start slack hs now h D I P L.
  destruct (ended_dec (call_run (call_new t id p start) hs)) as [E|E]; [exact E|]. exfalso.
  pose proof (clocked_new p n_retries interval slack start t id I) as C.
  destruct (clocked_run p n_retries interval slack start _ hs C (punctual_prefix _ _ _ _ P)) as [C1 _].
  destruct (clocked_late p n_retries interval slack start _ now C1 E) as (xs & B).
  { exact (P hs now h [] eq_refl E). }
  assert (Ed : deeds (alone p script) (mkWorld xs 0 []) = deeds (c (list reply) script) (mkWorld xs 0 []))
    by (unfold deeds; now rewrite D).
  rewrite Ed, weigh_split in B. specialize (Hc _ script (slack + attempts n_retries * (interval + slack)) (mkWorld xs 0 [])).
  specialize (Hn _ script (mkWorld xs 0 [])). nia.
Qed.
Lemma pauses_from {St A} (sp : St -> Rpc -> St * reply) (c : ctl (St := St) A) n pause k :
  (forall s, cost sp (s0 := s) c n (pause + k * s)) -> pauses_most c k.
Proof.
  intros H w. pose proof (cost_weigh sp c n _ (H (pause + 1)) 0 w) as B. rewrite weigh_split in B. nia.
Qed.
Lemma costs_from {St A} (sp : St -> Rpc -> St * reply) (c : ctl (St := St) A) n pause k :
  (forall s, cost sp (s0 := s) c n (pause + k * s)) -> costs c n pause.
Proof.
  intros H d w. pose proof (cost_weigh sp c n _ (H 0) d w) as B. rewrite weigh_split in B. lia.
Qed.

Lemma in_time_from {st A} (c : forall St, (St -> Rpc -> St * reply) -> ctl (St := St) A) n pause k :
  denoted_as st c -> (forall St sp s, cost sp (s0 := s) (c St sp) n (pause + k * s)) -> in_time c n pause k.
Proof.
  intros D H. apply (@ends_in_time st); [exact D| |]; intros St sp; [now apply (costs_from sp _ n pause k)|now apply (pauses_from sp _ n pause k)].
Qed.
Lemma query_in_time {P} reads (parse : Identifier -> list (list N) -> outcome DecodeError P) m n :
  In reads [vendor_reads; memory_reads; power_reads; monitor_reads; datapath_reads] -> n = 1 + total (reading reads) kinds ->
  in_time (fun St sp => parse_modules_by_identifier sp reads parse m) n 0 0.
Proof.
  intros H ->. apply (@in_time_from true); [apply den_query|]. intros St sp s. apply cost_parse. pose proof short_all as S.
  rewrite Forall_forall in S. now apply S.
Qed.
Lemma calls_in_time m :
  in_time (fun St sp => leds sp m) 1 0 0 /\ in_time (fun St sp => ctl_status sp m) 1 0 0 /\
  in_time (fun St sp => extended_status sp m) 1 0 0 /\ in_time (fun St sp => mac_addrs sp) 1 0 0 /\
  (forall q, in_time (fun St sp => no_payload_request sp q) 1 0 0) /\ in_time (fun St sp => identifier sp m) 1 0 0 /\
  (forall rd, rd_len rd <= 255 -> in_time (fun St sp => ctl_read sp m rd) (1 + rounds (rd_len rd)) 0 0) /\
  (forall wr data, in_time (fun St sp => ctl_write sp m wr data) 2 0 0) /\
  in_time (fun St sp => reset sp m) 2 2000010 2 /\ in_time (fun St sp => power sp m) 6 0 0 /\
  in_time (fun St sp => set_power sp m PowerOff) 3 0 0 /\ (forall st, in_time (fun St sp => set_power sp m st) 20 2000010 2) /\
  in_time (fun St sp => vendor_info sp m) 27 0 0 /\ in_time (fun St sp => memory_model sp m) 9 0 0 /\
  in_time (fun St sp => monitors sp m) 33 0 0 /\ in_time (fun St sp => datapath sp m) 41 0 0.
Proof.
  pose proof (@in_time_from true) as X.
  split; [apply X; [apply den_leds|intros; apply cost_leds]|].
  split; [apply X; [apply den_status|intros; apply cost_status]|].
  split; [apply X; [apply den_ext_status|intros; apply cost_ext]|].
  split; [apply X; [apply den_macs|intros; apply cost_macs]|].
  split; [intro; apply X; [apply den_ack|intros; apply cost_npr]|].
  split; [apply X; [apply den_identifier|intros; apply cost_identifier]|].
  split; [intros; apply X; [apply den_read|intros; now apply cost_read]|].
  split; [intros; apply X; [apply den_write|intros; apply cost_write]|].
  split; [apply X; [apply den_reset|intros; apply cost_reset]|].
  split; [apply X; [apply den_power|intros; apply cost_power]|].
  split; [apply X; [apply den_set_power|intros; apply cost_off]|].
  split; [intro; apply X; [apply den_set_power|intros; apply cost_set_power]|].
  split; [apply (query_in_time vendor_reads); [now left|vm_compute; reflexivity]|].
  split; [apply (query_in_time memory_reads); [right; now left|vm_compute; reflexivity]|].
  split; [apply (query_in_time monitor_reads); [do 3 right; now left|vm_compute; reflexivity]|].
  apply (query_in_time datapath_reads); [do 4 right; now left|vm_compute; reflexivity].
Qed.

(** ** A silent SP *)
Lemma silent_wait n_retries interval t id start A q d k :
  idle_timed n_retries interval t -> l_status (tm_loop t) = Running -> request_packet (host_request id q d) <> None ->
  forall j, j < attempts n_retries -> exists hs now,
    let c := call_run (call_new (A := A) t id (Ask q d k) start) hs in
    in_order start hs /\ time_reached start hs = now /\ now = start + j * interval /\
    punctual 0 (call_new (A := A) t id (Ask q d k) start) hs /\
    tc_stage c = Pending id k /\ tm_period (tc_timed c) = interval /\ tm_deadline (tc_timed c) = now + interval /\
    N.max 1 (l_limit (tm_loop (tc_timed c))) = attempts n_retries /\
    waiting (tm_loop (tc_timed c)) (mkOut id (host_request id q d) (j + 1) 0 false).
Proof.
  intros I S Pk. destruct (clocked_new (Ask q d k) n_retries interval 0 start t id I) as (Cp & Cl & _). cbn [call_new tc_timed] in *.
  destruct I as (st & t0 & es & _ & _ & Ho). destruct (request_packet (host_request id q d)) as [p|] eqn:Ep; [|contradiction].
  intro j. induction j as [|j IH] using N.peano_ind; intro L.
  - exists [(start, HCall true)], start. cbv zeta. split; [cbn; lia|]. split; [reflexivity|]. split; [lia|]. split.
    { intros [|x hs1] now h hs2 E; [injection E as <- _ _; intros ? _; unfold due; cbn; lia|]. injection E as _ E. destruct hs1; discriminate. }
    unfold call_run. unfold call_step. cbn [fold_left fst snd call_does call_new tc_stage tc_timed tc_counter]. rewrite S.
    unfold timed_step, step. rewrite S, Ho. unfold send_outgoing_request. cbn [o_request]. rewrite Ep. cbn.
    unfold settle. cbn. rewrite S. repeat split; assumption || (cbn; congruence).
  - destruct (IH ltac:(lia)) as (hs & now & O & T & E & P & C1 & C2 & C3 & C4 & C5 & C6).
    set (c := call_run (call_new t id (Ask q d k) start) hs) in *.
    exists (hs ++ [(now + interval, HLoop (EvTick true))]), (now + interval). cbv zeta. rewrite run_snoc. fold c.
    split; [apply in_order_app; [exact O|]; rewrite T; cbn; lia|].
    split; [unfold time_reached; now rewrite rev_app_distr|]. split; [lia|].
    split; [apply punctual_snoc; [exact P|]; intros _; fold c; unfold due; rewrite C1, C3; lia|].
    destruct c as [[s period dl] n stg]. cbn [tc_stage tc_timed tm_loop tm_period tm_deadline] in *. subst stg period dl.
    unfold call_step. cbn [call_does tc_stage tc_timed tc_counter]. unfold timed_step. cbn [tm_loop tm_deadline tm_period]. rewrite C6, N.ltb_irrefl.
    unfold step, handle_tick. rewrite C5, C6. cbn [o_retries o_errors]. 
    assert (Lt : j + 1 <? l_limit s = true) by (apply N.ltb_lt; lia). rewrite Lt. cbn [andb].
    change (0 <? NUM_ALLOWED_ERROR_MESSAGES) with true. cbv iota. unfold send_outgoing_request. cbn [o_request]. rewrite Ep. cbn.
    unfold settle. cbn. rewrite C5. repeat split; try assumption; cbn; try congruence. f_equal. f_equal; lia.
Qed.
Lemma silent_waits A q d (k : news -> prog A) n_retries interval t id start j :
  idle_timed n_retries interval t -> l_status (tm_loop t) = Running -> request_packet (host_request id q d) <> None ->
  j < attempts n_retries -> exists hs h, in_order start (hs ++ [(start + j * interval, h)]) /\
    punctual 0 (call_new t id (Ask q d k) start) (hs ++ [(start + j * interval, h)]) /\
    ~ ended (call_run (call_new t id (Ask q d k) start) (hs ++ [(start + j * interval, h)])).
Proof.
  intros I S Pk L. destruct (silent_wait n_retries interval t id start A q d k I S Pk j L) as (hs & now & O & T & E & P & C & _).
  assert (N0 : hs <> []) by (intros ->; discriminate). destruct (exists_last N0) as (hs1 & [now' h] & ->). clear N0. rename hs1 into hs.
  unfold time_reached in T. rewrite rev_app_distr in T. cbn [rev app] in T. subst now' now. exists hs, h. split; [exact O|]. split; [exact P|]. intros (x & y & H). rewrite C in H. discriminate.
Qed.
