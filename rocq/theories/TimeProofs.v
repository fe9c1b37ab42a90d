(** Proofs about the pace of retries. *)
From Coq Require Import Lia.
From Verif Require Import Tac SpecTime.

Lemma trun_app t es es' : timed_run t (es ++ es') =
  (fst (timed_run (fst (timed_run t es)) es'), snd (timed_run t es) ++ snd (timed_run (fst (timed_run t es)) es')).
Proof.
  revert t. induction es as [|[now e] es IH]; intro t; cbn [app timed_run].
  { cbn [fst snd app]. now destruct (timed_run t es'). }
  destruct (timed_step t now e) as [t1 o1]. rewrite IH. destruct (timed_run t1 es) as [t2 o2]. cbn [fst snd].
  now rewrite app_assoc.
Qed.
Lemma trun_snoc t es now e : timed_run t (es ++ [(now, e)]) =
  let r := timed_run t es in let x := timed_step (fst r) now e in (fst x, snd r ++ map (pair now) (snd x)).
Proof.
  rewrite trun_app. cbn [timed_run]. destruct (timed_step (fst (timed_run t es)) now e) as [t1 o1]. cbn [fst snd].
  now rewrite app_nil_r.
Qed.

(** ** What one iteration does *)
Definition quiet (out : list output) : Prop :=
  Forall (fun x => match x with OTx _ _ | OAccept _ _ | OReply _ (Err (EMaxRetries _)) => False | _ => True end) out.
Definition waiting (s : loop) (o : Outstanding) : Prop := l_status s = Running /\ l_out s = Some o.
Inductive did (t : timed) (now : N) : timed -> list output -> Prop :=
| DidAccept tag r s p : l_out (tm_loop t) = None -> waiting s (mkOut tag r 1 0 false) ->
    did t now (mkTimed s (tm_period t) (now + tm_period t)) [OAccept tag r; OTx tag p]
| DidAcceptFail tag r s d out : l_out (tm_loop t) = None -> (forall o, ~ waiting s o) -> quiet out ->
    did t now (mkTimed s (tm_period t) d) (OAccept tag r :: out)
| DidAcceptFailTx tag r s d p out : l_out (tm_loop t) = None -> (forall o, ~ waiting s o) -> quiet out ->
    did t now (mkTimed s (tm_period t) d) (OAccept tag r :: OTx tag p :: out)
| DidRetry s o o' p : waiting (tm_loop t) o -> tm_deadline t <= now ->
    o_retries o < l_limit (tm_loop t) -> waiting s o' -> o_tag o' = o_tag o -> o_retries o' = o_retries o + 1 ->
    did t now (mkTimed s (tm_period t) (now + tm_period t)) [OTx (o_tag o) p]
| DidRetryFail s d o p out : waiting (tm_loop t) o -> tm_deadline t <= now ->
    o_retries o < l_limit (tm_loop t) -> (forall o, ~ waiting s o) -> quiet out ->
    did t now (mkTimed s (tm_period t) d) (OTx (o_tag o) p :: out)
| DidGiveUp s d o : waiting (tm_loop t) o -> tm_deadline t <= now ->
    l_limit (tm_loop t) <= o_retries o -> (forall o, ~ waiting s o) ->
    did t now (mkTimed s (tm_period t) d) [OReply (o_tag o) (Err (EMaxRetries (o_retries o)))]
| DidRest s d out : quiet out ->
    (forall o', waiting s o' -> d = tm_deadline t /\
       exists o, waiting (tm_loop t) o /\ o_tag o' = o_tag o /\ o_retries o' = o_retries o) ->
    did t now (mkTimed s (tm_period t) d) out.

Lemma not_waiting_none s : l_out s = None -> forall o, ~ waiting s o.
Proof. intros H o [_ G]. congruence. Qed.
Lemma not_waiting_crash s : forall o, ~ waiting (crash s) o.
Proof. intros o [G _]. discriminate. Qed.
Lemma answered s o r : (forall k, r <> Err (EMaxRetries k)) ->
  quiet (snd (answer s o r)) /\ forall o', ~ waiting (fst (answer s o r)) o'.
Proof.
  intro H. unfold answer. destruct (o_gone o); cbn [fst snd].
  - split; [now repeat constructor|]. apply not_waiting_crash.
  - split; [|now apply not_waiting_none]. constructor; [|constructor]. destruct r as [x|[]|]; try exact I. now apply (H n).
Qed.
Lemma still_waiting t d s : (forall o', waiting s o' -> exists o, waiting (tm_loop t) o /\ o_tag o' = o_tag o /\ o_retries o' = o_retries o) ->
  d = tm_deadline t -> forall o', waiting s o' -> d = tm_deadline t /\
       exists o, waiting (tm_loop t) o /\ o_tag o' = o_tag o /\ o_retries o' = o_retries o.
Proof. intros H -> o' Ho. split; [reflexivity|]. now apply H. Qed.

(** Iterations that have nothing to do with the timer. *)
Definition mild (s : loop) (r : loop * list output) : Prop :=
  quiet (snd r) /\ l_limit (fst r) = l_limit s /\
  forall o', waiting (fst r) o' -> exists o, waiting s o /\ o_tag o' = o_tag o /\ o_retries o' = o_retries o.
Lemma mild_same s out : quiet out -> mild s (s, out).
Proof. intro H. split; [exact H|]. split; [reflexivity|]. intros o' Ho. exists o'. now split. Qed.
Lemma mild_crash s : mild s (crash s, [OPanic]).
Proof. split; [now repeat constructor|]. split; [reflexivity|]. intros o' Ho. now apply not_waiting_crash in Ho. Qed.
Lemma mild_answer s s1 o r : l_limit s1 = l_limit s -> (forall k, r <> Err (EMaxRetries k)) -> mild s (answer s1 o r).
Proof.
  intros Hl H. destruct (answered s1 o r H) as [Q W]. split; [exact Q|].
  split; [unfold answer; destruct (o_gone o); exact Hl|]. intros o' Ho. now apply W in Ho.
Qed.
Lemma mild_increment s out : quiet out -> mild s (increment_faulty s, out).
Proof.
  intro H. split; [exact H|]. unfold increment_faulty. destruct (l_out s) as [o|] eqn:E; cbn [fst].
  - split; [reflexivity|]. intros o' [H1 H2]. cbn in H1, H2. injection H2 as <-. exists o. repeat split; assumption.
  - split; [reflexivity|]. intros o' [_ H2]. congruence.
Qed.
Lemma increment_limit s : l_limit (increment_faulty s) = l_limit s.
Proof. unfold increment_faulty. now destruct (l_out s). Qed.
Lemma mild_trans s s1 out r : mild s (s1, out) -> mild s1 r -> mild s r.
Proof.
  intros (_ & L1 & W1) (Q2 & L2 & W2). cbn [fst] in *. split; [exact Q2|]. split; [congruence|]. intros o' Ho.
  destruct (W2 o' Ho) as (o1 & H1 & T1 & R1). destruct (W1 o1 H1) as (o & H0 & T0 & R0). exists o. repeat split; try apply H0; congruence.
Qed.
Lemma mild_fail s h e : mild s (fail_matching s h e).
Proof.
  unfold fail_matching. destruct (l_out s) as [o|]; [|apply mild_same; constructor].
  destruct (_ =? _); [apply mild_answer; [reflexivity|discriminate]|apply mild_same; constructor].
Qed.
Lemma mild_fail_increment s h e : mild s (fail_matching (increment_faulty s) h e).
Proof. apply (mild_trans s (increment_faulty s) []); [apply mild_increment; constructor|apply mild_fail]. Qed.
Lemma mild_datagram s peer d : mild s (handle_datagram s peer d).
Proof.
  unfold handle_datagram. destruct (dec_header _) as [[h rx]|]; [|apply mild_increment; constructor].
  destruct (h_kind h).
  - unfold handle_sp_error. destruct (dec_message rx) as [[m rest]|]; [|apply mild_fail_increment].
    destruct (msg_body m); first [apply mild_fail_increment | apply mild_increment; constructor].
  - apply mild_increment. now repeat constructor.
  - unfold handle_sp_response. destruct (l_out s) as [o|] eqn:E; [|apply mild_same; constructor].
    destruct (dec_message rx) as [[m rest]|].
    + destruct (msg_body m); try apply mild_fail. destruct (_ =? _); [|apply mild_same; constructor].
      apply mild_answer; [reflexivity|]. intro k. unfold matched_reply.
      destruct (sp_expected_data_len _), (sp_expected_error_data_len _); try destruct (Nat.ltb _ _); discriminate.
    + destruct rx as [|v rx]; [apply mild_crash|]. apply mild_fail_increment.
  - unfold handle_sp_request. destruct (dec_message rx) as [[m rest]|]; [|apply mild_same; now repeat constructor].
    destruct (l_handler s); [apply mild_same; now repeat constructor|apply mild_crash].
  - apply mild_increment. now repeat constructor.
Qed.

Lemma mild_did t now s out : mild (tm_loop t) (s, out) ->
  did t now (mkTimed s (tm_period t) (tm_deadline t)) out.
Proof. intros (Q & _ & W). apply DidRest; [exact Q|]. intros o' Ho. split; [reflexivity|]. now apply W. Qed.
Lemma did_nothing t now : did t now t [].
Proof. destruct t as [s p d]. apply (mild_did (mkTimed s p d)). apply mild_same. constructor. Qed.

Lemma did_stopped s p d now dd : l_status s <> Running -> did (mkTimed s p d) now (mkTimed s p dd) [].
Proof. intro H. apply (DidRest (mkTimed s p d)); [constructor|]. intros o' [G _]. contradiction. Qed.

(** Sending a request. *)
Lemma send_ok s o p : request_packet (o_request o) = Some p ->
  send_outgoing_request s o true =
  (set_out s (Some (mkOut (o_tag o) (o_request o) (o_retries o + 1) (o_errors o) (o_gone o))), [OTx (o_tag o) p]).
Proof. intro H. unfold send_outgoing_request. now rewrite H. Qed.
Lemma send_bad s o : exists out, quiet out /\
  (forall o', ~ waiting (fst (send_outgoing_request s o false)) o') /\
  (snd (send_outgoing_request s o false) = out \/ exists p, snd (send_outgoing_request s o false) = OTx (o_tag o) p :: out).
Proof.
  unfold send_outgoing_request. destruct (request_packet (o_request o)) as [p|].
  - destruct (answered s o (Err EIo) ltac:(discriminate)) as [Q W]. destruct (answer s o (Err EIo)) as [s' out].
    cbn [fst snd] in *. exists out. split; [exact Q|]. split; [exact W|]. right. now exists p.
  - exists [OPanic]. split; [now repeat constructor|]. split; [apply not_waiting_crash|now left].
Qed.
Lemma send_long s o io : request_packet (o_request o) = None -> send_outgoing_request s o io = (crash s, [OPanic]).
Proof. intro H. unfold send_outgoing_request. now rewrite H. Qed.
Lemma sent_false out : sent_request false out = false.
Proof. reflexivity. Qed.

Lemma timed_did t now e : let r := timed_step t now e in
  did t now (fst r) (snd r) /\ l_limit (tm_loop (fst r)) = l_limit (tm_loop t).
Proof.
  cbv zeta. destruct t as [s period d]. unfold timed_step. cbn [tm_loop tm_period tm_deadline].
  destruct (l_status s) eqn:Es.
  2,3: assert (Hstep : step s e = (s, [])) by (unfold step; now rewrite Es);
       assert (Hr : l_status s <> Running) by congruence;
       destruct e; rewrite ?Hstep; try destruct (l_out s); try destruct (now <? d); rewrite ?Hstep; cbn [fst snd];
       (split; [now apply did_stopped|reflexivity]).
  assert (Hstep : forall io dd, (forall tag r io, e <> EvRequest tag r io) -> mild s (step s e) -> io = false -> dd = d ->
    did (mkTimed s period d) now (fst (let (s', out) := step s e in (mkTimed s' period (if sent_request io out then now + period else dd), out)))
      (snd (let (s', out) := step s e in (mkTimed s' period (if sent_request io out then now + period else dd), out))) /\
    l_limit (tm_loop (fst (let (s', out) := step s e in (mkTimed s' period (if sent_request io out then now + period else dd), out)))) = l_limit s).
  { intros io dd _ Hm -> ->. destruct (step s e) as [s' out]. rewrite sent_false. cbn [fst snd tm_loop].
    split; [|exact (proj1 (proj2 Hm))]. now apply (mild_did (mkTimed s period d)). }
  destruct e as [tag r io| |io|hr io| |peer dg io| |]; unfold step in Hstep |- *; rewrite ?Es in Hstep; rewrite ?Es; cbv iota in Hstep |- *.
  - (* request *)
    destruct (l_out s) as [o0|] eqn:Eo.
    + cbn [fst snd]. replace (sent_request io []) with false by (now destruct io). split; [|reflexivity]. apply did_nothing.
    + clear Hstep. set (o := mkOut tag r 0 0 false). set (s1 := set_out s (Some o)).
      destruct io.
      * destruct (request_packet r) as [p|] eqn:Ep.
        -- rewrite (send_ok s1 o p Ep). cbn [fst snd tm_loop sent_request andb existsb]. split; [|reflexivity].
           apply (DidAccept (mkTimed s period d) now tag r); [exact Eo|]. split; [exact Es|reflexivity].
        -- rewrite (send_long s1 o true Ep). cbn [fst snd tm_loop sent_request andb existsb]. split; [|reflexivity].
           apply (DidAcceptFail (mkTimed s period d)); [exact Eo|apply not_waiting_crash|now repeat constructor].
      * destruct (send_bad s1 o) as (out & Q & W & H).
        assert (L : l_limit (fst (send_outgoing_request s1 o false)) = l_limit s).
        { unfold send_outgoing_request, answer. destruct (request_packet _); [|reflexivity]. now destruct (o_gone o). }
        destruct (send_outgoing_request s1 o false) as [s' out'] eqn:E. cbn [fst snd tm_loop sent_request andb] in *.
        split; [|exact L]. destruct H as [->|(p & ->)].
        -- apply (DidAcceptFail (mkTimed s period d)); assumption.
        -- apply (DidAcceptFailTx (mkTimed s period d)); assumption.
  - (* closed *)
    apply Hstep; try reflexivity; [discriminate|]. destruct (l_out s) as [o|] eqn:Eo; [apply mild_same; constructor|].
    split; [constructor|]. split; [reflexivity|]. intros o' [G _]. discriminate.
  - (* tick *)
    clear Hstep. destruct (l_out s) as [o|] eqn:Eo; [|cbn [fst snd]; split; [apply did_nothing|reflexivity]].
    destruct (N.ltb_spec now d) as [Hn|Hn]; [cbn [fst snd]; split; [apply did_nothing|reflexivity]|].
    unfold handle_tick. rewrite Eo. assert (Hw : waiting s o) by (now split).
    destruct (N.ltb_spec (o_retries o) (l_limit s)) as [Hl|Hl].
    + cbn [andb]. destruct (o_errors o <? NUM_ALLOWED_ERROR_MESSAGES).
      * destruct io.
        -- destruct (request_packet (o_request o)) as [p|] eqn:Ep.
           ++ rewrite (send_ok s o p Ep). cbn [fst snd tm_loop sent_request andb existsb]. split; [|reflexivity].
              apply (DidRetry (mkTimed s period d) now) with (o' := mkOut (o_tag o) (o_request o) (o_retries o + 1) (o_errors o) (o_gone o));
                try assumption; try reflexivity. split; [exact Es|reflexivity].
           ++ rewrite (send_long s o true Ep). cbn [fst snd tm_loop sent_request andb existsb]. split; [|reflexivity].
              apply DidRest; [now repeat constructor|]. intros o' G. now apply not_waiting_crash in G.
        -- destruct (send_bad s o) as (out & Q & W & H).
           assert (L : l_limit (fst (send_outgoing_request s o false)) = l_limit s).
           { unfold send_outgoing_request, answer. destruct (request_packet _); [|reflexivity]. now destruct (o_gone o). }
           destruct (send_outgoing_request s o false) as [s' out'] eqn:E. cbn [fst snd tm_loop sent_request andb] in *.
           split; [|exact L]. destruct H as [->|(p & ->)].
           ++ apply DidRest; [exact Q|]. intros o' G. now apply W in G.
           ++ apply (DidRetryFail (mkTimed s period d)); assumption.
      * destruct (N.leb_spec (l_limit s) (o_retries o)); [lia|].
        destruct (answered s o (Err (EMaxFaultMessages (o_errors o))) ltac:(discriminate)) as [Q W].
        assert (L : l_limit (fst (answer s o (Err (EMaxFaultMessages (o_errors o))))) = l_limit s)
          by (unfold answer; now destruct (o_gone o)).
        destruct (answer s o _) as [s' out']. cbn [fst snd tm_loop] in *. split; [|exact L].
        apply DidRest; [exact Q|]. intros o' G. now apply W in G.
    + cbn [andb]. destruct (N.leb_spec (l_limit s) (o_retries o)); [|lia].
      unfold answer. destruct (o_gone o); cbn [fst snd tm_loop]; (split; [|reflexivity]).
      * apply DidRest; [now repeat constructor|]. intros o' G. now apply not_waiting_crash in G.
      * apply (DidGiveUp (mkTimed s period d)); try assumption. now apply not_waiting_none.
  - apply Hstep; try reflexivity; [discriminate|]. destruct hr as [r| |]; try (apply mild_same; constructor).
    unfold send_outgoing_response. destruct (Nat.leb _ _); [apply mild_same; now repeat constructor|apply mild_crash].
  - apply Hstep; try reflexivity; [discriminate|]. apply mild_increment. constructor.
  - apply Hstep; try reflexivity; [discriminate|]. apply mild_datagram.
  - apply Hstep; try reflexivity; [discriminate|]. destruct (l_out s) as [o|] eqn:Eo; [|apply mild_same; constructor].
    split; [constructor|]. split; [reflexivity|]. intros o' [_ G]. cbn in G. injection G as <-. exists o. now repeat split.
  - apply Hstep; try reflexivity; [discriminate|]. split; [constructor|]. split; [reflexivity|].
    intros o' [G1 G2]. exists o'. now repeat split.
Qed.

(** ** Traces *)
Lemma last_accept h1 acc h2 g1 y g2 : is_accept acc = true -> same_request g2 ->
  h1 ++ acc :: h2 = g1 ++ y :: g2 -> (acc = y /\ h2 = g2 /\ h1 = g1) \/ exists m, h2 = m ++ y :: g2.
Proof.
  intros Ha Hg. revert g1. induction h1 as [|z h1 IH]; intros [|z' g1] H; cbn [app] in H.
  - injection H as -> ->. now left.
  - injection H as _ ->. right. now exists g1.
  - injection H as _ <-. exfalso. unfold same_request in Hg. rewrite Forall_forall in Hg.
    specialize (Hg acc ltac:(apply in_or_app; right; now left)). congruence.
  - injection H as -> H. destruct (IH g1 H) as [(-> & -> & ->)|G]; [now left|now right].
Qed.
Definition judged (P K : N) (h : list (N * output)) (x : N * output) : Prop :=
  match snd x with
  | OTx _ _ => forall h1 y h2, h = h1 ++ y :: h2 -> is_tx y = true -> same_request h2 -> fst y + P <= fst x
  | OReply tag' (Err (EMaxRetries k)) =>
      forall h1 a tag r h2, h = h1 ++ (a, OAccept tag r) :: h2 -> same_request h2 ->
        tag' = tag /\ k = K /\ transmissions h2 = k /\ a + k * P <= fst x
  | _ => True
  end.
Definition all_judged (P K : N) (tr : list (N * output)) : Prop :=
  forall h x h3, tr = h ++ x :: h3 -> judged P K h x.
Lemma judged_nil P K : all_judged P K [].
Proof. intros [|? ?] x h3 H; discriminate. Qed.
Lemma judged_snoc P K tr x : all_judged P K tr -> judged P K tr x -> all_judged P K (tr ++ [x]).
Proof.
  intros H Hx h y h3 E. destruct (exists_last (l := y :: h3) ltac:(discriminate)) as (l & z & El). rewrite El in E.
  rewrite app_assoc in E. apply app_inj_tail in E. destruct E as [E ->].
  destruct l as [|w l]; cbn [app] in El.
  - injection El as -> _. rewrite app_nil_r in E. now subst tr.
  - injection El as <- _. now apply (H h y l).
Qed.
Lemma judged_quiet P K tr now out : quiet out -> all_judged P K tr -> all_judged P K (tr ++ map (pair now) out).
Proof.
  revert tr. induction out as [|x out IH]; intros tr Q H; cbn [map]; [now rewrite app_nil_r|].
  inversion Q as [|? ? Hx Hr]; subst. replace (tr ++ (now, x) :: map (pair now) out) with ((tr ++ [(now, x)]) ++ map (pair now) out)
    by (now rewrite <- app_assoc). apply IH; [exact Hr|]. apply judged_snoc; [exact H|].
  unfold judged. cbn [snd]. destruct x as [| |tag' r| | | |]; try exact I; try contradiction.
  destruct r as [x|e|]; try exact I. destruct e; try exact I. contradiction.
Qed.
Lemma quiet_same now out : quiet out -> same_request (map (pair now) out) /\ transmissions (map (pair now) out) = 0 /\
  Forall (fun x => is_tx x = false) (map (pair now) out).
Proof.
  induction out as [|x out IH]; intro Q; [repeat constructor|]. inversion Q as [|? ? Hx Hr]; subst.
  destruct (IH Hr) as (H1 & H2 & H3). assert (Ha : is_accept (now, x) = false) by (now destruct x).
  assert (Ht : is_tx (now, x) = false) by (now destruct x). split; [now constructor|]. split; [|now constructor].
  unfold transmissions in *. cbn [map filter]. now rewrite Ht.
Qed.
Lemma transmissions_app a b : transmissions (a ++ b) = transmissions a + transmissions b.
Proof. unfold transmissions. rewrite filter_app, app_length. lia. Qed.

Record inv (t0 : timed) (slack : N) (es : list (N * event)) (t : timed) (tr : list (N * output)) : Prop :=
  { inv_period : tm_period t = tm_period t0;
    inv_limit : l_limit (tm_loop t) = l_limit (tm_loop t0);
    inv_judged : all_judged (tm_period t0) (N.max 1 (l_limit (tm_loop t0))) tr;
    inv_wait : forall o, waiting (tm_loop t) o -> exists h1 a r h2,
      tr = h1 ++ (a, OAccept (o_tag o) r) :: h2 /\ same_request h2 /\ transmissions h2 = o_retries o /\
      1 <= o_retries o <= N.max 1 (l_limit (tm_loop t0)) /\
      a + o_retries o * tm_period t0 <= tm_deadline t /\
      Forall (fun x => is_tx x = true -> fst x + tm_period t0 <= tm_deadline t) h2 /\
      (prompt slack t0 es -> tm_deadline t + slack <= a + o_retries o * (tm_period t0 + slack)) }.

Lemma prompt_prefix slack t0 es x : prompt slack t0 (es ++ [x]) -> prompt slack t0 es.
Proof. intros H es1 now e es2 ->. apply (H es1 now e (es2 ++ [x])). now rewrite <- app_assoc. Qed.

Lemma inv_step t0 slack es t tr now e : t = fst (timed_run t0 es) -> inv t0 slack es t tr ->
  inv t0 slack (es ++ [(now, e)]) (fst (timed_step t now e)) (tr ++ map (pair now) (snd (timed_step t now e))).
Proof.
  intros Et [Ip Il Ij Iw]. destruct (timed_did t now e) as [D L].
  assert (Hprompt : prompt slack t0 (es ++ [(now, e)]) -> l_out (tm_loop t) <> None -> now <= tm_deadline t + slack).
  { intros Hp Hn. specialize (Hp es now e [] eq_refl). cbv zeta in Hp. rewrite <- Et in Hp. now apply Hp. }
  assert (Ip' : tm_period (fst (timed_step t now e)) = tm_period t0) by (inversion D; cbn; exact Ip).
  assert (Il' : l_limit (tm_loop (fst (timed_step t now e))) = l_limit (tm_loop t0)) by congruence.
  destruct (timed_step t now e) as [t' out]. cbn [fst snd] in *.
  inversion D as [tag r s p Hn Hw|tag r s d out' Hn Hw Q|tag r s d p out' Hn Hw Q|s o o' p Ho Hd Hl Hw Ht Hr
                 |s d o p out' Ho Hd Hl Hw Q|s d o Ho Hd Hl Hw|s d out' Q Hw]; subst t' out; cbn [tm_loop tm_period] in *.
  - (* accepted *)
    assert (J1 : all_judged (tm_period t0) (N.max 1 (l_limit (tm_loop t0))) (tr ++ [(now, OAccept tag r)]))
      by (apply judged_snoc; [exact Ij|exact I]).
    split; [exact Ip'|exact Il'| |].
    + cbn [map]. change (tr ++ [(now, OAccept tag r); (now, OTx tag p)]) with (tr ++ [(now, OAccept tag r)] ++ [(now, OTx tag p)]).
      rewrite app_assoc. apply judged_snoc; [exact J1|]. unfold judged. cbn [snd]. intros h1 y h2 E Hy Hs.
      destruct (last_accept tr (now, OAccept tag r) [] h1 y h2 eq_refl Hs E) as [(<- & _)|(m & G)]; [discriminate|].
      destruct m; discriminate.
    + intros o [_ Ho]. destruct Hw as [_ Hw]. cbn [tm_loop] in Ho. rewrite Hw in Ho. injection Ho as <-. cbn [o_tag o_retries tm_deadline].
      exists tr, now, r, [(now, OTx tag p)]. rewrite Ip. split; [reflexivity|]. split; [now repeat constructor|].
      split; [reflexivity|]. split; [lia|]. split; [lia|]. split; [constructor; [cbn [fst]; lia|constructor]|]. lia.
  - split; [exact Ip'|exact Il'| |intros o Ho; now apply Hw in Ho].
    cbn [map]. replace (tr ++ (now, OAccept tag r) :: map (pair now) out') with ((tr ++ [(now, OAccept tag r)]) ++ map (pair now) out')
      by (now rewrite <- app_assoc). apply judged_quiet; [exact Q|]. now apply judged_snoc.
  - split; [exact Ip'|exact Il'| |intros o Ho; now apply Hw in Ho].
    cbn [map]. replace (tr ++ (now, OAccept tag r) :: (now, OTx tag p) :: map (pair now) out')
      with (((tr ++ [(now, OAccept tag r)]) ++ [(now, OTx tag p)]) ++ map (pair now) out')
      by (now rewrite <- !app_assoc). apply judged_quiet; [exact Q|]. apply judged_snoc; [now apply judged_snoc|].
    unfold judged. cbn [snd]. intros h1 y h2 E Hy Hs.
    destruct (last_accept tr (now, OAccept tag r) [] h1 y h2 eq_refl Hs E) as [(<- & _)|(m & G)]; [discriminate|].
    destruct m; discriminate.
  - (* retried *)
    destruct (Iw o Ho) as (h1 & a & r & h2 & E & Hs & Hk & Hb & Ha & Hf & Hp).
    assert (Hj : judged (tm_period t0) (N.max 1 (l_limit (tm_loop t0))) tr (now, OTx (o_tag o) p)).
    { unfold judged. cbn [snd fst]. intros g1 y g2 Eg Hy Hg. rewrite E in Eg.
      destruct (last_accept _ (a, OAccept (o_tag o) r) _ _ _ _ eq_refl Hg Eg) as [(<- & _)|(m & G)]; [discriminate|].
      rewrite Forall_forall in Hf. specialize (Hf y ltac:(rewrite G; apply in_or_app; right; now left) Hy). lia. }
    split; [exact Ip'|exact Il'|now apply judged_snoc|].
    intros o1 Ho1. assert (o1 = o') by (destruct Ho1 as [_ G1], Hw as [_ G2]; cbn [tm_loop] in G1; congruence). subst o1.
    exists h1, a, r, (h2 ++ [(now, OTx (o_tag o) p)]). rewrite Ht, Hr, Ip. cbn [tm_deadline map].
    split; [now rewrite E, <- app_assoc|]. split; [apply Forall_app; split; [exact Hs|now repeat constructor]|].
    split; [rewrite transmissions_app, Hk; reflexivity|]. rewrite Il in Hl. split; [lia|]. split; [nia|].
    split; [apply Forall_app; split; [revert Hf; apply Forall_impl; intros x Hx G; specialize (Hx G); lia|
            constructor; [cbn [fst]; lia|constructor]]|].
    intro G. specialize (Hp (prompt_prefix _ _ _ _ G)). destruct Ho as [_ Ho]. specialize (Hprompt G ltac:(congruence)). nia.
  - (* could not be sent again *)
    destruct (Iw o Ho) as (h1 & a & r & h2 & E & Hs & Hk & Hb & Ha & Hf & Hp).
    split; [exact Ip'|exact Il'| |intros o1 Ho1; now apply Hw in Ho1].
    cbn [map]. replace (tr ++ (now, OTx (o_tag o) p) :: map (pair now) out')
      with ((tr ++ [(now, OTx (o_tag o) p)]) ++ map (pair now) out') by (now rewrite <- app_assoc).
    apply judged_quiet; [exact Q|]. apply judged_snoc; [exact Ij|].
    unfold judged. cbn [snd fst]. intros g1 y g2 Eg Hy Hg. rewrite E in Eg.
    destruct (last_accept _ (a, OAccept (o_tag o) r) _ _ _ _ eq_refl Hg Eg) as [(<- & _)|(m & G)]; [discriminate|].
    rewrite Forall_forall in Hf. specialize (Hf y ltac:(rewrite G; apply in_or_app; right; now left) Hy). lia.
  - (* given up *)
    destruct (Iw o Ho) as (h1 & a & r & h2 & E & Hs & Hk & Hb & Ha & Hf & Hp).
    split; [exact Ip'|exact Il'| |intros o1 Ho1; now apply Hw in Ho1].
    cbn [map]. apply judged_snoc; [exact Ij|]. unfold judged. cbn [snd fst]. intros g1 a' tag r' g2 Eg Hg. rewrite E in Eg.
    destruct (last_accept _ (a, OAccept (o_tag o) r) _ _ _ _ eq_refl Hg Eg) as [(G1 & <- & _)|(m & G)].
    + injection G1 as <- <- _. rewrite Il in Hl. split; [reflexivity|]. split; [lia|]. split; [exact Hk|]. lia.
    + exfalso. unfold same_request in Hs. rewrite G, Forall_app in Hs. destruct Hs as [_ Hs]. inversion Hs. discriminate.
  - (* the rest *)
    split; [exact Ip'|exact Il'|now apply judged_quiet|]. intros o' Ho'. destruct (Hw o' Ho') as (-> & o & Ho & Ht & Hr).
    destruct (Iw o Ho) as (h1 & a & r & h2 & E & Hs & Hk & Hb & Ha & Hf & Hp).
    destruct (quiet_same now out' Q) as (Q1 & Q2 & Q3).
    exists h1, a, r, (h2 ++ map (pair now) out'). rewrite Ht, Hr. cbn [tm_deadline].
    split; [now rewrite E, <- app_assoc|]. split; [apply Forall_app; now split|].
    split; [rewrite transmissions_app, Hk, Q2; lia|]. split; [exact Hb|]. split; [exact Ha|].
    split; [apply Forall_app; split; [exact Hf|revert Q3; apply Forall_impl; intros x G F; congruence]|].
    intro G. exact (Hp (prompt_prefix _ _ _ _ G)).
Qed.

Lemma inv_run n_retries period start t0 slack es : timed_new n_retries period start = Ok t0 ->
  inv t0 slack es (fst (timed_run t0 es)) (snd (timed_run t0 es)).
Proof.
  intro H. induction es as [|[now e] es IH] using rev_ind.
  - unfold timed_new in H. destruct (period =? 0); [discriminate|]. injection H as <-.
    split; try reflexivity; [apply judged_nil|]. intros o [_ G]. discriminate.
  - rewrite trun_snoc. cbv zeta. cbn [fst snd]. now apply inv_step.
Qed.

Lemma new_facts n_retries period start t0 : timed_new n_retries period start = Ok t0 ->
  tm_period t0 = period /\ N.max 1 (l_limit (tm_loop t0)) = attempts n_retries.
Proof.
  unfold timed_new. destruct (period =? 0); [discriminate|]. intros [= <-]. split; [reflexivity|].
  unfold attempts. cbn [tm_loop loop_new l_limit]. now destruct n_retries.
Qed.
Lemma retries_paced n_retries period start t0 es h1 t1 g1 d1 h2 t2 g2 d2 h3 :
  timed_new n_retries period start = Ok t0 ->
  snd (timed_run t0 es) = h1 ++ (t1, OTx g1 d1) :: h2 ++ (t2, OTx g2 d2) :: h3 -> same_request h2 ->
  t1 + period <= t2.
Proof.
  intros H E Hs. destruct (new_facts _ _ _ _ H) as [<- _]. pose proof (inv_judged _ _ _ _ _ (inv_run _ _ _ _ 0 es H)) as J.
  specialize (J (h1 ++ (t1, OTx g1 d1) :: h2) (t2, OTx g2 d2) h3). rewrite <- app_assoc in J. specialize (J E).
  exact (J h1 (t1, OTx g1 d1) h2 eq_refl eq_refl Hs).
Qed.
Lemma gives_up_late n_retries period start t0 es h1 a tag r h2 t tag' k h3 :
  timed_new n_retries period start = Ok t0 ->
  snd (timed_run t0 es) = h1 ++ (a, OAccept tag r) :: h2 ++ (t, OReply tag' (Err (EMaxRetries k))) :: h3 ->
  same_request h2 ->
  tag' = tag /\ k = attempts n_retries /\ transmissions h2 = k /\ a + k * period <= t.
Proof.
  intros H E Hs. destruct (new_facts _ _ _ _ H) as [<- <-]. pose proof (inv_judged _ _ _ _ _ (inv_run _ _ _ _ 0 es H)) as J.
  specialize (J (h1 ++ (a, OAccept tag r) :: h2) (t, OReply tag' (Err (EMaxRetries k))) h3). rewrite <- app_assoc in J.
  specialize (J E). exact (J h1 a tag r h2 eq_refl Hs).
Qed.
Lemma waits_no_longer n_retries period start t0 slack es now e h1 a tag r h2 o :
  timed_new n_retries period start = Ok t0 -> prompt slack t0 (es ++ [(now, e)]) ->
  snd (timed_run t0 es) = h1 ++ (a, OAccept tag r) :: h2 -> same_request h2 ->
  l_status (tm_loop (fst (timed_run t0 es))) = Running -> l_out (tm_loop (fst (timed_run t0 es))) = Some o ->
  now <= a + attempts n_retries * (period + slack).
Proof.
  intros H Hp E Hs Hr Ho. destruct (new_facts _ _ _ _ H) as [<- <-].
  destruct (inv_wait _ _ _ _ _ (inv_run _ _ _ _ slack es H) o (conj Hr Ho)) as (g1 & a' & r' & g2 & Eg & Hg & _ & Hb & _ & _ & Hd).
  specialize (Hd (prompt_prefix _ _ _ _ Hp)). rewrite E in Eg.
  specialize (Hp es now e [] eq_refl ltac:(congruence)). cbv zeta in Hp.
  destruct (last_accept h1 (a, OAccept tag r) h2 g1 (a', OAccept (o_tag o) r') g2 eq_refl Hg Eg) as [(G1 & _)|(m & G)].
  - injection G1 as <- _ _. nia.
  - exfalso. unfold same_request in Hs. rewrite G, Forall_app in Hs. destruct Hs as [_ Hs]. inversion Hs. discriminate.
Qed.
Lemma starts n_retries period start : timed_new n_retries period start = Panic <-> period = 0.
Proof.
  unfold timed_new. destruct (N.eqb_spec period 0) as [->|H]; [now split|]. now split; intro.
Qed.
