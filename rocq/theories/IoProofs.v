(** Proofs about the I/O loop. *)
From Verif Require Import Tac Spec ModuleIdProofs ModuleIdProps CodecProofs MessageProofs SpecIo.

(** ** Runs *)
Lemma run_app s a b :
  run s (a ++ b) = (after (after s a) b, log s a ++ log (after s a) b).
Proof.
  revert s. induction a as [|e a IH]; intros s; cbn [run app].
  - unfold after, log. cbn. now destruct (run s b).
  - unfold after, log in *. cbn [run]. destruct (step s e) as [s1 o1]. rewrite IH.
    destruct (run s1 a) as [s2 o2]. cbn [fst snd]. now rewrite app_assoc.
Qed.
Lemma after_app s a b : after s (a ++ b) = after (after s a) b.
Proof. unfold after at 1. now rewrite run_app. Qed.
Lemma log_app s a b : log s (a ++ b) = log s a ++ log (after s a) b.
Proof. unfold log at 1. now rewrite run_app. Qed.
Lemma after_one s e : after s [e] = fst (step s e).
Proof. unfold after. cbn. now destruct (step s e). Qed.
Lemma log_one s e : log s [e] = snd (step s e).
Proof. unfold log. cbn. destruct (step s e). cbn. apply app_nil_r. Qed.
Lemma after_cons s e es : after s (e :: es) = after (fst (step s e)) es.
Proof. change (e :: es) with ([e] ++ es). now rewrite after_app, after_one. Qed.
Lemma log_cons s e es : log s (e :: es) = snd (step s e) ++ log (fst (step s e)) es.
Proof. change (e :: es) with ([e] ++ es). now rewrite log_app, log_one, after_one. Qed.

(** ** What one step does to the request in flight *)
Definition same_rpc (a b : option Outstanding) : Prop :=
  match a, b with
  | None, None => True
  | Some x, Some y => o_tag x = o_tag y /\ o_request x = o_request y /\ o_retries x = o_retries y
  | _, _ => False
  end.
Lemma same_rpc_refl a : same_rpc a a.
Proof. destruct a; cbn; auto. Qed.

Inductive view (s : loop) : loop -> list output -> Prop :=
| v_quiet s' outs : same_rpc (l_out s) (l_out s') -> filter is_rpc outs = [] ->
    (l_status s' = Exited -> l_out s' = None) -> view s s' outs
| v_accept_sent s' tag r : l_out s = None ->
    l_out s' = Some (mkOut tag r 1 0 false) -> l_status s' = Running ->
    view s s' [OAccept tag r; OTx tag (wire r)]
| v_accept_io s' tag r : l_out s = None -> l_out s' = None -> l_status s' = Running ->
    view s s' [OAccept tag r; OTx tag (wire r); OReply tag (Err EIo)]
| v_accept_panic s' tag r : l_out s = None -> l_status s' = Crashed ->
    view s s' [OAccept tag r; OPanic]
| v_resend s' o : l_out s = Some o -> o_retries o < l_limit s ->
    l_out s' = Some (mkOut (o_tag o) (o_request o) (o_retries o + 1) (o_errors o) (o_gone o)) ->
    l_status s' = Running -> view s s' [OTx (o_tag o) (wire (o_request o))]
| v_resend_io s' o : l_out s = Some o -> o_retries o < l_limit s -> l_out s' = None ->
    l_status s' = Running ->
    view s s' [OTx (o_tag o) (wire (o_request o)); OReply (o_tag o) (Err EIo)]
| v_resend_panic s' o : l_out s = Some o -> o_retries o < l_limit s -> l_status s' = Crashed ->
    view s s' [OTx (o_tag o) (wire (o_request o)); OPanic]
| v_answer s' o r : l_out s = Some o -> l_out s' = None -> l_status s' = Running ->
    view s s' [OReply (o_tag o) r].

Lemma request_packet_wire r p : request_packet r = Some p -> p = wire r.
Proof.
  unfold request_packet. destruct (Nat.leb _ _); [|discriminate]. intros H. injection H as <-.
  reflexivity.
Qed.

Ltac quiet Eo := apply v_quiet; cbn; rewrite ?Eo; cbn; auto; try discriminate; try congruence.
Lemma view_crash s : view s (crash s) [OPanic].
Proof. apply v_quiet; [apply same_rpc_refl|reflexivity|discriminate]. Qed.
Lemma view_answer s o r : l_status s = Running -> l_out s = Some o ->
  view s (fst (answer s o r)) (snd (answer s o r)).
Proof.
  intros Hr Ho. unfold answer. destruct (o_gone o); cbn [fst snd].
  - apply view_crash.
  - now apply v_answer.
Qed.
Lemma same_increment s : same_rpc (l_out s) (l_out (increment_faulty s)).
Proof. unfold increment_faulty. destruct (l_out s) as [o|] eqn:E; cbn; rewrite ?E; auto. Qed.
Lemma status_increment s : l_status (increment_faulty s) = l_status s.
Proof. unfold increment_faulty. now destruct (l_out s). Qed.
Lemma limit_increment s : l_limit (increment_faulty s) = l_limit s.
Proof. unfold increment_faulty. now destruct (l_out s). Qed.

Lemma view_increment s outs : l_status s = Running -> filter is_rpc outs = [] ->
  view s (increment_faulty s) outs.
Proof.
  intros Hr Ho. apply v_quiet; [apply same_increment|exact Ho|].
  rewrite status_increment, Hr. discriminate.
Qed.
Lemma view_fail s h e : l_status s = Running ->
  view s (fst (fail_matching s h e)) (snd (fail_matching s h e)).
Proof.
  intros Hr. unfold fail_matching. destruct (l_out s) as [o|] eqn:Eo.
  - destruct (_ =? _); [now apply view_answer|].
    apply v_quiet; [apply same_rpc_refl|reflexivity|cbn; congruence].
  - apply v_quiet; [apply same_rpc_refl|reflexivity|cbn; congruence].
Qed.

Lemma view_incr_fail s h e : l_status s = Running ->
  view s (fst (fail_matching (increment_faulty s) h e)) (snd (fail_matching (increment_faulty s) h e)).
Proof.
  intros Hr. unfold fail_matching, increment_faulty.
  destruct (l_out s) as [o|] eqn:Eo; cbn [l_out set_out].
  - cbn [o_request]. destruct (_ =? _); [|cbn [fst snd]].
    + unfold answer. cbn [o_gone]. destruct (o_gone o); cbn [fst snd].
      * quiet Eo.
      * apply (v_answer s _ o _ Eo); [reflexivity|exact Hr].
    + quiet Eo.
  - rewrite Eo. quiet Eo.
Qed.

Lemma step_view s e : l_status s = Running -> view s (fst (step s e)) (snd (step s e)).
Proof.
  intros Hr.
  assert (Q : view s s []).
  { apply v_quiet; [apply same_rpc_refl|reflexivity|congruence]. }
  unfold step. rewrite Hr. destruct e as [tag r io| |io|hr io| |peer d io| | ].
  - destruct (l_out s) as [o|] eqn:Eo; [exact Q|].
    unfold send_outgoing_request. cbn [o_request].
    destruct (request_packet r) as [p|] eqn:Ep.
    + apply request_packet_wire in Ep. subst p. destruct io; cbn.
      * now apply v_accept_sent.
      * now apply v_accept_io.
    + cbn. now apply v_accept_panic.
  - destruct (l_out s) as [o|] eqn:Eo; [exact Q|].
    quiet Eo.
  - unfold handle_tick. destruct (l_out s) as [o|] eqn:Eo; [|exact Q].
    destruct ((o_retries o <? l_limit s) && _) eqn:El.
    + assert (Hlt : o_retries o < l_limit s) by lia. unfold send_outgoing_request.
      destruct (request_packet (o_request o)) as [p|] eqn:Ep.
      * apply request_packet_wire in Ep. subst p. destruct io.
        -- now apply v_resend.
        -- unfold answer. destruct (o_gone o); cbn.
           ++ now apply v_resend_panic.
           ++ now apply v_resend_io.
      * apply view_crash.
    + destruct (l_limit s <=? o_retries o); now apply view_answer.
  - destruct hr as [r| |]; try exact Q. unfold send_outgoing_response.
    destruct (Nat.leb _ _).
    + apply v_quiet; [apply same_rpc_refl|reflexivity|cbn; congruence].
    + apply view_crash.
  - now apply view_increment.
  - unfold handle_datagram. destruct (dec_header _) as [[h rx]|]; [|now apply view_increment].
    destruct (h_kind h).
    + unfold handle_sp_error. destruct (dec_message rx) as [[m rest]|].
      * destruct (msg_body m); try now apply view_increment. now apply view_incr_fail.
      * now apply view_incr_fail.
    + now apply view_increment.
    + unfold handle_sp_response. destruct (l_out s) as [o|] eqn:Eo; [|exact Q].
      destruct (dec_message rx) as [[m rest]|].
      * destruct (msg_body m); try now apply view_fail.
        destruct (_ =? _); [now apply view_answer|exact Q].
      * destruct rx as [|v rx]; [apply view_crash|]. now apply view_incr_fail.
    + unfold handle_sp_request. destruct (dec_message rx) as [[m rest]|].
      * destruct (l_handler s); [|apply view_crash].
        apply v_quiet; [apply same_rpc_refl|reflexivity|cbn; congruence].
      * apply v_quiet; [apply same_rpc_refl|reflexivity|cbn; congruence].
    + now apply view_increment.
  - destruct (l_out s) as [o|] eqn:Eo; [|exact Q].
    quiet Eo.
  - apply v_quiet; cbn; [apply same_rpc_refl|reflexivity|congruence].
Qed.

Lemma step_stopped s e : l_status s <> Running -> step s e = (s, []).
Proof. intros H. unfold step. destruct (l_status s); congruence. Qed.

Lemma answer_limit s o r : l_limit (fst (answer s o r)) = l_limit s.
Proof. unfold answer. now destruct (o_gone o). Qed.
Lemma send_limit s o io : l_limit (fst (send_outgoing_request s o io)) = l_limit s.
Proof.
  unfold send_outgoing_request. destruct (request_packet _); [|reflexivity].
  destruct io; [reflexivity|]. pose proof (answer_limit s o (Err EIo)) as H.
  destruct (answer _ _ _). exact H.
Qed.
Lemma fail_limit s h e : l_limit (fst (fail_matching s h e)) = l_limit s.
Proof.
  unfold fail_matching. destruct (l_out s) as [o|]; [|reflexivity].
  destruct (_ =? _); [apply answer_limit|reflexivity].
Qed.
Lemma step_limit s e : l_limit (fst (step s e)) = l_limit s.
Proof.
  unfold step. destruct (l_status s); try reflexivity.
  destruct e as [tag r io| |io|hr io| |peer d io| | ].
  - destruct (l_out s); [reflexivity|].
    pose proof (send_limit (set_out s (Some (mkOut tag r 0 0 false))) (mkOut tag r 0 0 false) io) as H.
    destruct (send_outgoing_request _ _ _). exact H.
  - now destruct (l_out s).
  - unfold handle_tick. destruct (l_out s) as [o|]; [|reflexivity].
    destruct (_ && _); [apply send_limit|]. destruct (_ <=? _); apply answer_limit.
  - destruct hr; try reflexivity. unfold send_outgoing_response. now destruct (Nat.leb _ _).
  - apply limit_increment.
  - unfold handle_datagram. destruct (dec_header _) as [[h rx]|]; [|apply limit_increment].
    destruct (h_kind h).
    + unfold handle_sp_error. destruct (dec_message rx) as [[m rest]|].
      * destruct (msg_body m); try apply limit_increment.
        rewrite fail_limit. apply limit_increment.
      * rewrite fail_limit. apply limit_increment.
    + apply limit_increment.
    + unfold handle_sp_response. destruct (l_out s) as [o|]; [|reflexivity].
      destruct (dec_message rx) as [[m rest]|].
      * destruct (msg_body m); try apply fail_limit.
        destruct (_ =? _); [apply answer_limit|reflexivity].
      * destruct rx; [reflexivity|]. rewrite fail_limit. apply limit_increment.
    + unfold handle_sp_request. destruct (dec_message rx) as [[m rest]|]; [|reflexivity].
      now destruct (l_handler s).
    + apply limit_increment.
  - now destruct (l_out s).
  - reflexivity.
Qed.
Lemma after_limit s es : l_limit (after s es) = l_limit s.
Proof.
  revert s; induction es as [|e es IH]; intros s; [reflexivity|].
  now rewrite after_cons, IH, step_limit.
Qed.

(** ** The log is a sequence of sessions *)
Definition in_flight (s : loop) (cur : list session) : Prop :=
  match cur with
  | [] => l_status s <> Crashed -> l_out s = None
  | [c] => ss_answer c = None /\ l_status s <> Exited /\
           (l_status s = Running -> exists o, l_out s = Some o /\ o_tag o = ss_tag c /\
              o_request o = ss_request c /\ o_retries o = N.of_nat (ss_sent c))
  | _ => False
  end.
Definition sessions_ok (s : loop) (outs : list output) : Prop :=
  exists dn cur, filter is_rpc outs = concat (map render (dn ++ cur)) /\
    Forall answered dn /\ Forall (sent_within (l_limit s)) (dn ++ cur) /\ in_flight s cur.

Lemma render_more c : ss_answer c = None ->
  render c ++ [OTx (ss_tag c) (wire (ss_request c))]
  = render (mkSession (ss_tag c) (ss_request c) (S (ss_sent c)) None).
Proof.
  intros H. unfold render. rewrite H. cbn [ss_tag ss_request ss_sent ss_answer].
  rewrite !app_nil_r. rewrite <- app_comm_cons. f_equal.
  change [OTx (ss_tag c) (wire (ss_request c))] with (repeat (OTx (ss_tag c) (wire (ss_request c))) 1).
  rewrite <- repeat_app. f_equal. lia.
Qed.
Lemma render_answer c r : ss_answer c = None ->
  render c ++ [OReply (ss_tag c) r] = render (mkSession (ss_tag c) (ss_request c) (ss_sent c) (Some r)).
Proof.
  intros H. unfold render. rewrite H. cbn [ss_tag ss_request ss_sent ss_answer].
  rewrite app_nil_r. now rewrite <- app_comm_cons.
Qed.
Lemma concat_snoc {A B} (f : A -> list B) l x : concat (map f (l ++ [x])) = concat (map f l) ++ f x.
Proof. rewrite map_app, concat_app. cbn. now rewrite app_nil_r. Qed.

Lemma sessions_step s outs e : sessions_ok s outs ->
  sessions_ok (fst (step s e)) (outs ++ snd (step s e)).
Proof.
  intros H. destruct (l_status s) eqn:Er.
  2,3: (rewrite step_stopped by congruence; cbn [fst snd]; rewrite app_nil_r; exact H).
  pose proof (step_view s e Er) as V. pose proof (step_limit s e) as Hl.
  destruct (step s e) as [s' o2]. cbn [fst snd] in *.
  destruct H as (dn & cur & Hf & Ha & Hs & Hi). unfold sessions_ok. rewrite filter_app, Hf, Hl.
  assert (Hcur : (cur = [] /\ l_out s = None) \/
    exists c o, cur = [c] /\ ss_answer c = None /\ l_out s = Some o /\ o_tag o = ss_tag c /\
      o_request o = ss_request c /\ o_retries o = N.of_nat (ss_sent c)).
  { destruct cur as [|c [|? ?]]; cbn in Hi.
    - left. split; [reflexivity|]. apply Hi. congruence.
    - right. destruct Hi as (H1 & H2 & H3). destruct (H3 Er) as (o & H4). exists c, o. tauto.
    - destruct Hi. }
  destruct V as [s' outs' Hsame Hq Hx|s' tag r H1 H2 H3|s' tag r H1 H2 H3|s' tag r H1 H3
                |s' o H1 H2 H3 H4|s' o H1 H2 H3 H4|s' o H1 H2 H3|s' o r H1 H2 H3].
  - (* quiet *)
    exists dn, cur. rewrite Hq, app_nil_r. split; [reflexivity|]. split; [exact Ha|].
    split; [exact Hs|]. destruct Hcur as [[-> Ho]|(c & o & -> & Hn & Ho & Ht & Hq' & Hr)].
    + rewrite Ho in Hsame. cbn. destruct (l_out s'); [destruct Hsame|]. intros _. reflexivity.
    + rewrite Ho in Hsame. destruct (l_out s') as [o'|] eqn:Eo'; [|destruct Hsame].
      cbn in Hsame. cbn. split; [exact Hn|]. split; [intros K; apply Hx in K; discriminate|].
      intros _. exists o'. rewrite Eo'. split; [reflexivity|].
      destruct Hsame as (S1 & S2 & S3). rewrite <- S1, <- S2, <- S3. auto.
  - (* accepted and sent *)
    destruct Hcur as [[-> _]|(c & o & _ & _ & K & _)]; [|congruence].
    exists dn, [mkSession tag r 1 None]. rewrite app_nil_r in *. rewrite concat_snoc.
    split; [reflexivity|]. split; [exact Ha|]. split.
    + apply Forall_app. split; [exact Hs|]. constructor; [|constructor].
      unfold sent_within. cbn. lia.
    + cbn. split; [reflexivity|]. split; [congruence|]. intros _. eexists. split; [exact H2|]. auto.
  - destruct Hcur as [[-> _]|(c & o & _ & _ & K & _)]; [|congruence].
    exists (dn ++ [mkSession tag r 1 (Some (Err EIo))]), []. rewrite app_nil_r in *.
    rewrite app_nil_r, concat_snoc. split; [reflexivity|]. split; [|split].
    + apply Forall_app. split; [exact Ha|]. constructor; [discriminate|constructor].
    + apply Forall_app. split; [exact Hs|]. constructor; [|constructor].
      unfold sent_within. cbn. lia.
    + cbn. auto.
  - destruct Hcur as [[-> _]|(c & o & _ & _ & K & _)]; [|congruence].
    exists dn, [mkSession tag r 0 None]. rewrite app_nil_r in *. rewrite concat_snoc.
    split; [reflexivity|]. split; [exact Ha|]. split.
    + apply Forall_app. split; [exact Hs|]. constructor; [|constructor].
      unfold sent_within. cbn. lia.
    + cbn. split; [reflexivity|]. rewrite H3. split; discriminate.
  - (* resend *)
    destruct Hcur as [[_ K]|(c & o' & -> & Hn & Ho & Ht & Hq & Hr)]; [congruence|].
    rewrite Ho in H1. injection H1 as <-.
    exists dn, [mkSession (ss_tag c) (ss_request c) (S (ss_sent c)) None].
    rewrite !concat_snoc, <- app_assoc. cbn [filter is_rpc].
    rewrite Ht, Hq, render_more by exact Hn. split; [reflexivity|]. split; [exact Ha|]. split.
    + apply Forall_app in Hs. destruct Hs as [Hs _]. apply Forall_app. split; [exact Hs|].
      constructor; [|constructor]. unfold sent_within. cbn [ss_sent]. lia.
    + cbn. split; [reflexivity|]. split; [congruence|]. intros _. eexists. split; [exact H3|].
      cbn [o_tag o_request o_retries]. split; [exact Ht|]. split; [exact Hq|]. lia.
  - destruct Hcur as [[_ K]|(c & o' & -> & Hn & Ho & Ht & Hq & Hr)]; [congruence|].
    rewrite Ho in H1. injection H1 as <-.
    exists (dn ++ [mkSession (ss_tag c) (ss_request c) (S (ss_sent c)) (Some (Err EIo))]), [].
    rewrite app_nil_r, !concat_snoc, <- app_assoc. cbn [filter is_rpc]. rewrite Ht, Hq. split.
    + f_equal. change [OTx (ss_tag c) (wire (ss_request c)); OReply (ss_tag c) (Err EIo)]
        with ([OTx (ss_tag c) (wire (ss_request c))] ++ [OReply (ss_tag c) (Err EIo)]).
      rewrite app_assoc, render_more by exact Hn.
      exact (render_answer (mkSession (ss_tag c) (ss_request c) (S (ss_sent c)) None) (Err EIo) eq_refl).
    + split; [|split].
      * apply Forall_app. split; [exact Ha|]. constructor; [discriminate|constructor].
      * apply Forall_app in Hs. destruct Hs as [Hs _]. apply Forall_app. split; [exact Hs|].
        constructor; [|constructor]. unfold sent_within. cbn [ss_sent]. lia.
      * cbn. auto.
  - destruct Hcur as [[_ K]|(c & o' & -> & Hn & Ho & Ht & Hq & Hr)]; [congruence|].
    rewrite Ho in H1. injection H1 as <-.
    exists dn, [mkSession (ss_tag c) (ss_request c) (S (ss_sent c)) None].
    rewrite !concat_snoc, <- app_assoc. cbn [filter is_rpc].
    rewrite Ht, Hq, render_more by exact Hn. split; [reflexivity|]. split; [exact Ha|]. split.
    + apply Forall_app in Hs. destruct Hs as [Hs _]. apply Forall_app. split; [exact Hs|].
      constructor; [|constructor]. unfold sent_within. cbn [ss_sent]. lia.
    + cbn. split; [reflexivity|]. rewrite H3. split; discriminate.
  - destruct Hcur as [[_ K]|(c & o' & -> & Hn & Ho & Ht & Hq & Hr)]; [congruence|].
    rewrite Ho in H1. injection H1 as <-.
    exists (dn ++ [mkSession (ss_tag c) (ss_request c) (ss_sent c) (Some r)]), [].
    rewrite app_nil_r, !concat_snoc, <- app_assoc. cbn [filter is_rpc]. rewrite Ht. split.
    + f_equal. apply render_answer. exact Hn.
    + split; [|split].
      * apply Forall_app. split; [exact Ha|]. constructor; [discriminate|constructor].
      * apply Forall_app in Hs. destruct Hs as [Hs Hc]. apply Forall_app. split; [exact Hs|].
        apply Forall_inv in Hc. constructor; [exact Hc|constructor].
      * cbn. auto.
Qed.

Lemma sessions_run n es : sessions_ok (after (loop_new n) es) (log (loop_new n) es).
Proof.
  induction es as [|e es IH] using rev_ind.
  - exists [], []. cbn. repeat split; constructor.
  - rewrite after_app, after_one, log_app, log_one. now apply sessions_step.
Qed.
