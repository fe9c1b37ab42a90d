(** What stops the I/O loop exactly, and what becomes of it without its handler (C25). *)
From Verif Require Import Tac Spec SpecIo IoProofs IoProofs2 IoProofs3.

Lemma handler_increment s : l_handler (increment_faulty s) = l_handler s.
Proof. unfold increment_faulty. now destruct (l_out s). Qed.
Lemma handler_answer s o r : l_handler (fst (answer s o r)) = l_handler s.
Proof. unfold answer. now destruct (o_gone o). Qed.
Lemma handler_fail s h e : l_handler (fst (fail_matching s h e)) = l_handler s.
Proof. unfold fail_matching. destruct (l_out s); [|reflexivity]. destruct (_ =? _); [apply handler_answer|reflexivity]. Qed.
Lemma handler_send s o io : l_handler (fst (send_outgoing_request s o io)) = l_handler s.
Proof.
  unfold send_outgoing_request. destruct (request_packet _); [|reflexivity]. destruct io; [reflexivity|].
  pose proof (handler_answer s o (Err EIo)) as H. destruct (answer s o (Err EIo)). exact H.
Qed.

Lemma handler_datagram s peer d : l_handler (fst (handle_datagram s peer d)) = l_handler s.
Proof.
  unfold handle_datagram. destruct (dec_header _) as [[h rx]|]; [|apply handler_increment].
  destruct (h_kind h); cbn [fst]; try apply handler_increment.
  - unfold handle_sp_error. destruct (dec_message rx) as [[m rest]|].
    + destruct (msg_body m); cbn [fst]; rewrite ?handler_fail; apply handler_increment.
    + rewrite handler_fail. apply handler_increment.
  - unfold handle_sp_response. destruct (l_out s); [|reflexivity]. destruct (dec_message rx) as [[m rest]|].
    + destruct (msg_body m); try apply handler_fail. destruct (_ =? _); [apply handler_answer|reflexivity].
    + destruct rx; [reflexivity|]. rewrite handler_fail. apply handler_increment.
  - unfold handle_sp_request. destruct (dec_message rx) as [[m rest]|]; [|reflexivity].
    destruct (l_handler s) eqn:E; cbn; congruence.
Qed.

Lemma handler_step s e : l_handler (fst (step s e)) = true <->
  l_handler s = true /\ (e = EvHandlerGone -> l_status s <> Running).
Proof.
  enough (l_handler (fst (step s e)) =
          match l_status s, e with Running, EvHandlerGone => false | _, _ => l_handler s end) as H.
  { rewrite H. destruct (l_status s), e; split; intros; try tauto; try discriminate; repeat split; try tauto; try discriminate;
      destruct H0 as [? K]; now elim (K eq_refl). }
  unfold step. destruct (l_status s); [|now destruct e|now destruct e]. destruct e; try reflexivity.
  - destruct (l_out s); [reflexivity|]. match goal with |- context [send_outgoing_request ?a ?b ?c] =>
      pose proof (handler_send a b c) as H; destruct (send_outgoing_request a b c) end. exact H.
  - now destruct (l_out s).
  - unfold handle_tick. destruct (l_out s); [|reflexivity]. destruct (_ && _); [apply handler_send|].
    destruct (_ <=? _); apply handler_answer.
  - destruct r; try reflexivity. unfold send_outgoing_response. now destruct (Nat.leb _ _).
  - apply handler_increment.
  - apply handler_datagram.
  - now destruct (l_out s).
Qed.

Lemma after_snoc s es e : after s (es ++ [e]) = fst (step (after s es) e).
Proof. rewrite after_app. generalize (after s es). intros t. unfold after. cbn [run]. now destruct (step t e). Qed.

Lemma handler_never n es : ~ In EvHandlerGone es -> l_handler (after (loop_new n) es) = true.
Proof.
  intros H. revert H. induction es as [|e es IH] using rev_ind; intros H; [reflexivity|].
  rewrite after_snoc. apply handler_step. split.
  - apply IH. intro. apply H. apply in_or_app. now left.
  - intros ->. elim H. apply in_or_app. right. now left.
Qed.

Lemma step_stopped s e : l_status s <> Running -> fst (step s e) = s.
Proof. unfold step. destruct (l_status s); [congruence|reflexivity|reflexivity]. Qed.
Lemma handler_gone s pre mid : l_status (after s (pre ++ EvHandlerGone :: mid)) = Running ->
  l_handler (after s (pre ++ EvHandlerGone :: mid)) = false.
Proof.
  induction mid as [|e mid IH] using rev_ind; intros H.
  - rewrite after_snoc in *.
    assert (R : l_status (after s pre) = Running).
    { destruct (l_status (after s pre)) eqn:E; [reflexivity| |]; rewrite step_stopped in H by congruence; congruence. }
    unfold step. now rewrite R.
  - rewrite app_comm_cons, app_assoc in *. rewrite after_snoc in *.
    set (t := after s (pre ++ EvHandlerGone :: mid)) in *.
    assert (R : l_status t = Running).
    { destruct (l_status t) eqn:E; [reflexivity| |]; rewrite step_stopped in H by congruence; congruence. }
    specialize (IH R). destruct (l_handler (fst (step t e))) eqn:E; [|reflexivity].
    apply handler_step in E. destruct E. congruence.
Qed.

Lemma orphan s pre mid peer d io h m rx rest :
  l_status (after s (pre ++ EvHandlerGone :: mid)) = Running ->
  dec_header (firstn MAX_PACKET_SIZE d) = Some (h, rx) -> h_kind h = KSpRequest ->
  dec_message rx = Some (m, rest) ->
  l_status (fst (step (after s (pre ++ EvHandlerGone :: mid)) (EvDatagram peer d io))) = Crashed.
Proof.
  intros R Eh Ek Em. pose proof (handler_gone s pre mid R) as G.
  unfold step. rewrite R. unfold handle_datagram. rewrite Eh, Ek. unfold handle_sp_request. rewrite Em, G. reflexivity.
Qed.

Lemma crash_exact s peer d io : l_status s = Running ->
  (l_status (fst (step s (EvDatagram peer d io))) = Crashed <->
   exists h rx, dec_header (firstn MAX_PACKET_SIZE d) = Some (h, rx) /\
    ((h_kind h = KSpResponse /\ rx = [] /\ l_out s <> None) \/
     (h_kind h = KSpRequest /\ dec_message rx <> None /\ l_handler s = false) \/
     (exists o, l_out s = Some o /\ o_gone o = true /\ h_id h = h_id (rpc_header (o_request o)) /\
        (h_kind h = KError /\ (forall m rest, dec_message rx = Some (m, rest) -> exists e, msg_body m = BError e)
         \/ h_kind h = KSpResponse)))).
Proof.
  intros Hr. unfold step. rewrite Hr. unfold handle_datagram.
  destruct (dec_header _) as [[h rx]|]; cycle 1.
  { split; [|intros (h & rx & H & _); discriminate]. cbn. rewrite status_increment. congruence. }
  assert (F : forall s0 e, l_status s0 = Running -> (l_status (fst (fail_matching s0 h e)) = Crashed <->
    exists o, l_out s0 = Some o /\ o_gone o = true /\ h_id h = h_id (rpc_header (o_request o)))).
  { intros s0 e H0. unfold fail_matching. destruct (l_out s0) as [o|]; cycle 1.
    { cbn. split; [congruence|]. intros (o & H & _). discriminate. }
    destruct (_ =? _) eqn:Ei.
    - apply N.eqb_eq in Ei. unfold answer. destruct (o_gone o) eqn:Eg; cbn.
      + split; [eauto|reflexivity].
      + split; [congruence|]. intros (o1 & K & K2 & _). injection K as <-. congruence.
    - cbn. apply N.eqb_neq in Ei. split; [congruence|]. intros (o1 & K & _ & K2). injection K as <-. congruence. }
  assert (I : (exists o, l_out (increment_faulty s) = Some o /\ o_gone o = true /\ h_id h = h_id (rpc_header (o_request o))) <->
              (exists o, l_out s = Some o /\ o_gone o = true /\ h_id h = h_id (rpc_header (o_request o)))).
  { unfold increment_faulty. destruct (l_out s) as [o|] eqn:Eo; [|now rewrite Eo]. cbn. split; intros (o1 & K & K2 & K3); injection K as <-; eexists; (split; [reflexivity|]); auto. }
  assert (Ri : l_status (increment_faulty s) = Running) by now rewrite status_increment.
  destruct (h_kind h) eqn:Ek.
  - unfold handle_sp_error. destruct (dec_message rx) as [[m rest]|] eqn:Em.
    + destruct (msg_body m) eqn:Eb.
      * rewrite (F _ _ Ri), I. split.
        -- intros (o & K). exists h, rx. split; [reflexivity|]. right; right. exists o. split; [tauto|]. split; [tauto|]. split; [tauto|].
           left. split; [exact Ek|]. intros m1 r1 H. rewrite Em in H. injection H as <- <-. eauto.
        -- intros (h1 & rx1 & H & K). injection H as <- <-. destruct K as [K|[K|(o & K)]]; [destruct K; congruence..|]. exists o. tauto.
      * cbn [fst]. split; [congruence|]. intros (h1 & rx1 & H & K). injection H as <- <-.
        destruct K as [K|[K|(o & _ & _ & _ & [[_ K]|K])]]; try (destruct K; congruence); try congruence.
        destruct (K _ _ Em). congruence.
      * cbn [fst]. split; [congruence|]. intros (h1 & rx1 & H & K). injection H as <- <-.
        destruct K as [K|[K|(o & _ & _ & _ & [[_ K]|K])]]; try (destruct K; congruence); try congruence.
        destruct (K _ _ Em). congruence.
      * match goal with r : SpRequestBody |- _ => destruct r end.
      * match goal with r : HostResponseBody |- _ => destruct r end.
    + rewrite (F _ _ Ri), I. split.
      * intros (o & K). exists h, rx. split; [reflexivity|]. right; right. exists o. split; [tauto|]. split; [tauto|]. split; [tauto|].
        left. split; [exact Ek|]. intros m1 r1 H. congruence.
      * intros (h1 & rx1 & H & K). injection H as <- <-. destruct K as [K|[K|(o & K)]]; [destruct K; congruence..|]. exists o. tauto.
  - cbn [fst]. split; [congruence|]. intros (h1 & rx1 & H & K). injection H as <- <-. destruct K as [(K & _)|[(K & K2 & K3)|(o & _ & _ & _ & [(K & _)|K])]]; congruence.
  - unfold handle_sp_response. destruct (l_out s) as [o|] eqn:Eo; cycle 1.
    { cbn. split; [congruence|]. intros (h1 & rx1 & H & K). injection H as <- <-.
      destruct K as [(_ & _ & K)|[(K & _)|(o & K & _)]]; congruence. }
    assert (B : forall P : Prop, rx <> [] ->
      (P <-> exists o1, Some o = Some o1 /\ o_gone o1 = true /\ h_id h = h_id (rpc_header (o_request o1))) ->
      (P <-> exists h1 rx1, Some (h, rx) = Some (h1, rx1) /\
        ((h_kind h1 = KSpResponse /\ rx1 = [] /\ Some o <> None) \/
         (h_kind h1 = KSpRequest /\ dec_message rx1 <> None /\ l_handler s = false) \/
         (exists o1, Some o = Some o1 /\ o_gone o1 = true /\ h_id h1 = h_id (rpc_header (o_request o1)) /\
           (h_kind h1 = KError /\ (forall m rest, dec_message rx1 = Some (m, rest) -> exists e, msg_body m = BError e)
            \/ h_kind h1 = KSpResponse))))).
    { intros P Hn Hp. rewrite Hp. split.
      - intros (o1 & K). exists h, rx. split; [reflexivity|]. right; right. exists o1. tauto.
      - intros (h1 & rx1 & H & K). injection H as <- <-. destruct K as [(_ & K & _)|[(K & _)|(o1 & K)]]; try congruence. exists o1. tauto. }
    destruct (dec_message rx) as [[m rest]|] eqn:Em.
    + assert (Hn : rx <> []) by (intros ->; vm_compute in Em; discriminate).
      destruct (msg_body m) eqn:Eb; try (apply (B _ Hn); rewrite (F s _ Hr), Eo; reflexivity).
      apply (B _ Hn). destruct (_ =? _) eqn:Ei.
      * apply N.eqb_eq in Ei. unfold answer. destruct (o_gone o) eqn:Eg; cbn.
        -- split; [eauto|reflexivity].
        -- split; [congruence|]. intros (o1 & K & K2 & _). injection K as <-. congruence.
      * cbn. apply N.eqb_neq in Ei. split; [congruence|]. intros (o1 & K & _ & K2). injection K as <-. congruence.
    + destruct rx as [|v rx].
      * cbn. split; [|reflexivity]. intros _. exists h, []. split; [reflexivity|]. left. repeat split; [exact Ek|discriminate].
      * apply B; [discriminate|]. rewrite (F _ _ Ri), I. reflexivity.
  - unfold handle_sp_request. destruct (dec_message rx) as [[m rest]|] eqn:Em.
    + destruct (l_handler s) eqn:El; cbn.
      * split; [congruence|]. intros (h1 & rx1 & H & K). injection H as <- <-. destruct K as [(K & _)|[(K & K2 & K3)|(o & _ & _ & _ & [(K & _)|K])]]; congruence.
      * split; [|reflexivity]. intros _. exists h, rx. split; [reflexivity|]. right; left. repeat split; [exact Ek|]. rewrite Em. discriminate.
    + cbn. split; [congruence|]. intros (h1 & rx1 & H & K). injection H as <- <-. destruct K as [(K & _)|[(K & K2 & K3)|(o & _ & _ & _ & [(K & _)|K])]]; congruence.
  - cbn [fst]. split; [congruence|]. intros (h1 & rx1 & H & K). injection H as <- <-. destruct K as [(K & _)|[(K & K2 & K3)|(o & _ & _ & _ & [(K & _)|K])]]; congruence.
Qed.
