(** Consequences for callers (C19, C20, C22-C24). *)
From Verif Require Import Tac Spec ModuleIdProofs ModuleIdProps CodecProofs MessageProofs SpecIo IoProofs.

(** ** C19 *)
Lemma flat_map_filter {A B} (f : A -> list B) (p : A -> bool) l :
  (forall x, p x = false -> f x = []) -> flat_map f (filter p l) = flat_map f l.
Proof.
  intros H. induction l as [|x l IH]; [reflexivity|]. cbn. destruct (p x) eqn:E; cbn; rewrite IH.
  - reflexivity.
  - now rewrite (H x E).
Qed.
Lemma flat_map_repeat {A B} (f : A -> list B) x n : f x = [] -> flat_map f (repeat x n) = [].
Proof. intros H. induction n as [|n IH]; cbn; [reflexivity|]. now rewrite H, IH. Qed.
Lemma flat_map_concat_map' {A B C} (f : B -> list C) (g : A -> list B) l :
  flat_map f (concat (map g l)) = flat_map (fun x => flat_map f (g x)) l.
Proof.
  induction l as [|x l IH]; [reflexivity|]. cbn. now rewrite flat_map_app, IH.
Qed.
Lemma accepts_render c : accepts (render c) = [ss_tag c].
Proof.
  unfold accepts, render. cbn [flat_map app]. f_equal. rewrite flat_map_app, flat_map_repeat by reflexivity.
  now destruct (ss_answer c).
Qed.
Lemma replies_render c : replies (render c) = match ss_answer c with Some _ => [ss_tag c] | None => [] end.
Proof.
  unfold replies, render. cbn [flat_map app]. rewrite flat_map_app, flat_map_repeat by reflexivity.
  now destruct (ss_answer c).
Qed.

Lemma answers_in_order n es :
  let s := after (loop_new n) es in
  exists pending, accepts (log (loop_new n) es) = replies (log (loop_new n) es) ++ pending /\
    (length pending <= 1)%nat /\
    (l_status s = Running ->
       pending = match l_out s with Some o => [o_tag o] | None => [] end) /\
    (l_status s = Exited -> pending = []).
Proof.
  cbv zeta. destruct (sessions_run n es) as (dn & cur & Hf & Ha & _ & Hi).
  set (s := after (loop_new n) es) in *. set (l := log (loop_new n) es) in *.
  assert (EA : accepts l = map ss_tag (dn ++ cur)).
  { unfold accepts. rewrite <- (flat_map_filter _ is_rpc) by (now intros []).
    rewrite Hf, flat_map_concat_map'. rewrite (flat_map_ext _ (fun c => [ss_tag c])) by exact accepts_render.
    clear. induction (dn ++ cur) as [|x r IH]; cbn; [reflexivity|]. now rewrite IH. }
  assert (ER : replies l = map ss_tag dn).
  { unfold replies. rewrite <- (flat_map_filter _ is_rpc) by (now intros []).
    rewrite Hf, flat_map_concat_map'.
    rewrite (flat_map_ext _ (fun c => match ss_answer c with Some _ => [ss_tag c] | None => [] end))
      by exact replies_render.
    rewrite flat_map_app.
    replace (flat_map _ cur) with (@nil N).
    2:{ destruct cur as [|c [|? ?]]; cbn in Hi; [reflexivity| |destruct Hi]. cbn.
        destruct Hi as (-> & _). reflexivity. }
    rewrite app_nil_r. clear - Ha. induction Ha as [|x r H _ IH]; cbn; [reflexivity|].
    rewrite IH. unfold answered in H. now destruct (ss_answer x). }
  exists (map ss_tag cur). rewrite EA, ER, map_app. split; [reflexivity|].
  destruct cur as [|c [|? ?]]; cbn in Hi; [| |destruct Hi]; cbn.
  - split; [lia|]. split; [|reflexivity]. intros Hr. rewrite Hi by congruence. reflexivity.
  - split; [lia|]. destruct Hi as (H1 & H2 & H3). split; [|congruence]. intros Hr.
    destruct (H3 Hr) as (o & -> & Ht & _). now rewrite Ht.
Qed.

Lemma replies_nodup n es : NoDup (accepts (log (loop_new n) es)) -> NoDup (replies (log (loop_new n) es)).
Proof.
  destruct (answers_in_order n es) as (p & -> & _). clear.
  induction (replies (log (loop_new n) es)) as [|x l IH]; intros H; [constructor|].
  inversion H as [|? ? H1 H2]; subst. constructor; [|now apply IH]. intros Hx. apply H1, in_or_app. now left.
Qed.

(** ** One step seen from the request in flight *)
Lemma step_kept s e s' outs o o' : l_status s = Running -> l_out s = Some o ->
  step s e = (s', outs) -> l_out s' = Some o' -> l_status s' = Running ->
  o_tag o' = o_tag o /\ o_request o' = o_request o /\
  o_errors o' = o_errors o + (if faulty e then 1 else 0) /\
  o_retries o' = o_retries o + (if is_tick e then 1 else 0) /\
  (is_tick e = true -> o_retries o < l_limit s /\ o_errors o < 5).
Proof.
  intros Hr Ho Es Ho' Hr'. unfold step in Es. rewrite Hr in Es.
  assert (A : forall s0 o0 r, l_out s0 = Some o0 -> answer s0 o0 r = (s', outs) -> False).
  { intros s0 o0 r H0 Ea. unfold answer in Ea. destruct (o_gone o0); injection Ea as <- <-; cbn in *;
      congruence. }
  assert (I : forall outs', (increment_faulty s, outs') = (s', outs) ->
     o' = mkOut (o_tag o) (o_request o) (o_retries o) (o_errors o + 1) (o_gone o)).
  { intros outs' Ei. injection Ei as <- _. unfold increment_faulty in Ho'. rewrite Ho in Ho'. cbn in Ho'.
    now injection Ho' as <-. }
  assert (F : forall h pe, fail_matching (increment_faulty s) h pe = (s', outs) ->
     o' = mkOut (o_tag o) (o_request o) (o_retries o) (o_errors o + 1) (o_gone o)).
  { intros h pe Ef. unfold fail_matching in Ef. unfold increment_faulty in Ef. rewrite Ho in Ef.
    cbn [l_out set_out] in Ef. destruct (_ =? _); [exfalso; eapply A; [|exact Ef]; reflexivity|].
    injection Ef as <- <-. cbn in Ho'. now injection Ho' as <-. }
  assert (K : o' = o -> faulty e = false -> is_tick e = false ->
     o_tag o' = o_tag o /\ o_request o' = o_request o /\
     o_errors o' = o_errors o + (if faulty e then 1 else 0) /\
     o_retries o' = o_retries o + (if is_tick e then 1 else 0) /\
     (is_tick e = true -> o_retries o < l_limit s /\ o_errors o < 5)).
  { intros -> -> ->. repeat split; try lia; discriminate. }
  assert (KI : o' = mkOut (o_tag o) (o_request o) (o_retries o) (o_errors o + 1) (o_gone o) ->
     faulty e = true -> is_tick e = false ->
     o_tag o' = o_tag o /\ o_request o' = o_request o /\
     o_errors o' = o_errors o + (if faulty e then 1 else 0) /\
     o_retries o' = o_retries o + (if is_tick e then 1 else 0) /\
     (is_tick e = true -> o_retries o < l_limit s /\ o_errors o < 5)).
  { intros -> -> ->. cbn. repeat split; try lia; discriminate. }
  assert (S : (s, @nil output) = (s', outs) -> o' = o).
  { intros E. injection E as <- _. congruence. }
  destruct e as [tag r io| |io|hr io| |peer d io| | ].
  - rewrite Ho in Es. apply K; auto.
  - rewrite Ho in Es. apply K; auto.
  - unfold handle_tick in Es. rewrite Ho in Es.
    destruct ((o_retries o <? l_limit s) && (o_errors o <? NUM_ALLOWED_ERROR_MESSAGES)) eqn:El.
    + unfold send_outgoing_request in Es. destruct (request_packet _) as [p|].
      2:{ injection Es as <- <-. cbn in Hr'. discriminate. }
      destruct io.
      * injection Es as <- <-. cbn in Ho'. injection Ho' as <-. cbn.
        change NUM_ALLOWED_ERROR_MESSAGES with 5 in El. repeat split; lia.
      * exfalso. destruct (answer s o (Err EIo)) as [s2 o2] eqn:Ea. injection Es as <- <-.
        unfold answer in Ea. destruct (o_gone o); injection Ea as <- <-; cbn in *; congruence.
    + exfalso. destruct (l_limit s <=? o_retries o); exact (A _ _ _ Ho Es).
  - destruct hr as [r| |]; try (apply K; auto; fail). unfold send_outgoing_response in Es.
    destruct (Nat.leb _ _); injection Es as <- <-.
    + apply K; auto. congruence.
    + cbn in Hr'. discriminate.
  - apply KI; eauto.
  - unfold handle_datagram in Es.
    destruct (dec_header _) as [[h rx]|] eqn:Eh; [|apply KI; eauto; cbn [faulty]; now rewrite Eh].
    destruct (h_kind h) eqn:Ek.
    + unfold handle_sp_error in Es.
      assert (Hf : faulty (EvDatagram peer d io) = true) by (cbn [faulty]; now rewrite Eh, Ek).
      destruct (dec_message rx) as [[m rest]|].
      * destruct (msg_body m); apply KI; eauto.
      * apply KI; eauto.
    + apply KI; eauto. cbn [faulty]. now rewrite Eh, Ek.
    + unfold handle_sp_response in Es. rewrite Ho in Es.
      destruct (dec_message rx) as [[m rest]|] eqn:Em.
      * assert (Hf : faulty (EvDatagram peer d io) = false) by (cbn [faulty]; now rewrite Eh, Ek, Em).
        assert (FM : forall pe, fail_matching s h pe = (s', outs) -> o' = o).
        { intros pe Ef. unfold fail_matching in Ef. rewrite Ho in Ef.
          destruct (_ =? _); [exfalso; exact (A _ _ _ Ho Ef)|]. injection Ef as <- <-. congruence. }
        destruct (msg_body m); try (apply K; [eapply FM; eassumption|exact Hf|reflexivity]).
        destruct (_ =? _); [exfalso; exact (A _ _ _ Ho Es)|]. apply K; auto.
      * assert (Hf : faulty (EvDatagram peer d io) = true) by (cbn [faulty]; now rewrite Eh, Ek, Em).
        destruct rx as [|v rx]; [injection Es as <- <-; cbn in Hr'; discriminate|].
        apply KI; eauto.
    + assert (Hf : faulty (EvDatagram peer d io) = false) by (cbn [faulty]; now rewrite Eh, Ek).
      unfold handle_sp_request in Es. destruct (dec_message rx) as [[m rest]|].
      * destruct (l_handler s); injection Es as <- <-; [|cbn in Hr'; discriminate].
        apply K; auto. congruence.
      * injection Es as <- <-. apply K; auto. congruence.
    + apply KI; eauto. cbn [faulty]. now rewrite Eh, Ek.
  - rewrite Ho in Es. injection Es as <- <-. cbn in Ho'. injection Ho' as <-. cbn. repeat split; lia || discriminate.
  - injection Es as <- <-. apply K; auto. cbn in Ho'. congruence.
Qed.

Lemma count_snoc f es e : count f (es ++ [e]) = count f es + (if f e then 1 else 0).
Proof.
  unfold count. rewrite filter_app. cbn [filter]. unfold Nlen. rewrite app_length.
  destruct (f e); cbn; lia.
Qed.
Lemma count_cons f es e : count f (e :: es) = (if f e then 1 else 0) + count f es.
Proof. unfold count. cbn [filter]. unfold Nlen. destruct (f e); cbn [length]; lia. Qed.

(** Where the request in flight came from and what happened since. *)
Lemma step_accepts s e s' outs o : l_status s = Running -> l_out s = None ->
  step s e = (s', outs) -> l_out s' = Some o -> l_status s' = Running ->
  exists tag r, e = EvRequest tag r true /\ o = mkOut tag r 1 0 false /\
    outs = [OAccept tag r; OTx tag (wire r)].
Proof.
  intros Hr Ho Es Ho' Hr'. pose proof (step_view s e Hr) as V. rewrite Es in V. cbn [fst snd] in V.
  destruct V as [s' outs' Hsame _ _|s' tag r H1 H2 H3|s' tag r H1 H2 H3|s' tag r H1 H3
                |s' o1 H1 H2 H3 H4|s' o1 H1 H2 H3 H4|s' o1 H1 H2 H3|s' o1 r H1 H2 H3];
    try congruence.
  - rewrite Ho, Ho' in Hsame. destruct Hsame.
  - unfold step in Es. rewrite Hr in Es. rewrite Ho' in H2. injection H2 as ->.
    exists tag, r. split; [|auto].
    destruct e as [tag' r' io| |io|hr io| |peer d io| | ].
    + rewrite Ho in Es. unfold send_outgoing_request in Es. cbn [o_request] in Es.
      destruct (request_packet r') as [p|]; [|injection Es as <- Ex; discriminate].
      destruct io; [injection Es; intros; congruence|].
      cbn in Es. injection Es as <- Ex. discriminate.
    + rewrite Ho in Es. injection Es as <- Ex. discriminate.
    + unfold handle_tick in Es. rewrite Ho in Es. discriminate.
    + destruct hr; try discriminate. unfold send_outgoing_response in Es.
      destruct (Nat.leb _ _); discriminate.
    + discriminate.
    + assert (FM : forall s0 h pe, l_out s0 = None -> fail_matching s0 h pe = (s0, [])).
      { intros s0 h pe H0. unfold fail_matching. now rewrite H0. }
      assert (IM : l_out (increment_faulty s) = None).
      { unfold increment_faulty. now rewrite Ho. }
      unfold handle_datagram, handle_sp_error, handle_sp_response, handle_sp_request in Es.
      rewrite Ho in Es.
      destruct (dec_header _) as [[h rx]|]; [|discriminate].
      destruct (h_kind h), (dec_message rx) as [[m rest]|]; try discriminate;
        rewrite ?FM in Es by exact IM; try discriminate.
      * destruct (msg_body m); rewrite ?FM in Es by exact IM; discriminate.
      * destruct (l_handler s); discriminate.
    + rewrite Ho in Es. discriminate.
    + discriminate.
Qed.

Lemma stopped_stays s es : l_status s <> Running -> after s es = s.
Proof.
  revert s; induction es as [|e es IH]; intros s H; [reflexivity|].
  rewrite after_cons, step_stopped by exact H. cbn. now apply IH.
Qed.

(** For a running loop with a request in flight, the history splits at its acceptance. *)
Definition accepted_at (s0 : loop) (pre : list event) (tag : N) (r : Rpc) (mid : list event)
    (s : loop) : Prop :=
  l_status (after s0 pre) = Running /\ l_out (after s0 pre) = None /\
  (forall m1 m2, mid = m1 ++ m2 ->
     exists o, l_out (after s0 (pre ++ EvRequest tag r true :: m1)) = Some o /\
       o_tag o = tag /\ o_request o = r /\ o_errors o = count faulty m1 /\
       o_retries o = 1 + count is_tick m1).

Lemma origin s0 es o : l_out s0 = None -> l_status (after s0 es) = Running ->
  l_out (after s0 es) = Some o ->
  exists pre tag r mid, es = pre ++ EvRequest tag r true :: mid /\
    accepted_at s0 pre tag r mid (after s0 es).
Proof.
  intros H0. revert o. induction es as [|e es IH] using rev_ind; intros o Hr Ho.
  - cbn in Ho. unfold after in Ho. cbn in Ho. congruence.
  - rewrite after_app, after_one in Hr, Ho.
    assert (Hr1 : l_status (after s0 es) = Running).
    { destruct (l_status (after s0 es)) eqn:E; [reflexivity| |];
        rewrite step_stopped in Hr by congruence; cbn in Hr; congruence. }
    destruct (step (after s0 es) e) as [s' outs] eqn:Es. cbn [fst] in *.
    destruct (l_out (after s0 es)) as [o1|] eqn:Eo1.
    + destruct (IH o1 Hr1 eq_refl) as (pre & tag & r & mid & -> & Ha & Hb & Hc).
      exists pre, tag, r, (mid ++ [e]). split; [now rewrite <- app_assoc|].
      split; [exact Ha|]. split; [exact Hb|]. intros m1 m2 Hm.
      destruct m2 as [|x m2 _] using rev_ind.
      * rewrite app_nil_r in Hm. subst m1. exists o.
        rewrite app_comm_cons, app_assoc, after_app, after_one, Es. cbn [fst].
        split; [exact Ho|].
        destruct (Hc mid [] (eq_sym (app_nil_r mid))) as (o2 & E2 & Ht & Hq & He & Hn).
        rewrite Eo1 in E2. injection E2 as <-.
        destruct (step_kept _ _ _ _ _ _ Hr1 Eo1 Es Ho Hr) as (K1 & K2 & K3 & K4 & _).
        rewrite count_snoc, count_snoc, K1, K2, K3, K4, Ht, Hq, He, Hn. repeat split; lia.
      * rewrite app_assoc in Hm. apply app_inj_tail in Hm. destruct Hm as [-> ->].
        destruct (Hc m1 m2 eq_refl) as (o2 & E2 & Hrest). exists o2. split; [exact E2|exact Hrest].
    + destruct (step_accepts _ _ _ _ _ Hr1 Eo1 Es Ho Hr) as (tag & r & -> & -> & _).
      exists es, tag, r, []. split; [reflexivity|]. split; [exact Hr1|]. split; [exact Eo1|].
      intros m1 m2 Hm. symmetry in Hm. apply app_eq_nil in Hm. destruct Hm as [-> ->].
      exists (mkOut tag r 1 0 false). rewrite after_app, after_one, Es. cbn [fst].
      repeat split; auto.
Qed.

(** Which steps produce which replies. *)
Lemma step_reply s e tag r : l_status s = Running -> In (OReply tag r) (snd (step s e)) ->
  (exists tag' q, e = EvRequest tag' q false /\ tag = tag' /\ r = Err EIo /\ l_out s = None) \/
  (exists o, l_out s = Some o /\ o_tag o = tag /\ o_gone o = false /\ 
     l_out (fst (step s e)) = None /\ l_status (fst (step s e)) = Running /\
     ((exists io, e = EvTick io /\
         ((o_retries o < l_limit s /\ o_errors o < 5 /\ io = false /\ r = Err EIo) \/
          (l_limit s <= o_retries o /\ r = Err (EMaxRetries (o_retries o))) \/
          (o_retries o < l_limit s /\ 5 <= o_errors o /\ r = Err (EMaxFaultMessages (o_errors o))))) \/
      (exists peer d io h rx, e = EvDatagram peer d io /\
         dec_header (firstn MAX_PACKET_SIZE d) = Some (h, rx) /\
         h_id h = h_id (rpc_header (o_request o)) /\
         ((exists pe, r = Err (EProtocol pe)) \/
          (exists m sr rest, h_kind h = KSpResponse /\ dec_message rx = Some (m, rest) /\
             msg_body m = BSpResponse sr /\ r = matched_reply h m sr rest))))).
Proof.
  intros Hr Hin.
  assert (A : forall s0 o0 r0, l_status s0 = Running -> In (OReply tag r) (snd (answer s0 o0 r0)) ->
     o_gone o0 = false /\ o_tag o0 = tag /\ r = r0 /\ l_out (fst (answer s0 o0 r0)) = None /\
     l_status (fst (answer s0 o0 r0)) = Running).
  { intros s0 o0 r0 H0 H. unfold answer in *. destruct (o_gone o0); cbn in *.
    - destruct H as [H|[]]. discriminate.
    - destruct H as [H|[]]. injection H as -> ->. auto. }
  assert (F : forall s0 o0 h pe, l_status s0 = Running -> l_out s0 = Some o0 ->
     In (OReply tag r) (snd (fail_matching s0 h pe)) ->
     h_id h = h_id (rpc_header (o_request o0)) /\ o_gone o0 = false /\ o_tag o0 = tag /\
     r = Err (EProtocol pe) /\ l_out (fst (fail_matching s0 h pe)) = None /\
     l_status (fst (fail_matching s0 h pe)) = Running).
  { intros s0 o0 h pe H0 H1 H. unfold fail_matching in *. rewrite H1 in *.
    destruct (h_id (rpc_header (o_request o0)) =? h_id h) eqn:E; [|destruct H].
    apply A in H; [|exact H0]. split; [lia|]. tauto. }
  unfold step in *. rewrite Hr in *. destruct e as [tag' q io| |io|hr io| |peer d io| | ].
  - destruct (l_out s) as [o|] eqn:Eo; [destruct Hin|]. left.
    unfold send_outgoing_request in Hin. cbn [o_request] in Hin.
    destruct (request_packet q); cbn in Hin.
    + destruct io; cbn in Hin.
      * destruct Hin as [H|[H|[]]]; discriminate.
      * destruct Hin as [H|[H|[H|[]]]]; try discriminate. injection H as -> <-. eauto 10.
    + destruct Hin as [H|[H|[]]]; discriminate.
  - destruct (l_out s); destruct Hin.
  - unfold handle_tick in *. destruct (l_out s) as [o|] eqn:Eo; [|destruct Hin]. right. exists o.
    split; [reflexivity|].
    destruct ((o_retries o <? l_limit s) && (o_errors o <? NUM_ALLOWED_ERROR_MESSAGES)) eqn:El.
    + unfold send_outgoing_request in *. destruct (request_packet _) as [p|].
      2:{ destruct Hin as [H|[]]. discriminate. }
      destruct io; [destruct Hin as [H|[]]; discriminate|].
      pose proof (A s o (Err EIo) Hr) as K. destruct (answer s o (Err EIo)) as [s2 o2].
      cbn [fst snd] in *. destruct Hin as [H|Hin]; [discriminate|]. destruct (K Hin) as (K1 & K2 & K3 & K4 & K5).
      split; [exact K2|]. split; [exact K1|]. split; [exact K4|]. split; [exact K5|].
      left. exists false. split; [reflexivity|]. left. change NUM_ALLOWED_ERROR_MESSAGES with 5 in El.
      repeat split; try lia. exact K3.
    + change NUM_ALLOWED_ERROR_MESSAGES with 5 in El.
      destruct (l_limit s <=? o_retries o) eqn:El2; apply A in Hin; try exact Hr;
        destruct Hin as (K1 & K2 & K3 & K4 & K5);
        (split; [exact K2|]; split; [exact K1|]; split; [exact K4|]; split; [exact K5|]);
        left; exists io; (split; [reflexivity|]); right; [left|right]; repeat split; try lia; exact K3.
  - destruct hr as [q| |]; try destruct Hin. unfold send_outgoing_response in Hin.
    destruct (Nat.leb _ _); destruct Hin as [H|[]]; discriminate.
  - destruct Hin.
  - right. unfold handle_datagram in *.
    destruct (dec_header _) as [[h rx]|] eqn:Eh; [|destruct Hin].
    assert (Hri : l_status (increment_faulty s) = Running) by now rewrite status_increment.
    assert (FI : forall pe, In (OReply tag r) (snd (fail_matching (increment_faulty s) h pe)) ->
      exists o, l_out s = Some o /\ o_tag o = tag /\ o_gone o = false /\
        l_out (fst (fail_matching (increment_faulty s) h pe)) = None /\
        l_status (fst (fail_matching (increment_faulty s) h pe)) = Running /\
        h_id h = h_id (rpc_header (o_request o)) /\ r = Err (EProtocol pe)).
    { intros pe H. destruct (l_out s) as [o|] eqn:Eo.
      - assert (Eo' : l_out (increment_faulty s) =
           Some (mkOut (o_tag o) (o_request o) (o_retries o) (o_errors o + 1) (o_gone o))).
        { unfold increment_faulty. now rewrite Eo. }
        apply (F _ _ _ _ Hri Eo') in H. cbn in H. exists o. tauto.
      - exfalso. unfold fail_matching, increment_faulty in H. rewrite Eo in H.
        rewrite Eo in H. destruct H. }
    assert (Fin : forall pe, In (OReply tag r) (snd (fail_matching (increment_faulty s) h pe)) ->
      exists o, l_out s = Some o /\ o_tag o = tag /\ o_gone o = false /\
        l_out (fst (fail_matching (increment_faulty s) h pe)) = None /\
        l_status (fst (fail_matching (increment_faulty s) h pe)) = Running /\
        ((exists io0, EvDatagram peer d io = EvTick io0 /\
         ((o_retries o < l_limit s /\ o_errors o < 5 /\ io0 = false /\ r = Err EIo) \/
          (l_limit s <= o_retries o /\ r = Err (EMaxRetries (o_retries o))) \/
          (o_retries o < l_limit s /\ 5 <= o_errors o /\ r = Err (EMaxFaultMessages (o_errors o))))) \/
        exists peer0 d0 io0 h0 rx0, EvDatagram peer d io = EvDatagram peer0 d0 io0 /\
         dec_header (firstn MAX_PACKET_SIZE d0) = Some (h0, rx0) /\
         h_id h0 = h_id (rpc_header (o_request o)) /\
         ((exists pe, r = Err (EProtocol pe)) \/
          (exists m sr rest, h_kind h0 = KSpResponse /\ dec_message rx0 = Some (m, rest) /\
             msg_body m = BSpResponse sr /\ r = matched_reply h0 m sr rest)))).
    { intros pe H. destruct (FI pe H) as (o & H1 & H2 & H3 & H4 & H5 & H6 & H7). exists o.
      repeat (split; [assumption|]). right. exists peer, d, io, h, rx.
      repeat (split; [assumption || reflexivity|]). left. eauto. }
    destruct (h_kind h) eqn:Ek.
    + unfold handle_sp_error in *. destruct (dec_message rx) as [[m rest]|].
      * destruct (msg_body m); try destruct Hin. now apply Fin.
      * now apply Fin.
    + destruct Hin as [H|[]]. discriminate.
    + unfold handle_sp_response in *. destruct (l_out s) as [o|] eqn:Eo; [|destruct Hin].
      destruct (dec_message rx) as [[m rest]|] eqn:Em.
      * assert (FS : forall pe, In (OReply tag r) (snd (fail_matching s h pe)) ->
          o_tag o = tag /\ o_gone o = false /\
          l_out (fst (fail_matching s h pe)) = None /\
          l_status (fst (fail_matching s h pe)) = Running /\
          h_id h = h_id (rpc_header (o_request o)) /\ r = Err (EProtocol pe)).
        { intros pe H. apply (F _ _ _ _ Hr Eo) in H. tauto. }
        destruct (msg_body m) as [e0|q0|sr|q0|q0] eqn:Eb.
        3:{ destruct (h_id (rpc_header (o_request o)) =? h_id h) eqn:Ei; [|destruct Hin].
            apply A in Hin; [|exact Hr]. destruct Hin as (K1 & K2 & K3 & K4 & K5).
            exists o. repeat (split; [assumption || reflexivity|]). right. exists peer, d, io, h, rx.
            repeat (split; [assumption || reflexivity|]). split; [lia|]. right.
            exists m, sr, rest. repeat (split; [assumption || reflexivity|]). exact K3. }
        -- destruct (FS _ Hin) as (K2 & K1 & K4 & K5 & K6 & K7). exists o.
           repeat (split; [assumption || reflexivity|]). right. exists peer, d, io, h, rx.
           repeat (split; [assumption || reflexivity|]). left. eauto.
        -- destruct (FS _ Hin) as (K2 & K1 & K4 & K5 & K6 & K7). exists o.
           repeat (split; [assumption || reflexivity|]). right. exists peer, d, io, h, rx.
           repeat (split; [assumption || reflexivity|]). left. eauto.
        -- destruct q0.
        -- destruct q0.
      * destruct rx as [|v rx]; [destruct Hin as [H|[]]; discriminate|]. exact (Fin _ Hin).
    + unfold handle_sp_request in Hin. destruct (dec_message rx) as [[m rest]|].
      * destruct (l_handler s); destruct Hin as [H|[]]; discriminate.
      * destruct Hin as [H|[]]. discriminate.
    + destruct Hin as [H|[]]. discriminate.
  - destruct (l_out s); destruct Hin.
  - destruct Hin.
Qed.

(** A reply in the log happens at one event. *)
Lemma reply_event s0 es tag r : In (OReply tag r) (log s0 es) ->
  exists pre e post, es = pre ++ e :: post /\ l_status (after s0 pre) = Running /\
    In (OReply tag r) (snd (step (after s0 pre) e)).
Proof.
  induction es as [|e es IH] using rev_ind; intros H; [destruct H|].
  rewrite log_app, log_one in H. apply in_app_or in H. destruct H as [H|H].
  - destruct (IH H) as (pre & e' & post & -> & H1 & H2). exists pre, e', (post ++ [e]).
    split; [|auto]. now rewrite <- app_assoc.
  - exists es, e, []. split; [reflexivity|]. split; [|exact H].
    destruct (l_status (after s0 es)) eqn:E; [reflexivity| |];
      rewrite step_stopped in H by congruence; destruct H.
Qed.
