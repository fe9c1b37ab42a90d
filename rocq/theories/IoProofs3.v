(** Consequences for callers, continued (C20-C27). *)
From Verif Require Import Tac Spec ModuleIdProofs ModuleIdProps CodecProofs MessageProofs SpecIo IoProofs
  IoProofs2.

Lemma bytes_firstn n d : bytes d = true -> bytes (firstn n d) = true.
Proof.
  revert n. induction d as [|b d IH]; intros [|n] H; try reflexivity.
  cbn [firstn]. rewrite bytes_cons in *. apply andb_prop in H. destruct H as [-> H]. now rewrite IH.
Qed.

Lemma accepted_in_flight s0 pre tag r mid s :
  accepted_at s0 pre tag r mid s -> in_flight_during s0 pre tag r mid.
Proof.
  intros (_ & H & K). split; [exact H|]. intros m1 m2 E. destruct (K m1 m2 E) as (o & ? & ? & ? & _). eauto.
Qed.

Lemma expected_announced r : wf_sp_response r = true ->
  announced r = ((match sp_expected_data_len r with Some n => n | None => 0 end)
    + (match sp_expected_error_data_len r with Some n => n | None => 0 end))%nat.
Proof.
  intros Hwf. unfold announced.
  assert (Hm : mask_ok (resp_modules r) = true /\ mask_ok (resp_failed r) = true).
  { rewrite !mask_ok_lt. destruct r; cbn in Hwf |- *; unfold u64 in Hwf; try (split_ands; lia); split; reflexivity. }
  destruct Hm as [Hm Hf]. rewrite <- !count_to_indices by assumption.
  destruct r; cbn -[m_count Nat.mul]; try lia. reflexivity.
Qed.

Lemma matched_reply_ok h m sr rest resp : wf_sp_response sr = true -> 
  matched_reply h m sr rest = Ok resp <->
  exists data rest', rest = data ++ rest' /\ length data = announced sr /\
    resp = mkRpc h m (match sr with SMacAddrs _ => None | _ => Some data end).
Proof.
  intros Hwf. pose proof (expected_announced sr Hwf) as Ha. unfold matched_reply.
  assert (C : (sp_expected_data_len sr = None /\ sp_expected_error_data_len sr = None /\
               exists x, sr = SMacAddrs x) \/
              (sp_expected_error_data_len sr <> None /\ forall A (u v : A), match sr with SMacAddrs _ => u | _ => v end = v)).
  { destruct sr; try (right; split; [discriminate|reflexivity]). left. eauto. }
  destruct C as [(E1 & E2 & x & ->)|(E2 & Ed)].
  - rewrite E1, E2 in *. cbn in Ha. split.
    + intros E. injection E as <-. exists [], rest. repeat split.
    + intros (d & r' & -> & Hl & ->). reflexivity.
  - destruct (sp_expected_error_data_len sr) as [el|]; [|congruence]. clear E2. 
    setoid_rewrite Ed. set (n := ((match sp_expected_data_len sr with Some n => n | None => 0 end) + el)%nat) in *.
    assert (G : (if (length rest <? n)%nat
       then Err (EProtocol (PeWrongDataSize (N.of_nat n) (Nlen rest)))
       else Ok (mkRpc h m (Some (firstn n rest)))) = Ok resp <->
       exists data rest', rest = data ++ rest' /\ length data = announced sr /\
         resp = mkRpc h m (Some data)).
    { destruct (Nat.ltb_spec (length rest) n) as [Hlt|Hge]; split.
      - discriminate.
      - intros (d & r' & -> & Hl & ->). rewrite app_length in Hlt. lia.
      - intros E. injection E as <-. exists (firstn n rest), (skipn n rest).
        rewrite firstn_skipn, firstn_length. repeat split. lia.
      - intros (d & r' & -> & Hl & ->). rewrite Ha in Hl. rewrite <- Hl.
        now rewrite firstn_app, Nat.sub_diag, firstn_all, firstn_O, app_nil_r. }
    destruct (sp_expected_data_len sr); exact G.
Qed.

(** ** C20 *)
Lemma success_sound n es tag resp : forallb bytes_event es = true ->
  In (OReply tag (Ok resp)) (log (loop_new n) es) ->
  exists pre q mid peer d io post,
    es = pre ++ (EvRequest tag q true :: mid) ++ EvDatagram peer d io :: post /\
    in_flight_during (loop_new n) pre tag q mid /\ completes q d resp.
Proof.
  intros Hb Hin. destruct (reply_event _ _ _ _ Hin) as (p & e & post & -> & Hr & Hs).
  destruct (step_reply _ _ _ _ Hr Hs) as [(? & ? & _ & _ & E & _)|(o & Ho & Ht & Hg & _ & _ & K)].
  { discriminate. }
  destruct K as [(io & _ & [(_ & _ & _ & E)|[(_ & E)|(_ & _ & E)]])|(peer & d & io & h & rx & -> & Hh & Hid & K)];
    try discriminate.
  destruct K as [(pe & E)|(m & sr & rest & Hk & Hm & Hbo & Hrep)]; [discriminate|].
  destruct (origin (loop_new n) p o eq_refl Hr Ho) as (pre & tag' & q & mid & -> & Hac).
  pose proof Hac as (_ & _ & Hac3).
  destruct (Hac3 mid [] (eq_sym (app_nil_r mid))) as (o' & Ho' & Ht' & Hq & _).
  rewrite Ho in Ho'. injection Ho' as <-. rewrite Ht in Ht'. subst tag'.
  exists pre, q, mid, peer, d, io, post.
  split. { now rewrite <- app_assoc. }
  split. { eapply accepted_in_flight; eauto. }
  rewrite !forallb_app in Hb. apply andb_prop in Hb. destruct Hb as [_ Hb].
  apply andb_prop in Hb. destruct Hb as [Hb _]. cbn in Hb.
  apply (bytes_firstn MAX_PACKET_SIZE) in Hb.
  destruct (header_canonical _ _ _ Hb Hh) as (E1 & Hwh & Hb2).
  destruct (message_canonical _ _ _ Hb2 Hm) as (E2 & Hwm & Hb3).
  assert (Hws : wf_sp_response sr = true).
  { unfold wf_message in Hwm. rewrite Hbo in Hwm. apply andb_prop in Hwm. tauto. }
  symmetry in Hrep. apply (matched_reply_ok _ _ _ _ _ Hws) in Hrep.
  destruct Hrep as (data & rest' & -> & Hl & ->).
  exists h, m, sr, data, rest'. rewrite E1, E2, Hid, Hq. repeat (split; [assumption || reflexivity|]). reflexivity.
Qed.

Lemma success_complete s o peer d io resp : l_status s = Running -> l_out s = Some o ->
  o_gone o = false -> completes (o_request o) d resp ->
  step s (EvDatagram peer d io) = (set_out s None, [OReply (o_tag o) (Ok resp)]).
Proof.
  intros Hr Ho Hg (h & m & sr & data & rest & E & Hwh & Hwm & Hk & Hid & Hb & Hl & ->).
  unfold step. rewrite Hr. unfold handle_datagram. rewrite E, header_roundtrip by assumption.
  rewrite Hk. unfold handle_sp_response. rewrite Ho, message_roundtrip by assumption.
  rewrite Hb, <- Hid, N.eqb_refl. unfold answer. rewrite Hg. do 3 f_equal.
  apply matched_reply_ok.
  - unfold wf_message in Hwm. rewrite Hb in Hwm. apply andb_prop in Hwm. tauto.
  - exists data, rest. auto.
Qed.

(** ** C21 *)
Lemma foreign_step s o peer d io i : l_status s = Running -> l_out s = Some o ->
  datagram_id d = Some i -> i <> h_id (rpc_header (o_request o)) ->
  let (s', outs) := step s (EvDatagram peer d io) in
  filter is_rpc outs = [] /\
  (l_status s' = Running ->
   l_out s' = Some (mkOut (o_tag o) (o_request o) (o_retries o)
     (o_errors o + (if faulty (EvDatagram peer d io) then 1 else 0)) (o_gone o))).
Proof.
  intros Hr Ho Hd Hne. unfold step. rewrite Hr. unfold datagram_id in Hd. cbn [faulty].
  unfold handle_datagram. destruct (dec_header _) as [[h rx]|]; [|discriminate].
  injection Hd as <-.
  assert (Ei : increment_faulty s = set_out s (Some (mkOut (o_tag o) (o_request o) (o_retries o) (o_errors o + 1) (o_gone o)))).
  { unfold increment_faulty. now rewrite Ho. }
  assert (Hn : (h_id (rpc_header (o_request o)) =? h_id h) = false) by (apply N.eqb_neq; congruence).
  assert (Fi : forall pe, fail_matching (increment_faulty s) h pe = (increment_faulty s, [])).
  { intros pe. unfold fail_matching. rewrite Ei. cbn [l_out set_out o_request]. now rewrite Hn. }
  assert (F : forall pe, fail_matching s h pe = (s, [])).
  { intros pe. unfold fail_matching. rewrite Ho. now rewrite Hn. }
  assert (Eo : l_out s = Some (mkOut (o_tag o) (o_request o) (o_retries o) (o_errors o + 0) (o_gone o))).
  { rewrite Ho. destruct o. cbn. now rewrite N.add_0_r. }
  assert (J : l_out (increment_faulty s) = Some (mkOut (o_tag o) (o_request o) (o_retries o) (o_errors o + 1) (o_gone o))).
  { now rewrite Ei. }
  unfold handle_sp_error, handle_sp_request, handle_sp_response.
  destruct (h_kind h).
  - destruct (dec_message rx) as [[m rest]|].
    + destruct (msg_body m); rewrite ?Fi; auto.
    + rewrite Fi; auto.
  - auto.
  - rewrite Ho. destruct (dec_message rx) as [[m rest]|].
    + destruct (msg_body m); rewrite ?F, ?Hn; auto.
    + destruct rx as [|v rx]; [split; [reflexivity|discriminate]|]. rewrite Fi. auto.
  - destruct (dec_message rx) as [[m rest]|].
    + destruct (l_handler s); [|split; [reflexivity|discriminate]]. auto.
    + auto.
  - auto.
Qed.

(** ** The life of a request from a given state on *)
Lemma kept_or_replied s o e : l_status s = Running -> l_out s = Some o ->
  l_status (fst (step s e)) <> Running \/
  (exists r, In (OReply (o_tag o) r) (snd (step s e))) \/
  (exists o', l_out (fst (step s e)) = Some o').
Proof.
  intros Hr Ho. pose proof (step_view s e Hr) as V.
  destruct (step s e) as [s' outs]. cbn [fst snd] in *.
  destruct V as [s' outs' Hsame _ _|s' tag r H1 H2 H3|s' tag r H1 H2 H3|s' tag r H1 H3
                |s' o1 H1 H2 H3 H4|s' o1 H1 H2 H3 H4|s' o1 H1 H2 H3|s' o1 r H1 H2 H3]; try congruence.
  - right; right. rewrite Ho in Hsame. cbn in Hsame. destruct (l_out s') as [o'|]; [eauto|destruct Hsame].
  - right; right. eauto.
  - right; left. rewrite Ho in H1. injection H1 as <-. exists (Err EIo). cbn. auto.
  - left. congruence.
  - right; left. rewrite Ho in H1. injection H1 as <-. exists r. cbn. auto.
Qed.

Lemma running_before s a b : l_status (after s (a ++ b)) = Running -> l_status (after s a) = Running.
Proof.
  intros H. destruct (l_status (after s a)) eqn:E; [reflexivity| |];
    rewrite after_app, stopped_stays in H; congruence.
Qed.

Lemma lifetime s o mid : l_status s = Running -> l_out s = Some o ->
  l_status (after s mid) = Running ->
  (exists o', l_out (after s mid) = Some o' /\ o_tag o' = o_tag o /\
     o_request o' = o_request o /\ o_errors o' = o_errors o + count faulty mid /\
     o_retries o' = o_retries o + count is_tick mid /\
     (o_retries o <= N.max 1 (l_limit s) -> o_retries o' <= N.max 1 (l_limit s))) \/
  (exists m1 e m2 o' r, mid = m1 ++ e :: m2 /\ l_status (after s m1) = Running /\
     l_out (after s m1) = Some o' /\ o_tag o' = o_tag o /\
     o_request o' = o_request o /\ o_errors o' = o_errors o + count faulty m1 /\
     o_retries o' = o_retries o + count is_tick m1 /\
     (o_retries o <= N.max 1 (l_limit s) -> o_retries o' <= N.max 1 (l_limit s)) /\
     In (OReply (o_tag o) r) (snd (step (after s m1) e))).
Proof.
  intros Hr Ho. induction mid as [|e mid IH] using rev_ind; intros Hrun.
  - left. exists o. change (count faulty []) with 0. change (count is_tick []) with 0.
    rewrite !N.add_0_r. repeat (split; [assumption || reflexivity|]). auto.
  - pose proof (running_before _ _ _ Hrun) as Hrun1. destruct (IH Hrun1) as [(o1 & H1 & H2 & H3 & H4 & H5 & H6)|K].
    + destruct (kept_or_replied _ _ e Hrun1 H1) as [H|[(r & H)|(o' & H)]].
      * rewrite after_app, after_one in Hrun. congruence.
      * right. exists mid, e, [], o1, r. repeat (split; [assumption || reflexivity|]). congruence.
      * left. exists o'. rewrite after_app, after_one in *. split; [exact H|].
        destruct (step _ e) as [s' outs] eqn:Es. cbn [fst] in *.
        destruct (step_kept _ _ _ _ _ _ Hrun1 H1 Es H Hrun) as (K1 & K2 & K3 & K4 & K5).
        rewrite !count_snoc. rewrite K1, K2, K3, K4, H2, H3, H4, H5. repeat split; try lia.
        rewrite after_limit in K5. intros Hle. specialize (H6 Hle). rewrite H5 in H6.
        destruct (is_tick e); [|lia]. destruct (K5 eq_refl) as [K6 _]. rewrite H5 in K6. lia.
    + right. destruct K as (m1 & e' & m2 & o' & r & -> & K). exists m1, e', (m2 ++ [e]), o', r.
      split; [now rewrite <- app_assoc|exact K].
Qed.

(** ** C23 *)
Lemma answered_in_time s tag q mid : l_status s = Running -> l_out s = None ->
  let s1 := fst (step s (EvRequest tag q true)) in
  l_status (after s1 mid) = Running -> N.max 1 (l_limit s) <= count is_tick mid ->
  exists m1 e m2 r, mid = m1 ++ e :: m2 /\ count is_tick m1 < N.max 1 (l_limit s) /\
    In (OReply tag r) (snd (step (after s1 m1) e)).
Proof.
  intros Hr Ho. cbv zeta. unfold step at 1 2 3. rewrite Hr, Ho.
  unfold send_outgoing_request. cbn [o_request].
  destruct (request_packet q).
  2:{ cbn [fst]. rewrite stopped_stays by discriminate. discriminate. }
  cbn [fst]. set (s1 := set_out _ _). intros Hrun Hc.
  assert (Hs1 : l_status s1 = Running) by exact Hr.
  destruct (lifetime s1 _ mid Hs1 eq_refl Hrun) as [(o' & H1 & H2 & H3 & H4 & H5 & H6)|K].
  - exfalso. cbn in H5, H6. lia.
  - destruct K as (m1 & e & m2 & o' & r & -> & H0 & H1 & H2 & H3 & H4 & H5 & H6 & H7).
    exists m1, e, m2, r. split; [reflexivity|]. split; [|exact H7]. cbn in H5, H6. lia.
Qed.

Lemma silent_not_faulty mid : forallb silent mid = true -> count faulty mid = 0.
Proof.
  induction mid as [|e mid IH]; [reflexivity|]. intros H. cbn [forallb] in H. apply andb_prop in H.
  destruct H as [H1 H2]. rewrite count_cons, IH by exact H2. destruct e; cbn in *; try discriminate; reflexivity.
Qed.

Lemma silence_max_retries s tag q mid : l_status s = Running -> l_out s = None ->
  let s1 := fst (step s (EvRequest tag q true)) in
  l_status (after s1 mid) = Running -> N.max 1 (l_limit s) <= count is_tick mid ->
  forallb silent mid = true ->
  exists m1 m2, mid = m1 ++ EvTick true :: m2 /\ count is_tick (m1 ++ [EvTick true]) = N.max 1 (l_limit s) /\
    snd (step (after s1 m1) (EvTick true)) = [OReply tag (Err (EMaxRetries (N.max 1 (l_limit s))))].
Proof.
  intros Hr Ho. cbv zeta. 
  pose proof (eq_refl (step s (EvRequest tag q true))) as Es. unfold step at 2 in Es.
  rewrite Hr, Ho in Es.
  unfold send_outgoing_request in Es. cbn [o_request] in Es.
  destruct (request_packet q).
  2:{ rewrite Es. cbn [fst]. rewrite stopped_stays by discriminate. discriminate. }
  rewrite Es. cbn [fst]. set (s1 := set_out _ _). intros Hrun Hc Hsil.
  assert (Hs1 : l_status s1 = Running) by exact Hr.
  destruct (lifetime s1 _ mid Hs1 eq_refl Hrun) as [(o' & H1 & H2 & H3 & H4 & H5 & H6)|K].
  { exfalso. cbn in H5, H6. lia. }
  destruct K as (m1 & e & m2 & o' & r & -> & H0 & H1 & H2 & H3 & H4 & H5 & H6 & H7).
  rewrite forallb_app in Hsil. apply andb_prop in Hsil. destruct Hsil as [Hsil1 Hsil2].
  cbn [forallb] in Hsil2. apply andb_prop in Hsil2. destruct Hsil2 as [Hse _].
  rewrite silent_not_faulty in H4 by exact Hsil1. cbn in H2, H3, H4, H5, H6.
  pose proof (step_reply _ _ _ _ H0 H7) as [(t & q' & -> & _ & _ & E)|(o2 & E2 & _ & Hg & _ & _ & K)].
  { congruence. }
  rewrite H1 in E2. injection E2 as <-.
  destruct K as [(io & -> & K)|(peer & d & io & h & rx & -> & _)]; [|discriminate].
  cbn in Hse. subst io. assert (Hl : l_limit (after s1 m1) = l_limit s) by (now rewrite after_limit).
  rewrite Hl in K. 
  destruct K as [(_ & _ & E & _)|[(Hle & ->)|(_ & E & _)]]; [discriminate| |lia].
  exists m1, m2. split; [reflexivity|].
  assert (Er : o_retries o' = N.max 1 (l_limit s)) by (cbn in H6; lia).
  split. { rewrite count_snoc. cbn [is_tick]. lia. }
  unfold step. rewrite H0. unfold handle_tick. rewrite H1, Hl.
  replace (o_retries o' <? l_limit s) with false by (symmetry; apply N.ltb_ge; lia).
  cbn [andb]. replace (l_limit s <=? o_retries o') with true by (symmetry; apply N.leb_le; lia).
  unfold answer. rewrite Hg. cbn [snd]. now rewrite Er, H2.
Qed.

(** ** C24 *)
Lemma fault_limit n es tag k : In (OReply tag (Err (EMaxFaultMessages k))) (log (loop_new n) es) ->
  exists pre q mid io post,
    es = pre ++ (EvRequest tag q true :: mid) ++ EvTick io :: post /\
    in_flight_during (loop_new n) pre tag q mid /\ k = count faulty mid /\ 5 <= k.
Proof.
  intros Hin. destruct (reply_event _ _ _ _ Hin) as (p & e & post & -> & Hr & Hs).
  destruct (step_reply _ _ _ _ Hr Hs) as [(? & ? & _ & _ & E & _)|(o & Ho & Ht & Hg & _ & _ & K)].
  { discriminate. }
  destruct K as [(io & -> & [(_ & _ & _ & E)|[(_ & E)|(_ & H5 & E)]])|(peer & d & io & h & rx & -> & Hh & Hid & K)];
    try discriminate.
  2:{ destruct K as [(pe & E)|(m & sr & rest & Hk & Hm & Hbo & Hrep)]; [discriminate|].
      exfalso. unfold matched_reply in Hrep.
      destruct (sp_expected_data_len sr), (sp_expected_error_data_len sr); try discriminate;
        destruct (Nat.ltb _ _); discriminate. }
  injection E as ->.
  destruct (origin (loop_new n) p o eq_refl Hr Ho) as (pre & tag' & q & mid & -> & Hac).
  pose proof Hac as (_ & _ & Hac3).
  destruct (Hac3 mid [] (eq_sym (app_nil_r mid))) as (o' & Ho' & Ht' & Hq & He & _).
  rewrite Ho in Ho'. injection Ho' as <-. rewrite Ht in Ht'. subst tag'.
  exists pre, q, mid, io, post. split; [now rewrite <- app_assoc|].
  split; [eapply accepted_in_flight; eauto|]. split; [exact He|exact H5].
Qed.

(** ** C25 *)
Definition crashing (s : loop) (d : list N) : Prop :=
  exists h rx, dec_header (firstn MAX_PACKET_SIZE d) = Some (h, rx) /\
    ((h_kind h = KSpResponse /\ rx = [] /\ l_out s <> None) \/
     (h_kind h = KSpRequest /\ dec_message rx <> None /\ l_handler s = false) \/
     (exists o, l_out s = Some o /\ o_gone o = true /\ h_id h = h_id (rpc_header (o_request o)) /\
        (h_kind h = KError \/ h_kind h = KSpResponse))).

Lemma increment_out s o : l_out s = Some o -> exists o', l_out (increment_faulty s) = Some o' /\
  o_gone o' = o_gone o /\ o_request o' = o_request o.
Proof. intros H. unfold increment_faulty. rewrite H. cbn. eauto. Qed.

Lemma crash_sound s peer d io : l_status s = Running ->
  l_status (fst (step s (EvDatagram peer d io))) <> Running -> crashing s d.
Proof.
  intros Hr. unfold step. rewrite Hr. unfold handle_datagram, crashing.
  assert (F : forall s0 h pe, l_status s0 = Running -> l_status (fst (fail_matching s0 h pe)) <> Running ->
    exists o, l_out s0 = Some o /\ o_gone o = true /\ h_id h = h_id (rpc_header (o_request o))).
  { intros s0 h pe H0 H. unfold fail_matching in H. destruct (l_out s0) as [o|] eqn:Eo; [|cbn in H; congruence].
    destruct (_ =? _) eqn:Ei in H; [|cbn in H; congruence]. unfold answer in H.
    destruct (o_gone o) eqn:Eg; [|cbn in H; congruence]. exists o. repeat split; auto. lia. }
  assert (Fi : forall h pe, l_status (fst (fail_matching (increment_faulty s) h pe)) <> Running ->
    exists o, l_out s = Some o /\ o_gone o = true /\ h_id h = h_id (rpc_header (o_request o))).
  { intros h pe H. apply F in H; [|now rewrite status_increment]. destruct H as (o & H1 & H2 & H3).
    unfold increment_faulty in H1. destruct (l_out s) as [o1|] eqn:Eo; [|congruence].
    cbn in H1. injection H1 as <-. cbn in *. eauto. }
  destruct (dec_header _) as [[h rx]|].
  2:{ intros H. exfalso. apply H. cbn. now rewrite status_increment. }
  intros H. exists h, rx. split; [reflexivity|].
  destruct (h_kind h) eqn:Ek.
  - unfold handle_sp_error in H. destruct (dec_message rx) as [[m rest]|].
    + destruct (msg_body m); try (exfalso; apply H; cbn; now rewrite status_increment).
      destruct (Fi _ _ H) as (o & ?). right; right. exists o. tauto.
    + destruct (Fi _ _ H) as (o & ?). right; right. exists o. tauto.
  - exfalso. apply H. cbn. now rewrite status_increment.
  - unfold handle_sp_response in H. destruct (l_out s) as [o|] eqn:Eo; [|exfalso; apply H; exact Hr].
    destruct (dec_message rx) as [[m rest]|].
    + assert (G : forall pe, l_status (fst (fail_matching s h pe)) <> Running ->
        exists o, l_out s = Some o /\ o_gone o = true /\ h_id h = h_id (rpc_header (o_request o))).
      { intros pe. now apply F. }
      rewrite Eo in G.
      destruct (msg_body m); try (destruct (G _ H) as (o1 & ?); right; right; exists o1; tauto).
      destruct (_ =? _) eqn:Ei in H; [|exfalso; apply H; exact Hr].
      unfold answer in H. destruct (o_gone o) eqn:Eg; [|exfalso; apply H; exact Hr].
      right; right. exists o. repeat split; auto. lia.
    + destruct rx as [|v rx]; [left; repeat split; discriminate|].
      destruct (Fi _ _ H) as (o1 & ?). right; right. exists o1. tauto.
  - unfold handle_sp_request in H. destruct (dec_message rx) as [[m rest]|].
    + destruct (l_handler s) eqn:El; [exfalso; apply H; exact Hr|]. right; left. repeat split. discriminate.
    + exfalso. apply H. exact Hr.
  - exfalso. apply H. cbn. now rewrite status_increment.
Qed.

(** A healthy loop: a handler that listens, a caller that waits. *)
Lemma survives s peer d io : l_status s = Running -> l_handler s = true ->
  match l_out s with Some o => o_gone o = false | None => True end ->
  match l_out s with
  | Some _ => forall h, dec_header (firstn MAX_PACKET_SIZE d) = Some (h, []) -> h_kind h <> KSpResponse
  | None => True
  end ->
  l_status (fst (step s (EvDatagram peer d io))) = Running.
Proof.
  intros Hr Hh Hg Hd. destruct (l_status (fst (step s (EvDatagram peer d io)))) eqn:E; [reflexivity| |];
    exfalso; (assert (C : crashing s d) by (apply (crash_sound s peer d io Hr); congruence));
    destruct C as (h & rx & Eh & [(K1 & -> & K3)|[(K1 & K2 & K3)|(o & K1 & K2 & _)]]);
    try congruence;
    try (destruct (l_out s) as [o|]; [|congruence]; now apply (Hd h));
    rewrite K1 in Hg; congruence.
Qed.

Definition crash_header : Header := mkHeader 1 77 KSpResponse.
Lemma crash_witness : exists s peer d io o, l_status s = Running /\ l_handler s = true /\
  l_out s = Some o /\ o_gone o = false /\ datagram_id d <> Some (h_id (rpc_header (o_request o))) /\
  bytes d = true /\ l_status (fst (step s (EvDatagram peer d io))) = Crashed.
Proof.
  exists (mkLoop 3 (Some (mkOut 1 (mkRpc (mkHeader 1 5 KHostRequest) (mkMessage 7 (BHostRequest (HStatus 1))) None) 1 0 false)) true Running), 0, (enc_header crash_header), true.
  eexists. repeat split; try reflexivity. vm_compute. discriminate.
Qed.

(** ** C26 *)
Lemma nth_counter_spec c i : c < 2 ^ 64 -> nth_counter c i = (c + N.of_nat i) mod 2 ^ 64.
Proof.
  intros Hc. induction i as [|i IH].
  - cbn [nth_counter]. rewrite N.add_0_r, N.mod_small by exact Hc. reflexivity.
  - cbn [nth_counter]. unfold next_header. cbn [fst]. rewrite IH.
    rewrite N.add_mod_idemp_l by discriminate. f_equal. lia.
Qed.
Lemma ids_distinct c i j : c < 2 ^ 64 -> (i < j)%nat -> N.of_nat j - N.of_nat i < 2 ^ 64 ->
  h_id (nth_header c i) <> h_id (nth_header c j).
Proof.
  intros Hc Hij Hd. unfold nth_header, next_header. cbn [snd header_new h_id]. unfold header_new. cbn [h_id].
  rewrite !nth_counter_spec by exact Hc. intros E.
  pose proof (N.div_mod (c + N.of_nat i) (2 ^ 64) ltac:(discriminate)) as A.
  pose proof (N.div_mod (c + N.of_nat j) (2 ^ 64) ltac:(discriminate)) as B.
  rewrite <- E in B. set (x := (c + N.of_nat i) / 2 ^ 64) in *. set (y := (c + N.of_nat j) / 2 ^ 64) in *.
  assert (N.of_nat i < N.of_nat j) by lia.
  assert (x < y \/ y <= x) as [?|?] by lia; nia.
Qed.
Lemma own_response c i j q q' d resp resp' : c < 2 ^ 64 ->
  (N.of_nat i - N.of_nat j < 2 ^ 64) -> (N.of_nat j - N.of_nat i < 2 ^ 64) ->
  rpc_header q = nth_header c i -> rpc_header q' = nth_header c j ->
  completes q d resp -> completes q' d resp' -> i = j.
Proof.
  intros Hc H1 H2 Hq Hq' (h & m & r & da & re & E & Hw & _ & _ & Hid & _)
    (h' & m' & r' & da' & re' & E' & Hw' & _ & _ & Hid' & _).
  rewrite E in E'. apply header_prefix_free in E'; [|assumption|assumption]. destruct E' as [<- _].
  rewrite Hid, Hq, Hq' in Hid'.
  destruct (Nat.lt_trichotomy i j) as [L|[L|L]]; [|exact L|]; exfalso.
  - now apply (ids_distinct c i j Hc L H2).
  - now apply (ids_distinct c j i Hc L H1).
Qed.

(** ** C27 *)
Lemma answer_no_error s o r p w : ~ In (OProtoError p w) (snd (answer s o r)).
Proof. unfold answer. destruct (o_gone o); cbn; intros [H|[]]; discriminate. Qed.
Lemma fail_no_error s h pe p w : ~ In (OProtoError p w) (snd (fail_matching s h pe)).
Proof.
  unfold fail_matching. destruct (l_out s); [|intros []]. destruct (_ =? _); [apply answer_no_error|intros []].
Qed.
Lemma send_no_error s o io p w : ~ In (OProtoError p w) (snd (send_outgoing_request s o io)).
Proof.
  unfold send_outgoing_request. destruct (request_packet _).
  - destruct io; [intros [H|[]]; discriminate|].
    pose proof (answer_no_error s o (Err EIo) p w) as K. destruct (answer s o (Err EIo)). cbn.
    intros [H|H]; [discriminate|]. now apply K.
  - intros [H|[]]; discriminate.
Qed.
Lemma errors_sent s e p w : In (OProtoError p w) (snd (step s e)) ->
  exists d io h rx, e = EvDatagram p d io /\ dec_header (firstn MAX_PACKET_SIZE d) = Some (h, rx) /\
    h_kind h <> KError /\
    (h_kind h = KSpRequest \/ h_kind h = KHostRequest \/ h_kind h = KHostResponse) /\
    (h_kind h = KSpRequest ->
       w = enc_header (header_new (h_id h) KError) ++ enc_message (message_new (BError PeSerialization))) /\
    (h_kind h <> KSpRequest -> w = enc_header h ++ enc_message (message_new (BError PeWrongMessage))).
Proof.
  unfold step. destruct (l_status s); try (intros []).
  destruct e as [tag r io| |io|hr io| |peer d io| | ].
  - destruct (l_out s); [intros []|].
    pose proof (send_no_error (set_out s (Some (mkOut tag r 0 0 false))) (mkOut tag r 0 0 false) io p w) as K.
    destruct (send_outgoing_request _ _ _). cbn. intros [H|H]; [discriminate|]. now apply K in H.
  - destruct (l_out s); intros [].
  - unfold handle_tick. destruct (l_out s) as [o|]; [|intros []].
    destruct (_ && _); [intros H; now apply send_no_error in H|].
    destruct (_ <=? _); intros H; now apply answer_no_error in H.
  - destruct hr; try (intros []). unfold send_outgoing_response.
    destruct (Nat.leb _ _); intros [H|[]]; discriminate.
  - intros [].
  - unfold handle_datagram. destruct (dec_header _) as [[h rx]|] eqn:Eh; [|intros []].
    intros Hin. destruct (h_kind h) eqn:Ek.
    + exfalso. unfold handle_sp_error in Hin. destruct (dec_message rx) as [[m rest]|].
      * destruct (msg_body m); try destruct Hin. now apply fail_no_error in Hin.
      * now apply fail_no_error in Hin.
    + destruct Hin as [H|[]]. injection H as <- <-. exists d, io, h, rx. rewrite Ek.
      repeat split; auto; congruence.
    + exfalso. unfold handle_sp_response in Hin. destruct (l_out s) as [o|]; [|destruct Hin].
      destruct (dec_message rx) as [[m rest]|].
      * destruct (msg_body m); try (now apply fail_no_error in Hin).
        destruct (_ =? _); [now apply answer_no_error in Hin|destruct Hin].
      * destruct rx; [destruct Hin as [H|[]]; discriminate|]. now apply fail_no_error in Hin.
    + unfold handle_sp_request in Hin. destruct (dec_message rx) as [[m rest]|].
      * exfalso. destruct (l_handler s); destruct Hin as [H|[]]; discriminate.
      * destruct Hin as [H|[]]. injection H as <- <-. exists d, io, h, rx. rewrite Ek.
        repeat split; auto; congruence.
    + destruct Hin as [H|[]]. injection H as <- <-. exists d, io, h, rx. rewrite Ek.
      repeat split; auto; congruence.
  - destruct (l_out s); intros [].
  - intros [].
Qed.

Lemma error_reply_wellformed s e p w : forallb bytes_event [e] = true ->
  In (OProtoError p w) (snd (step s e)) ->
  exists d io h rx h' rest err, e = EvDatagram p d io /\ dec_header (firstn MAX_PACKET_SIZE d) = Some (h, rx) /\
    h_kind h <> KError /\ dec_header w = Some (h', rest) /\ h_id h' = h_id h /\
    dec_message rest = Some (message_new (BError err), []) /\
    match h_kind h with
    | KSpRequest => h' = header_new (h_id h) KError /\ err = PeSerialization
    | _ => err = PeWrongMessage
    end.
Proof.
  intros Hb Hin. destruct (errors_sent _ _ _ _ Hin) as (d & io & h & rx & -> & Hh & Hk & _ & Hw & Hw').
  cbn in Hb. rewrite andb_true_r in Hb. apply (bytes_firstn MAX_PACKET_SIZE) in Hb.
  destruct (header_canonical _ _ _ Hb Hh) as (_ & Hwf & _).
  assert (Hm : forall e, wf_message (message_new (BError e)) = true -> dec_message (enc_message (message_new (BError e))) = Some (message_new (BError e), [])).
  { intros e He. rewrite <- (app_nil_r (enc_message _)). now rewrite message_roundtrip. }
  destruct (h_kind h) eqn:Ek; try congruence.
  1,2,4: rewrite (Hw' ltac:(discriminate)); exists d, io, h, rx, h; eexists _, PeWrongMessage; rewrite Ek;
    repeat (split; [assumption || reflexivity|]); (split; [rewrite header_roundtrip by assumption; reflexivity|]);
    (split; [reflexivity|]); (split; [now apply Hm|reflexivity]).
  rewrite (Hw eq_refl). exists d, io, h, rx, (header_new (h_id h) KError). eexists _, PeSerialization. rewrite Ek.
  repeat (split; [assumption || reflexivity|]). split; [rewrite header_roundtrip; [reflexivity|]|].
  { unfold wf_header in *. cbn. apply andb_prop in Hwf. tauto. }
  split; [reflexivity|]. split; [now apply Hm|]. split; reflexivity.
Qed.
Lemma response_sent s r io : l_status s = Running -> (length (enc_message (rpc_message r) ++ data_bytes (rpc_data r)) <= 1060)%nat ->
  snd (step s (EvHandler (HandlerSend r) io)) =
    [OResponse (enc_message (rpc_message r) ++ match rpc_data r with Some d => d | None => [] end)].
Proof. intros Hs Hl. unfold step. rewrite Hs. unfold send_outgoing_response. apply Nat.leb_le in Hl. change MAX_PACKET_SIZE with 1060%nat. now rewrite Hl. Qed.

(** ** C22 *)
Lemma sent_packets n es : exists done cur,
  filter is_rpc (log (loop_new n) es) = concat (map render (done ++ cur)) /\
  Forall answered done /\ (length cur <= 1)%nat /\ Forall (fun c => ss_answer c = None) cur /\
  Forall (sent_within (match n with Some k => k | None => 2 ^ 64 - 1 end)) (done ++ cur).
Proof.
  destruct (sessions_run n es) as (dn & cur & Hf & Ha & Hs & Hi).
  exists dn, cur. rewrite after_limit in Hs. repeat (split; [assumption|]).
  destruct cur as [|c [|? ?]]; cbn in Hi; [| |destruct Hi]; cbn; repeat split; auto; try (destruct n; exact Hs).
  constructor; [tauto|constructor].
Qed.
Lemma wire_decodes r : wf_header (rpc_header r) = true -> wf_message (rpc_message r) = true ->
  exists rest, dec_header (wire r) = Some (rpc_header r, rest) /\
    dec_message rest = Some (rpc_message r, match rpc_data r with Some d => d | None => [] end).
Proof.
  intros Hh Hm. unfold wire. rewrite header_roundtrip by exact Hh. eexists. split; [reflexivity|].
  now rewrite message_roundtrip.
Qed.
