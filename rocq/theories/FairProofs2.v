(** When the loop keeps running, and the calls of the controller end (C79). *)
From Verif Require Export FairProofs.
From Verif Require Import Tac Wf MessageProofs IoProofs IoProofs3 NetProofs ProgProofs SentProofs ControllerProofs ControllerProofs3 CodecProofs Codec.

(** ** The questions of a call *)
Definition play (s : list reply) (_ : Rpc) : list reply * reply :=
  match s with
  | [] => ([], Err EIo)
  | Ok r :: rest => (rest, if wf_body (msg_body (rpc_message r)) then Ok r else Err EIo)
  | x :: rest => (rest, x)
  end.
Lemma play_ok : answers_in_range play.
Proof.
  intros [|[r|e|] s] q resp _; cbn; try discriminate. destruct (wf_body _) eqn:E; [|discriminate]. now intros [= <-].
Qed.
Lemma alone_grew {A St} (p : prog A) (sp : St -> Rpc -> St * reply) : forall w, exists ds, grew w (fst (alone p sp w)) ds.
Proof.
  induction p as [x|q d k IH|t p IH]; intros w; cbn [alone].
  - exists []. apply grew_refl.
  - unfold cbind. rewrite rpc_eq. destruct (snd (sp (w_sp w) (req w q d))) as [r|e|].
    + destruct (IH (Told (msg_body (rpc_message r)) (rpc_data r)) (stepped w q d (fst (sp (w_sp w) (req w q d))))) as (ds & H).
      eexists. eapply grew_trans; [apply grew_stepped|exact H].
    + destruct (IH (Missed e) (stepped w q d (fst (sp (w_sp w) (req w q d))))) as (ds & H).
      eexists. eapply grew_trans; [apply grew_stepped|exact H].
    + eexists. apply grew_stepped.
  - unfold cbind, sleep. destruct (IH (mkWorld (w_sp w) (w_counter w) (w_log w ++ [ASleep t]))) as (ds & H).
    eexists. eapply grew_trans; [apply grew_sleep|exact H].
Qed.
Lemma played {A} (p : prog A) : forall xs q d w, Forall reply_ok xs -> question p xs = Some (q, d) -> w_sp w = xs ->
  exists ds, grew w (fst (alone p play w)) ds /\ In (DRequest q d) ds.
Proof.
  unfold question. induction p as [x|q0 d0 k IH|t p IH]; intros xs q d w Hx Hq Hw; cbn [resume alone] in *.
  - discriminate.
  - unfold cbind. rewrite rpc_eq. rewrite Hw. destruct xs as [|[r|e|] rest]; cbn [play fst snd heard] in *; try discriminate.
    + injection Hq as -> ->. destruct (alone_grew (k (Missed EIo)) play (stepped w q d [])) as (ds & H).
      eexists. split; [eapply grew_trans; [apply grew_stepped|exact H]|now left].
    + apply Forall_cons_iff in Hx. destruct Hx as [Hr Hx]. cbn in Hr. rewrite Hr.
      destruct (IH _ rest q d (stepped w q0 d0 rest) Hx Hq eq_refl) as (ds & H & Hin).
      eexists. split; [eapply grew_trans; [apply grew_stepped|exact H]|]. now right.
    + apply Forall_cons_iff in Hx. destruct Hx as [Hr Hx].
      destruct (IH _ rest q d (stepped w q0 d0 rest) Hx Hq eq_refl) as (ds & H & Hin).
      eexists. split; [eapply grew_trans; [apply grew_stepped|exact H]|]. now right.
  - unfold cbind, sleep. destruct (IH xs q d (mkWorld (w_sp w) (w_counter w) (w_log w ++ [ASleep t])) Hx Hq Hw) as (ds & H & Hin).
    eexists. split; [eapply grew_trans; [apply grew_sleep|exact H]|]. now right.
Qed.
Lemma made_lawful {A} (c : forall St, (St -> Rpc -> St * reply) -> ctl (St := St) A) p : steps_of c p ->
  (forall St (sp : St -> Rpc -> St * reply), answers_in_range sp -> makes_well (c St sp)) -> lawful p.
Proof.
  intros Hp Hc xs q d Hx Hq. apply (Hc _ play play_ok (mkWorld xs 0 [])).
  destruct (played p xs q d (mkWorld xs 0 []) Hx Hq eq_refl) as (ds & Hg & Hin).
  destruct (c _ play (mkWorld xs 0 [])) as [w' o] eqn:E.
  assert (Ew : w' = fst (alone p play (mkWorld xs 0 []))) by (rewrite <- Hp, E; reflexivity).
  rewrite <- Ew in Hg. now rewrite (deeds_grew _ _ _ _ _ E Hg).
Qed.
Lemma lawful_ask {A} q d (k : news -> prog A) : lawful (Ask q d k) ->
  well_made q d /\ forall x, reply_ok x -> lawful (heard k x).
Proof.
  intros H. split; [exact (H [] q d (Forall_nil _) eq_refl)|].
  intros x Hx xs q' d' Hxs Hq. destruct x as [r|e|]; [| |destruct xs; discriminate].
  - exact (H (Ok r :: xs) q' d' (Forall_cons _ Hx Hxs) Hq).
  - exact (H (Err e :: xs) q' d' (Forall_cons _ Hx Hxs) Hq).
Qed.
Lemma lawful_nap {A} u (p : prog A) : lawful (Nap u p) -> lawful p.
Proof. intros H xs q d Hx Hq. exact (H xs q d Hx Hq). Qed.

(** ** The loop *)
Definition packs (r : Rpc) : Prop := request_packet r <> None.
Definition loop_ok (l : loop) : Prop :=
  l_status l = Running /\ l_handler l = true /\
  forall o, l_out l = Some o -> o_gone o = false /\ wf_rpc (o_request o) = true /\ packs (o_request o).
Definition event_ok (e : event) : Prop :=
  match e with
  | EvRequest _ r _ => wf_rpc r = true /\ packs r
  | EvClosed | EvCallerGone | EvHandlerGone => False
  | EvHandler (HandlerSend r) _ => (length (data_bytes (rpc_data r)) <= 1024)%nat
  | EvDatagram _ d _ => bytes d = true /\
      forall h rx, dec_header (firstn MAX_PACKET_SIZE d) = Some (h, rx) -> h_kind h = KSpResponse -> rx <> []
  | _ => True
  end.
Definition outs_ok (outs : list output) : Prop :=
  Forall (fun o => match o with
                   | OReply _ x => reply_ok x
                   | OTx _ d => exists r, d = wire r /\ wf_rpc r = true
                   | _ => True
                   end) outs.
Lemma ok_quiet l : loop_ok l -> loop_ok l /\ outs_ok [].
Proof. intros H. split; [exact H|constructor]. Qed.
Lemma ok_incr l : loop_ok l -> loop_ok (increment_faulty l).
Proof.
  intros H. assert (H' := H). destruct H' as (H1 & H2 & H3). unfold increment_faulty.
  destruct (l_out l) as [o|] eqn:E; [|exact H]. split; [exact H1|]. split; [exact H2|]. intros o'. cbn. intros [= <-]. cbn. now apply H3.
Qed.
Lemma ok_answer l o x : loop_ok l -> o_gone o = false -> reply_ok x ->
  loop_ok (fst (IoLoop.answer l o x)) /\ outs_ok (snd (IoLoop.answer l o x)).
Proof.
  intros (H1 & H2 & H3) Hg Hx. unfold IoLoop.answer. rewrite Hg. cbn. split; [|repeat constructor; exact Hx].
  split; [exact H1|]. split; [exact H2|]. discriminate.
Qed.
Lemma ok_fail l h pe : loop_ok l -> loop_ok (fst (fail_matching l h pe)) /\ outs_ok (snd (fail_matching l h pe)).
Proof.
  intros H. unfold fail_matching. destruct (l_out l) as [o|] eqn:E; [|now apply ok_quiet].
  destruct (_ =? _); [|now apply ok_quiet]. apply ok_answer; [exact H| |exact I]. now destruct H as (_ & _ & H3); apply H3.
Qed.
Lemma ok_send l o io : loop_ok l -> o_gone o = false -> wf_rpc (o_request o) = true -> packs (o_request o) ->
  loop_ok (fst (send_outgoing_request l o io)) /\ outs_ok (snd (send_outgoing_request l o io)).
Proof.
  intros H Hg Hw Hp. unfold send_outgoing_request. destruct (request_packet (o_request o)) as [p|] eqn:Ep; [|now destruct Hp].
  assert (Ho : exists r, p = wire r /\ wf_rpc r = true) by (exists (o_request o); split; [now apply request_packet_wire|exact Hw]).
  destruct io.
  - cbn. split; [|repeat constructor; exact Ho]. destruct H as (H1 & H2 & _). split; [exact H1|]. split; [exact H2|].
    cbn. intros o' [= <-]. now split.
  - destruct (ok_answer l o (Err EIo) H Hg I) as [K1 K2]. destruct (IoLoop.answer l o (Err EIo)). cbn in *. split; [exact K1|].
    constructor; [exact Ho|exact K2].
Qed.
Lemma ok_step l e : loop_ok l -> event_ok e -> loop_ok (fst (step l e)) /\ outs_ok (snd (step l e)).
Proof.
  intros H He. assert (H' := H). destruct H' as (H1 & H2 & H3). unfold step. rewrite H1.
  destruct e as [tag r io| |io|hr io| |peer d io| |]; cbn [event_ok] in He; try contradiction.
  - destruct (l_out l) eqn:E; [now apply ok_quiet|]. destruct He as [Hw Hp].
    destruct (ok_send (set_out l (Some (mkOut tag r 0 0 false))) (mkOut tag r 0 0 false) io) as [K1 K2]; try assumption.
    + split; [exact H1|]. split; [exact H2|]. cbn. intros o [= <-]. now split.
    + reflexivity.
    + destruct (send_outgoing_request _ _ _). cbn in *. split; [exact K1|]. constructor; [exact I|exact K2].
  - unfold handle_tick. destruct (l_out l) as [o|] eqn:E; [|now apply ok_quiet]. destruct (H3 o eq_refl) as (G1 & G2 & G3).
    destruct (_ && _); [now apply ok_send|]. destruct (_ <=? _); apply ok_answer; auto; exact I.
  - destruct hr as [r| |]; try now apply ok_quiet. unfold send_outgoing_response.
    rewrite (proj2 (Nat.leb_le _ _)).
    + split; [exact H|repeat constructor].
    + pose proof (proj2 (packet_fits (header_new 0 KHostRequest) (rpc_message r) (data_bytes (rpc_data r)) He)) as K.
      rewrite app_length in K. lia.
  - cbn. split; [now apply ok_incr|constructor].
  - destruct He as [Hb Hn]. unfold handle_datagram.
    assert (Hb' : bytes (firstn MAX_PACKET_SIZE d) = true).
    { rewrite <- (firstn_skipn MAX_PACKET_SIZE d), bytes_app in Hb. now apply andb_true_iff in Hb. }
    destruct (dec_header (firstn MAX_PACKET_SIZE d)) as [[h rx]|] eqn:Ed; [|cbn; split; [now apply ok_incr|constructor]].
    destruct (header_canonical _ _ _ Hb' Ed) as (_ & _ & Hrx).
    destruct (h_kind h) eqn:Ek.
    + unfold handle_sp_error. destruct (dec_message rx) as [[m rest]|]; [|now apply ok_fail, ok_incr].
      destruct (msg_body m); try now apply ok_quiet, ok_incr. now apply ok_fail, ok_incr.
    + cbn. split; [now apply ok_incr|repeat constructor].
    + unfold handle_sp_response. destruct (l_out l) as [o|] eqn:E; [|now apply ok_quiet].
      destruct (dec_message rx) as [[m rest]|] eqn:Em.
      * destruct (msg_body m) eqn:Eb; try now apply ok_fail. destruct (_ =? _); [|now apply ok_quiet].
        apply ok_answer; [exact H|now apply H3|]. unfold matched_reply.
        assert (Wm : wf_body (msg_body m) = true).
        { destruct (message_canonical _ _ _ Hrx Em) as (_ & Wm & _). unfold wf_message in Wm. now apply andb_true_iff in Wm. }
        destruct (sp_expected_data_len _), (sp_expected_error_data_len _); try destruct (Nat.ltb _ _); try exact I; exact Wm.
      * destruct rx; [now destruct (Hn h [] eq_refl Ek)|]. now apply ok_fail, ok_incr.
    + unfold handle_sp_request. destruct (dec_message rx) as [[m rest]|]; [|split; [exact H|repeat constructor]].
      rewrite H2. split; [exact H|repeat constructor].
    + cbn. split; [now apply ok_incr|repeat constructor].
Qed.

(** ** The network *)
Definition net_ok {St} (n : net St) : Prop :=
  loop_ok (nt_loop n) /\ (forall d, In d (nt_sent n) -> exists r, d = wire r /\ wf_rpc r = true) /\
  (forall d, In d (nt_mail n) -> event_ok (EvDatagram 0 d true)).
Lemma mail_ok r : wf_rpc r = true -> bytes (match rpc_data r with Some d => d | None => [] end) = true ->
  event_ok (EvDatagram 0 (wire r) true).
Proof.
  intros Hw Hb. cbn [event_ok]. split; [now apply bytes_wire|]. intros h rx Hd _ ->.
  assert (Hb' : bytes (firstn MAX_PACKET_SIZE (wire r)) = true).
  { pose proof (bytes_wire r Hw Hb) as K. rewrite <- (firstn_skipn MAX_PACKET_SIZE (wire r)), bytes_app in K. now apply andb_true_iff in K. }
  destruct (header_canonical _ _ _ Hb' Hd) as (E & _ & _). rewrite app_nil_r in E.
  apply (f_equal (@length N)) in E. revert E.
  assert (L : forall h, length (enc_header h) = 10%nat) by (intros [? ? []]; reflexivity).
  assert (L' : forall m, (1 <= length (enc_message m))%nat) by (intros m; unfold enc_message; rewrite app_length; cbn [length enc_u8]; lia).
  specialize (L' (rpc_message r)).
  unfold wire. rewrite firstn_length, !app_length, !L.
  assert (M : (11 <= MAX_PACKET_SIZE)%nat) by (vm_compute; repeat constructor). intros E. lia.
Qed.
Lemma ok_net {St} (sp : St -> Rpc -> St * reply) (Hpol : polite sp) n m : net_ok n ->
  match m with MServe _ | MDrift _ => True | _ => forall e, move_event n m = Some e -> event_ok e end ->
  net_ok (fst (net_step sp n m)) /\ outs_ok (snd (net_step sp n m)).
Proof.
  intros (H1 & H2 & H3) Hm.
  assert (G : forall e, event_ok e -> net_ok (fst (let (l, outs) := step (nt_loop n) e in
      (mkNet l (nt_sp n) (nt_sent n ++ packets outs) (nt_mail n), outs))) /\
    outs_ok (snd (let (l, outs) := step (nt_loop n) e in
      (mkNet l (nt_sp n) (nt_sent n ++ packets outs) (nt_mail n), outs)))).
  { intros e He. destruct (ok_step _ e H1 He) as [K1 K2]. destruct (step (nt_loop n) e) as [l outs]. cbn [fst snd] in *.
    split; [|exact K2]. split; [exact K1|]. split; [|exact H3]. cbn [nt_sent]. intros d Hd. apply in_app_iff in Hd.
    destruct Hd as [Hd|Hd]; [now apply H2|]. unfold packets in Hd. apply in_flat_map in Hd. destruct Hd as (o & Ho & Hd).
    unfold outs_ok in K2. rewrite Forall_forall in K2. specialize (K2 o Ho). destruct o; try contradiction.
    destruct Hd as [<-|[]]. exact K2. }
  destruct m; cbn [net_step move_event] in *; try (apply G; apply Hm; reflexivity).
  - destruct (nth_error (nt_sent n) k) as [d|] eqn:E; [|split; [now split|constructor]].
    apply nth_error_In in E. destruct (H2 d E) as (r & -> & Hw). unfold serve.
    assert (Hw' := Hw). unfold wf_rpc in Hw'. apply andb_true_iff in Hw'. destruct Hw' as [Wh Wm].
    destruct (wire_decodes r Wh Wm) as (rest & -> & ->).
    pose proof (Hpol (nt_sp n) (as_received (mkRpc (rpc_header r) (rpc_message r)
      (Some match rpc_data r with Some d => d | None => [] end)))) as P.
    destruct (sp _ _) as [s' x]. cbn [fst snd] in *. split; [|constructor]. split; [exact H1|]. split; [exact H2|].
    cbn [nt_mail]. intros d Hd. apply in_app_iff in Hd. destruct Hd as [Hd|Hd]; [now apply H3|].
    destruct x as [resp|e|]; try contradiction. destruct Hd as [<-|[]].
    destruct (P resp Hw eq_refl) as (y & Wr & _ & _ & _ & Hy). apply mail_ok; [exact Wr|].
    destruct y; try (destruct Hy as (data & -> & _ & Hb); exact Hb). now rewrite Hy.
  - destruct (nth_error (nt_mail n) k) as [d|] eqn:E; [|split; [now split|constructor]].
    apply G, Hm. reflexivity.
  - split; [now split|constructor].
Qed.

(** ** The system *)
Lemma made_packs id q d : well_made q d -> packs (host_request id q d).
Proof.
  intros [Hw Hd]. unfold packs, request_packet. cbn [rpc_header rpc_message rpc_data host_request].
  rewrite (proj2 (Nat.leb_le _ _)); [discriminate|]. apply packet_fits.
  assert (L : (length (data_bytes d) <= 255)%nat).
  { destruct q; try (rewrite Hd; cbn; lia). destruct Hd as (data & -> & Hl). cbn [data_bytes].
    cbn [wf_host_request] in Hw. apply andb_true_iff in Hw. destruct Hw as [_ Hw]. unfold wf_write in Hw.
    repeat (apply andb_true_iff in Hw; destruct Hw as [Hw ?]). unfold u8 in *. unfold Nlen in Hl. lia. }
  unfold MAX_PAYLOAD_SIZE. lia.
Qed.
Definition call_ok {A} (c : call A) : Prop :=
  match c with
  | Going _ p => lawful p
  | Waiting _ _ _ _ k => forall x, reply_ok x -> lawful (heard k x)
  end.
Definition sys_ok {St A} (s : sys St A) : Prop :=
  net_ok (sy_net s) /\ sy_counter s < 2 ^ 64 /\ (forall r, In r (sy_queue s) -> wf_rpc r = true /\ packs r) /\
  Forall call_ok (sy_calls s).
Lemma ok_hear {A} outs (cs : list (call A)) : outs_ok outs -> Forall call_ok cs -> Forall call_ok (hear_all outs cs).
Proof.
  intros Ho. revert cs. induction Ho as [|o outs Ho _ IH]; intros cs Hc; [exact Hc|]. cbn [hear_all fold_left].
  apply IH. destruct o as [|?|tag x| | | |]; try exact Hc. rewrite Forall_map. eapply Forall_impl; [|exact Hc].
  intros [xs p|xs id q d k] H; [exact H|]. cbn [hear]. destruct (id =? tag); [|exact H]. cbn in *. now apply H.
Qed.
Lemma ok_update {A} (P : A -> Prop) i x l : P x -> Forall P l -> Forall P (update i x l).
Proof.
  intros Hx H. revert i. induction H as [|y l Hy Hl IH]; intros [|i]; cbn [update]; constructor; auto.
Qed.
Lemma ok_turn {St A} (sp : St -> Rpc -> St * reply) (Hpol : polite sp) (s : sys St A) t : sys_ok s -> untroubled t ->
  sys_ok (sys_step sp s t).
Proof.
  intros (H1 & H2 & H3 & H4) [Ht Hc].
  destruct (turn_kinds sp s t) as [Em Es|i xs q d k Et Em Ei Ewf Es|i xs u p Et Em Ei Es|r io a b Em Eq El Es|m Em Et Hm Es];
    rewrite Es.
  - exact (conj H1 (conj H2 (conj H3 H4))).
  - assert (Hl : call_ok (Going xs (Ask q d k))).
    { rewrite Forall_forall in H4. apply H4. now apply nth_error_In in Ei. }
    cbn in Hl. apply lawful_ask in Hl. destruct Hl as [Hq Hk].
    split; [exact H1|]. split; [now apply N.mod_lt|]. cbn [sy_queue sy_calls]. split.
    + intros r Hr. apply in_app_iff in Hr. destruct Hr as [Hr|[<-|[]]]; [now apply H3|]. split; [exact Ewf|now apply made_packs].
    + apply ok_update; [exact Hk|exact H4].
  - assert (Hl : call_ok (Going xs (Nap u p))).
    { rewrite Forall_forall in H4. apply H4. now apply nth_error_In in Ei. }
    split; [exact H1|]. split; [exact H2|]. cbn [sy_queue sy_calls]. split; [exact H3|].
    apply ok_update; [exact (lawful_nap u p Hl)|exact H4].
  - destruct (ok_net sp Hpol (sy_net s) (MRequest (rpc_id r) r io) H1) as [K1 K2].
    { intros e [= <-]. cbn. apply H3. rewrite Eq. apply in_app_iff. right. now left. }
    split; [exact K1|]. split; [exact H2|]. cbn [sy_queue sy_calls]. split; [|now apply ok_hear].
    intros r' Hr. apply H3. rewrite Eq. apply in_app_iff in Hr. apply in_app_iff. destruct Hr; [now left|right; now right].
  - assert (Hev : match m with MServe _ | MDrift _ => True | _ => forall e, move_event (sy_net s) m = Some e -> event_ok e end).
    { rewrite Et in Hc, Ht. destruct m; try exact I; try contradiction; cbn [move_event].
      - intros e [= <-]. exact I.
      - intros e [= <-]. destruct r; try exact I. exact Hc.
      - intros e [= <-]. exact I.
      - intros e. destruct (nth_error (nt_mail (sy_net s)) k) as [d|] eqn:E; [|discriminate]. intros [= <-].
        apply nth_error_In in E. now apply H1.
      - intros e [= <-]. cbn [turn_ok noise_ok] in Ht. apply andb_true_iff in Ht. destruct Ht as [Hb Hk]. split; [exact Hb|].
        intros h rx Hd Hkind. rewrite Hd, Hkind in Hk. discriminate. }
    destruct (ok_net sp Hpol (sy_net s) m H1 Hev) as [K1 K2].
    split; [exact K1|]. split; [exact H2|]. cbn [sy_queue sy_calls]. split; [exact H3|now apply ok_hear].
Qed.
Lemma ok_run {St A} (sp : St -> Rpc -> St * reply) (Hpol : polite sp) ts : forall s : sys St A, sys_ok s -> Forall untroubled ts ->
  sys_ok (sys_run sp s ts).
Proof.
  induction ts as [|t ts IH]; intros s Hs Ht; [exact Hs|]. apply Forall_cons_iff in Ht. destruct Ht as [Ht Hts].
  cbn [sys_run fold_left]. apply IH; [now apply ok_turn|exact Hts].
Qed.
Lemma ok_new {St A} retries (st0 : St) c0 (ps : list (prog A)) : c0 < 2 ^ 64 -> Forall lawful ps ->
  sys_ok (sys_new retries st0 c0 ps).
Proof.
  intros Hc Hp. split; [|split; [exact Hc|split; [intros r []|]]].
  - split; [split; [reflexivity|split; [reflexivity|discriminate]]|split; intros d []].
  - cbn [sys_new sy_calls]. now rewrite Forall_map.
Qed.

Lemma stays_alive {St A} (sp : St -> Rpc -> St * reply) : polite sp -> forall retries s0 c0 (ps : list (prog A)) ts,
  c0 < 2 ^ 64 -> Forall lawful ps -> Forall untroubled ts -> alive (sys_run sp (sys_new retries s0 c0 ps) ts).
Proof.
  intros Hpol retries s0 c0 ps ts Hc Hp Ht. exact (proj1 (proj1 (proj1 (ok_run sp Hpol ts _ (ok_new retries s0 c0 ps Hc Hp) Ht)))).
Qed.
Lemma lawful_end {St A} (sp : St -> Rpc -> St * reply) : polite sp -> forall retries s0 c0 (ps : list (prog A)) ts,
  c0 < 2 ^ 64 -> Forall lawful ps -> (forall n, untroubled (ts n)) -> fair (length ps) ts ->
  forall i, (i < length ps)%nat -> exists n c, nth_error (sy_calls (at_time sp (sys_new retries s0 c0 ps) ts n)) i = Some c /\ over c.
Proof.
  intros Hpol retries s0 c0 ps ts Hc Hp Ht Hf i Hi.
  assert (Hts : forall n, Forall untroubled (map ts (seq 0 n))) by (intros n; rewrite Forall_map; apply Forall_forall; intros; apply Ht).
  assert (Hal : forall n, alive (at_time sp (sys_new retries s0 c0 ps) ts n)).
  { intros n. apply (stays_alive sp Hpol); auto. }
  destruct (all_end sp retries s0 c0 Hc ps ts Hf Hal i Hi) as (n & c & Hn & [Ho|(xs & q & d & k & -> & Hw)]); [eauto|].
  exfalso. destruct (ok_run sp Hpol _ _ (ok_new retries s0 c0 ps Hc Hp) (Hts n)) as (_ & _ & _ & Hcalls).
  rewrite Forall_forall in Hcalls. apply nth_error_In in Hn. specialize (Hcalls _ Hn). cbn in Hcalls.
  apply lawful_ask in Hcalls. destruct Hcalls as [[Hq _] _]. revert Hw.
  unfold wf_message. cbn [msg_version msg_body message_new wf_body]. now rewrite Hq.
Qed.
(** The calls of the controller. *)
Lemma calls_lawful :
  (forall m, m < 2 ^ 64 -> forall p, steps_of (fun St sp => leds sp m) p -> lawful p) /\
  (forall m, m < 2 ^ 64 -> forall p, steps_of (fun St sp => ctl_status sp m) p -> lawful p) /\
  (forall m, m < 2 ^ 64 -> forall p, steps_of (fun St sp => extended_status sp m) p -> lawful p) /\
  (forall m, m < 2 ^ 64 -> forall p, steps_of (fun St sp => identifier sp m) p -> lawful p) /\
  (forall m, m < 2 ^ 64 -> forall p, steps_of (fun St sp => reset sp m) p -> lawful p) /\
  (forall m, m < 2 ^ 64 -> forall p, steps_of (fun St sp => power sp m) p -> lawful p) /\
  (forall p, steps_of (fun St sp => mac_addrs sp) p -> lawful p) /\
  (forall q, wf_host_request q = true -> (forall m wr, q <> HWrite m wr) ->
     forall p, steps_of (fun St sp => no_payload_request sp q) p -> lawful p) /\
  (forall m rd, m < 2 ^ 64 -> wf_read rd = true -> forall p, steps_of (fun St sp => ctl_read sp m rd) p -> lawful p) /\
  (forall m wr data, m < 2 ^ 64 -> wf_write wr = true -> forall p, steps_of (fun St sp => ctl_write sp m wr data) p -> lawful p) /\
  (forall m st, m < 2 ^ 64 -> forall p, steps_of (fun St sp => set_power sp m st) p -> lawful p) /\
  (forall P reads (parse : Identifier -> list (list N) -> outcome DecodeError P) m, m < 2 ^ 64 -> reads_in_range reads ->
     forall p, steps_of (fun St sp => parse_modules_by_identifier sp reads parse m) p -> lawful p).
Proof.
  assert (G : forall St (sp : St -> Rpc -> St * reply) m, m < 2 ^ 64 -> answers_in_range sp -> _) by
    (intros St sp m Hm Hs; exact (all_well_made sp Hs m Hm)).
  split; [intros m Hm p Hp; refine (made_lawful _ p Hp _); intros St sp Hs; apply (G St sp m Hm Hs)|].
  split; [intros m Hm p Hp; refine (made_lawful _ p Hp _); intros St sp Hs; apply (G St sp m Hm Hs)|].
  split; [intros m Hm p Hp; refine (made_lawful _ p Hp _); intros St sp Hs; apply (G St sp m Hm Hs)|].
  split; [intros m Hm p Hp; refine (made_lawful _ p Hp _); intros St sp Hs; apply (G St sp m Hm Hs)|].
  split; [intros m Hm p Hp; refine (made_lawful _ p Hp _); intros St sp Hs; apply (G St sp m Hm Hs)|].
  split; [intros m Hm p Hp; refine (made_lawful _ p Hp _); intros St sp Hs; apply (G St sp m Hm Hs)|].
  split; [intros p Hp; refine (made_lawful _ p Hp _); intros St sp Hs; apply (G St sp 0 eq_refl Hs)|].
  split; [intros q Hq Hn p Hp; refine (made_lawful _ p Hp _); intros St sp Hs; now apply (G St sp 0 eq_refl Hs)|].
  split; [intros m rd Hm Hr p Hp; refine (made_lawful _ p Hp _); intros St sp Hs; now apply (G St sp m Hm Hs)|].
  split; [intros m wr data Hm Hr p Hp; refine (made_lawful _ p Hp _); intros St sp Hs; now apply (G St sp m Hm Hs)|].
  split; [intros m st Hm p Hp; refine (made_lawful _ p Hp _); intros St sp Hs; now apply (G St sp m Hm Hs)|].
  intros P reads parse m Hm Hr p Hp; refine (made_lawful _ p Hp _); intros St sp Hs; now apply (G St sp m Hm Hs).
Qed.
