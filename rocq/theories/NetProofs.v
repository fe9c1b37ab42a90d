(** Proofs about the path between a caller and the SP (C59). *)
From Verif Require Export SpecNet.
From Verif Require Import Tac Spec ModuleIdProofs CodecProofs MessageProofs IoProofs IoProofs2 IoProofs3.

Section Net.
  Context {St : Type} (sp : St -> Rpc -> St * reply).
  Notation net_step := (net_step sp). Notation net_run := (net_run sp).
  Notation net_after := (net_after sp). Notation net_log := (net_log sp). Notation serve := (serve sp).

  Lemma net_run_app n a b : net_run n (a ++ b) =
    (net_after (net_after n a) b, net_log n a ++ net_log (net_after n a) b).
  Proof.
    revert n. induction a as [|m a IH]; intros n; cbn.
    - unfold SpecNet.net_after, SpecNet.net_log. cbn. now destruct (net_run n b).
    - unfold SpecNet.net_after, SpecNet.net_log in *. cbn. destruct (net_step n m) as [n1 o1].
      rewrite IH. destruct (net_run n1 a) as [n2 o2]. cbn. destruct (net_run n2 b). cbn. now rewrite app_assoc.
  Qed.
  Lemma net_after_app n a b : net_after n (a ++ b) = net_after (net_after n a) b.
  Proof. unfold SpecNet.net_after at 1. now rewrite net_run_app. Qed.
  Lemma net_log_app n a b : net_log n (a ++ b) = net_log n a ++ net_log (net_after n a) b.
  Proof. unfold SpecNet.net_log at 1. now rewrite net_run_app. Qed.
  Lemma net_after_cons n m ms : net_after n (m :: ms) = net_after (fst (net_step n m)) ms.
  Proof.
    unfold SpecNet.net_after. cbn. destruct (net_step n m) as [n1 o1]. cbn. now destruct (net_run n1 ms).
  Qed.
  Lemma net_log_cons n m ms : net_log n (m :: ms) = snd (net_step n m) ++ net_log (fst (net_step n m)) ms.
  Proof.
    unfold SpecNet.net_log. cbn. destruct (net_step n m) as [n1 o1]. cbn. now destruct (net_run n1 ms).
  Qed.

  (** The loop's events in a run of the net. *)
  Fixpoint events (n : net St) (ms : list (move St)) : list event :=
    match ms with
    | [] => []
    | m :: r => match move_event n m with Some e => [e] | None => [] end ++ events (fst (net_step n m)) r
    end.
  Lemma step_event n m : 
    nt_loop (fst (net_step n m)) = match move_event n m with Some e => fst (step (nt_loop n) e) | None => nt_loop n end /\
    snd (net_step n m) = match move_event n m with Some e => snd (step (nt_loop n) e) | None => [] end.
  Proof.
    unfold SpecNet.net_step. destruct m; cbn [move_event]; try (destruct (step _ _); split; reflexivity).
    - destruct (nth_error _ _); [|split; reflexivity]. destruct (serve _ _). split; reflexivity.
    - destruct (nth_error _ _); [destruct (step _ _)|]; split; reflexivity.
    - split; reflexivity.
  Qed.
  Lemma events_run n ms : nt_loop (net_after n ms) = after (nt_loop n) (events n ms) /\
    net_log n ms = log (nt_loop n) (events n ms).
  Proof.
    revert n. induction ms as [|m ms IH]; intros n; [split; reflexivity|].
    rewrite net_after_cons, net_log_cons. cbn [events]. destruct (IH (fst (net_step n m))) as [-> ->].
    destruct (step_event n m) as [-> ->]. destruct (move_event n m) as [e|]; cbn [app]; [|split; reflexivity].
    rewrite after_cons, log_cons. split; reflexivity.
  Qed.
  Lemma events_split n ms a e b : events n ms = a ++ e :: b ->
    exists ma m mb, ms = ma ++ m :: mb /\ events n ma = a /\ move_event (net_after n ma) m = Some e /\
      events (net_after n (ma ++ [m])) mb = b.
  Proof.
    revert n a. induction ms as [|m ms IH]; intros n a; cbn [events].
    { intros E. now destruct a. }
    destruct (move_event n m) as [e'|] eqn:He; cbn [app].
    - destruct a as [|a0 a]; cbn [app]; intros [= -> E].
      + exists [], m, ms. cbn [app]. rewrite net_after_cons. repeat split; assumption.
      + destruct (IH _ _ E) as (ma & m' & mb & -> & E1 & E2 & E3).
        exists (m :: ma), m', mb. cbn [events app]. rewrite He, E1. repeat split; rewrite net_after_cons; assumption.
    - intros E. destruct (IH _ _ E) as (ma & m' & mb & -> & E1 & E2 & E3).
      exists (m :: ma), m', mb. cbn [events app]. rewrite He, E1. repeat split; rewrite net_after_cons; assumption.
  Qed.

  (** Where mail comes from. *)
  Lemma mail_step n m d : In d (nt_mail (fst (net_step n m))) ->
    In d (nt_mail n) \/ exists k p, m = MServe k /\ nth_error (nt_sent n) k = Some p /\ In d (snd (serve (nt_sp n) p)).
  Proof.
    unfold SpecNet.net_step. destruct m; cbn [move_event]; try (destruct (step _ _); cbn; tauto).
    - destruct (nth_error _ _) as [p|] eqn:E; [|cbn; tauto].
      destruct (serve (nt_sp n) p) as [s mail] eqn:F. cbn. rewrite in_app_iff. intros [H|H]; [tauto|].
      right. exists k, p. rewrite F. repeat split; assumption.
    - destruct (nth_error _ _); [destruct (step _ _)|]; cbn; tauto.
    - cbn. tauto.
  Qed.
  Lemma mail_origin n ms d : In d (nt_mail (net_after n ms)) ->
    In d (nt_mail n) \/ exists ma k mb p, ms = ma ++ MServe k :: mb /\ nth_error (nt_sent (net_after n ma)) k = Some p /\
      In d (snd (serve (nt_sp (net_after n ma)) p)).
  Proof.
    revert n. induction ms as [|m ms IH]; intros n; [tauto|]. rewrite net_after_cons. intros H.
    destruct (IH _ H) as [H'|(ma & k & mb & p & -> & Hp & Hd)].
    - destruct (mail_step _ _ _ H') as [?|(k & p & -> & Hp & Hd)]; [tauto|].
      right. exists [], k, ms, p. repeat split; assumption.
    - right. exists (m :: ma), k, mb, p. rewrite net_after_cons. repeat split; assumption.
  Qed.
  (** Where packets come from. *)
  Lemma sent_step n m : nt_sent (fst (net_step n m)) = nt_sent n ++ packets (snd (net_step n m)).
  Proof.
    unfold SpecNet.net_step. destruct m; cbn [move_event]; try (destruct (step _ _); reflexivity).
    - destruct (nth_error _ _); [destruct (serve _ _)|]; cbn; now rewrite app_nil_r.
    - destruct (nth_error _ _); [destruct (step _ _)|]; cbn; now rewrite ?app_nil_r.
    - cbn. now rewrite app_nil_r.
  Qed.
  Lemma sent_run n ms : nt_sent (net_after n ms) = nt_sent n ++ packets (net_log n ms).
  Proof.
    revert n. induction ms as [|m ms IH]; intros n; [now rewrite app_nil_r|].
    rewrite net_after_cons, net_log_cons, IH, sent_step. unfold packets. now rewrite flat_map_app, app_assoc.
  Qed.
End Net.

Lemma packets_rpc l : packets (filter is_rpc l) = packets l.
Proof. unfold packets. induction l as [|o l IH]; [reflexivity|]. destruct o; cbn; now rewrite ?IH. Qed.
Lemma requests_rpc l : requests (filter is_rpc l) = requests l.
Proof. unfold requests. induction l as [|o l IH]; [reflexivity|]. destruct o; cbn; now rewrite ?IH. Qed.
Lemma requests_app a b : requests (a ++ b) = requests a ++ requests b.
Proof. apply flat_map_app. Qed.
(** Every packet is the datagram of an accepted request. *)
Lemma packet_origin n es p : In p (packets (log (loop_new n) es)) ->
  exists q, In q (requests (log (loop_new n) es)) /\ p = wire q.
Proof.
  destruct (sent_packets n es) as (dn & cur & E & _). rewrite <- packets_rpc, <- requests_rpc, E. clear E.
  induction (dn ++ cur) as [|c l IH]; cbn; [tauto|].
  unfold packets, requests in *. rewrite !flat_map_app, in_app_iff. intros [H|H].
  - exists (ss_request c). split; [now left|].
    apply in_app_iff in H. destruct H as [H|H].
    + apply in_flat_map in H. destruct H as (o & Ho & Hp). apply repeat_spec in Ho. subst o. now destruct Hp as [<-|[]].
    + destruct (ss_answer c); cbn in H; tauto.
  - destruct (IH H) as (q & Hq & ->). exists q. split; [|reflexivity]. right. rewrite in_app_iff. now right.
Qed.

Lemma serve_wire {St} (sp : St -> Rpc -> St * reply) s q d : wf_rpc q = true ->
  In d (snd (serve sp s (wire q))) -> exists resp, snd (sp s (as_received q)) = Ok resp /\ d = wire resp.
Proof.
  intros Hw. apply andb_prop in Hw. destruct Hw as [Hh Hm]. unfold serve.
  destruct (wire_decodes q Hh Hm) as (rest & -> & ->).
  replace (as_received (mkRpc (rpc_header q) (rpc_message q) (Some (match rpc_data q with Some d => d | None => [] end))))
    with (as_received q) by (unfold as_received; cbn; destruct (rpc_data q) as [[|]|]; reflexivity).
  destruct (sp s (as_received q)) as [s' [resp| |]]; cbn; intros H; try tauto.
  destruct H as [<-|[]]. eauto.
Qed.

(** A response datagram that completes a request is that response. *)
Lemma completes_wire q resp0 resp x : wf_rpc resp0 = true -> msg_body (rpc_message resp0) = BSpResponse x ->
  match x with
  | SMacAddrs _ => rpc_data resp0 = None
  | _ => exists data, rpc_data resp0 = Some data /\ length data = announced x /\ bytes data = true
  end -> completes q (wire resp0) resp -> resp = resp0 /\ rpc_id resp0 = rpc_id q.
Proof.
  intros Hw Hx Hd (h & m & r & data & rest & E & Hwh & Hwm & Hk & Hid & Hb & Hl & ->).
  apply andb_prop in Hw. destruct Hw as [Hh Hm]. unfold wire in E.
  rewrite app_assoc in E. set (hm := enc_header (rpc_header resp0) ++ enc_message (rpc_message resp0)) in *.
  assert (Hlen : (length hm <= MAX_PACKET_SIZE)%nat).
  { unfold hm. rewrite app_length.
    pose proof (codec_len _ _ _ _ codec_header (rpc_header resp0)) as L1.
    pose proof (codec_len _ _ _ _ codec_message (rpc_message resp0)) as L2.
    assert ((MAX_SIZE_header + MAX_SIZE_message <= MAX_PACKET_SIZE)%nat) by (apply Nat.leb_le; vm_compute; reflexivity).
    lia. }
  rewrite firstn_app, (firstn_all2 hm) in E by exact Hlen.
  remember (MAX_PACKET_SIZE - length hm)%nat as room eqn:Eroom. clear Eroom.
  remember (firstn room (match rpc_data resp0 with Some d => d | None => [] end)) as pay eqn:Epay.
  unfold hm in E. rewrite <- !app_assoc in E.
  pose proof (header_roundtrip (rpc_header resp0) (enc_message (rpc_message resp0) ++ pay) Hh) as R1.
  rewrite E, (header_roundtrip h) in R1 by exact Hwh.
  assert (Eh : h = rpc_header resp0) by congruence.
  assert (E1 : enc_message m ++ data ++ rest = enc_message (rpc_message resp0) ++ pay) by congruence.
  pose proof (message_roundtrip (rpc_message resp0) pay Hm) as R3.
  rewrite <- E1, (message_roundtrip m) in R3 by exact Hwm.
  assert (Em : m = rpc_message resp0) by congruence.
  assert (E2 : data ++ rest = pay) by congruence. clear R1 R3 E E1.
  subst h m. rewrite Hx in Hb. injection Hb as <-.
  split; [|exact Hid].
  assert (G : (exists data, rpc_data resp0 = Some data /\ length data = announced x /\ bytes data = true) ->
              Some data = rpc_data resp0).
  { intros (data0 & Ed & Hl0 & _). rewrite Ed in *. f_equal. rewrite <- Hl in Hl0.
    assert (E3 : firstn (length data) (data ++ rest) = data).
    { now rewrite firstn_app, Nat.sub_diag, firstn_all, firstn_O, app_nil_r. }
    assert (Hge : (length data <= room)%nat).
    { apply (f_equal (@length N)) in E2. rewrite Epay, app_length, firstn_length in E2. lia. }
    rewrite E2, Epay, firstn_firstn, Nat.min_l in E3 by exact Hge.
    rewrite <- E3. rewrite <- Hl0. apply firstn_all. }
  destruct resp0 as [h0 m0 d0]. cbn [rpc_header rpc_message rpc_data] in *. f_equal.
  destruct x; auto.
Qed.

Lemma nodup_same {A B} (f : A -> B) l x y : NoDup (map f l) -> In x l -> In y l -> f x = f y -> x = y.
Proof.
  induction l as [|z l IH]; cbn; [tauto|]. intros Hn. inversion_clear Hn as [|? ? Hz Hn'].
  intros [->|Hx] [->|Hy] E; auto.
  - destruct Hz. rewrite E. now apply in_map.
  - destruct Hz. rewrite <- E. now apply in_map.
Qed.

Lemma prefix_compare {A} (a b : list A) x y c d : a ++ x :: c = b ++ y :: d ->
  (exists b', b = a ++ x :: b') \/ (exists a', a = b ++ a').
Proof.
  revert b. induction a as [|z a IH]; intros [|w b]; cbn; intros E.
  - right. now exists [].
  - left. injection E as <- E. now exists b.
  - right. now exists (z :: a).
  - injection E as <- E. destruct (IH _ E) as [(b' & ->)|(a' & ->)]; [left|right]; eauto.
Qed.

Lemma bytes_wire r : wf_rpc r = true -> bytes (match rpc_data r with Some d => d | None => [] end) = true ->
  bytes (wire r) = true.
Proof.
  intros Hw Hb. apply andb_prop in Hw. destruct Hw as [Hh Hm]. unfold wire. rewrite !bytes_app, Hb.
  now rewrite (codec_bytes _ _ _ _ codec_header _ Hh), (codec_bytes _ _ _ _ codec_message _ Hm).
Qed.

Section Main.
  Context {St : Type} (sp : St -> Rpc -> St * reply) (Hpol : polite sp) (retries : option N) (s0 : St).
  Notation n0 := (net_new retries s0).
  Notation net_after := (net_after sp n0). Notation net_log := (net_log sp n0).

  (** Every letter is the SP's answer to an accepted request. *)
  Lemma letter ms d : Forall (fun r => wf_rpc r = true) (requests (net_log ms)) ->
    In d (nt_mail (net_after ms)) ->
    exists ma k mb q resp, ms = ma ++ MServe k :: mb /\ In q (requests (net_log ma)) /\
      snd (sp (nt_sp (net_after ma)) (as_received q)) = Ok resp /\ d = wire resp /\ nth_error (nt_sent (net_after ma)) k = Some (wire q).
  Proof.
    intros Hw H. destruct (mail_origin sp n0 ms d H) as [[]|(ma & k & mb & p & -> & Hk & Hd)]. pose proof (nth_error_In _ _ Hk) as Hp.
    rewrite sent_run in Hp. cbn [nt_sent net_new app] in Hp.
    destruct (events_run sp n0 ma) as [_ El]. rewrite El in Hp. cbn in Hp.
    destruct (packet_origin _ _ _ Hp) as (q & Hq & ->).
    replace (log (loop_new retries) (events sp n0 ma)) with (net_log ma) in Hq.
    assert (Hwq : wf_rpc q = true).
    { rewrite Forall_forall in Hw. apply Hw. rewrite net_log_app, requests_app, in_app_iff. now left. }
    destruct (serve_wire _ _ _ _ Hwq Hd) as (resp & Hr & ->).
    exists ma, k, mb, q, resp. repeat split; assumption.
  Qed.

  Lemma wf_received q : wf_rpc q = true -> wf_rpc (as_received q) = true.
  Proof. exact (fun H => H). Qed.

  Lemma events_bytes ms : forallb noise_ok ms = true ->
    Forall (fun r => wf_rpc r = true) (requests (net_log ms)) ->
    forallb bytes_event (events sp n0 ms) = true.
  Proof.
    induction ms as [|m ms IH] using rev_ind; intros Hn Hw; [reflexivity|].
    assert (Hw' : Forall (fun r => wf_rpc r = true) (requests (net_log ms))).
    { rewrite net_log_app, requests_app in Hw. apply Forall_app in Hw. tauto. }
    rewrite forallb_app in Hn. apply andb_prop in Hn. destruct Hn as [Hn Hm].
    assert (Ea : forall n a, events sp n (a ++ [m]) = events sp n a ++ events sp (SpecNet.net_after sp n a) [m]).
    { intros n a. revert n. induction a as [|x a IHa]; intros n; [reflexivity|].
      cbn [events app]. now rewrite IHa, net_after_cons, app_assoc. }
    rewrite Ea, forallb_app, IH by assumption. cbn [events andb].
    cbn in Hm. rewrite andb_true_r in Hm. destruct m; try reflexivity.
    - cbn. destruct (nth_error _ _) as [d|] eqn:E; [|reflexivity]. cbn. rewrite andb_true_r.
      apply nth_error_In in E. destruct (letter _ _ Hw' E) as (ma & k' & mb & q & resp & -> & Hq & Hr & -> & _).
      assert (Hwq : wf_rpc q = true).
      { rewrite Forall_forall in Hw'. apply Hw'. rewrite net_log_app, requests_app, in_app_iff. now left. }
      destruct (Hpol _ _ _ (wf_received _ Hwq) Hr) as (x & Hwr & _ & _ & _ & Hd).
      apply bytes_wire; [exact Hwr|].
      destruct x; try (destruct Hd as (data & -> & _ & Hb); exact Hb). now rewrite Hd.
    - cbn in *. apply andb_prop in Hm. now rewrite (proj1 Hm).
  Qed.

  Lemma net_sound_all ms tag resp : forallb noise_ok ms = true ->
    Forall (fun r => wf_rpc r = true) (requests (net_log ms)) ->
    NoDup (map rpc_id (requests (net_log ms))) ->
    In (OReply tag (Ok resp)) (net_log ms) ->
    exists pre q mid k post,
      ms = pre ++ (MRequest tag q true :: mid) ++ MServe k :: post /\
      l_out (nt_loop (net_after pre)) = None /\
      (exists o, l_out (nt_loop (net_after (pre ++ MRequest tag q true :: mid))) = Some o /\
                 o_tag o = tag /\ o_request o = q) /\
      nth_error (nt_sent (net_after (pre ++ MRequest tag q true :: mid))) k = Some (wire q) /\
      In (OAccept tag q) (net_log ms) /\ rpc_id resp = rpc_id q /\
      snd (sp (nt_sp (net_after (pre ++ MRequest tag q true :: mid))) (as_received q)) = Ok resp.
  Proof.
    intros Hn Hw Hd Hin. pose proof (events_bytes ms Hn Hw) as Hb.
    destruct (events_run sp n0 ms) as [_ El]. rewrite El in Hin. cbn [nt_loop net_new] in Hin.
    destruct (success_sound _ _ _ _ Hb Hin) as (pre & q & mid & peer & d & io & post & Ee & Hfl & Hc).
    rewrite <- app_comm_cons in Ee.
    destruct (events_split _ _ _ _ _ _ Ee) as (mpre & mq & ms2 & -> & Ep & Emq & Er).
    destruct (events_split _ _ _ _ _ _ Er) as (mmid & md & mpost & -> & Em & Emd & _).
    assert (Eq : mq = MRequest tag q true).
    { destruct mq; cbn in Emq; try discriminate; try (injection Emq as -> -> ->; reflexivity).
      destruct (nth_error _ _); discriminate. }
    subst mq. clear Emq.
    assert (Hfl2 : forall m1 m2, mmid = m1 ++ m2 -> exists o,
      l_out (nt_loop (net_after (mpre ++ MRequest tag q true :: m1))) = Some o /\ o_tag o = tag /\ o_request o = q).
    { intros m1 m2 ->. destruct Hfl as [_ Hfl].
      assert (Ea : forall n a b, events sp n (a ++ b) = events sp n a ++ events sp (SpecNet.net_after sp n a) b).
      { intros n a b. revert n. induction a as [|x a IHa]; intros n; [reflexivity|].
        cbn [events app]. now rewrite IHa, net_after_cons, app_assoc. }
      rewrite Ea in Em. symmetry in Em. destruct (Hfl _ _ Em) as (o & Ho & Ht).
      exists o. split; [|exact Ht]. destruct (events_run sp n0 (mpre ++ MRequest tag q true :: m1)) as [-> _].
      rewrite Ea, Ep. cbn [events move_event app].
      change (nt_loop n0) with (loop_new retries). rewrite <- Ho. rewrite net_after_app. 
      rewrite net_after_cons. reflexivity. }
    assert (Hmail : In d (nt_mail (net_after (mpre ++ MRequest tag q true :: mmid)))).
    { replace (mpre ++ MRequest tag q true :: mmid) with ((mpre ++ [MRequest tag q true]) ++ mmid) by now rewrite <- app_assoc.
      rewrite net_after_app. destruct md; cbn in Emd; try discriminate.
      - destruct (nth_error _ _) as [d'|] eqn:E; [|discriminate]. injection Emd as _ -> _.
        now apply nth_error_In in E.
      - injection Emd as -> -> _. exfalso.
        rewrite forallb_app in Hn. apply andb_prop in Hn. destruct Hn as [_ Hn]. cbn [forallb] in Hn.
        apply andb_prop in Hn. destruct Hn as [_ Hn]. rewrite forallb_app in Hn. apply andb_prop in Hn.
        destruct Hn as [_ Hn]. cbn [forallb noise_ok] in Hn. apply andb_prop in Hn. destruct Hn as [Hn _].
        apply andb_prop in Hn. destruct Hn as [_ Hn].
        destruct Hc as (h & m & r & data & rest & E & Hwh & _ & Hk & _).
        rewrite E, header_roundtrip, Hk in Hn by exact Hwh. discriminate. }
    assert (Hsub : mpre ++ MRequest tag q true :: mmid ++ md :: mpost = (mpre ++ MRequest tag q true :: mmid) ++ md :: mpost)
      by now rewrite <- app_assoc.
    assert (Hw2 : Forall (fun r => wf_rpc r = true) (requests (net_log (mpre ++ MRequest tag q true :: mmid)))).
    { rewrite Hsub, net_log_app, requests_app in Hw. apply Forall_app in Hw. tauto. }
    destruct (letter _ _ Hw2 Hmail) as (ma & k & mb & q' & resp0 & Es & Hq' & Hr & -> & Hcopy).
    assert (Hacc : l_out (nt_loop (net_after mpre)) = None).
    { destruct (events_run sp n0 mpre) as [-> _]. rewrite Ep. exact (proj1 Hfl). }
    assert (Hrun0 : In (OAccept tag q) (snd (net_step sp (net_after mpre) (MRequest tag q true)))).
    { destruct (step_event sp (net_after mpre) (MRequest tag q true)) as [Hl ->]. cbn [move_event] in *.
      destruct (Hfl2 [] mmid eq_refl) as (o & Ho & _).
      rewrite net_after_app, net_after_cons in Ho.
      change (SpecNet.net_after sp ?n []) with n in Ho. rewrite Hl in Ho. clear Hl.
      unfold step in *. destruct (l_status (nt_loop (net_after mpre))) eqn:Es'.
      - rewrite Hacc. destruct (send_outgoing_request _ _ _). cbn. now left.
      - cbn in Ho. congruence.
      - cbn in Ho. congruence. }
    assert (Hrun : In q (requests (snd (net_step sp (net_after mpre) (MRequest tag q true))))).
    { unfold requests. apply in_flat_map. exists (OAccept tag q). split; [exact Hrun0|now left]. }
    assert (Hwq' : wf_rpc q' = true).
    { rewrite Forall_forall in Hw2. apply Hw2. rewrite Es, net_log_app, requests_app, in_app_iff. now left. }
    destruct (Hpol _ _ _ (wf_received _ Hwq') Hr) as (x & Hwr & Hk & Hid & Hx & Hdata).
    destruct (completes_wire _ _ _ _ Hwr Hx Hdata Hc) as [-> Hid2].
    change (rpc_id (as_received q')) with (rpc_id q') in Hid. rewrite Hid in Hid2.
    destruct (prefix_compare _ _ _ _ _ _ Es) as [(b' & ->)|(a' & ->)].
    - assert (q' = q).
      { apply (nodup_same rpc_id (requests (net_log (mpre ++ MRequest tag q true :: mmid ++ md :: mpost)))); auto.
        - rewrite Hsub, Es, !net_log_app, !requests_app, !in_app_iff. left. 
          rewrite net_log_app, requests_app, in_app_iff in Hq'. tauto.
        - rewrite net_log_app, net_log_cons, !requests_app, !in_app_iff. tauto. }
      subst q'. exists mpre, q, b', k, (mb ++ md :: mpost).
      split. { rewrite Hsub, Es. now rewrite <- !app_assoc. }
      split; [exact Hacc|]. split; [|split; [exact Hcopy|split; [|split; [exact Hid|exact Hr]]]];
        [|rewrite net_log_app, net_log_cons, !in_app_iff; tauto].
      apply (Hfl2 b' (MServe k :: mb)). rewrite <- app_assoc, <- app_comm_cons in Es.
      apply app_inv_head in Es. now injection Es.
    - exfalso. rewrite Hsub, net_log_app, net_log_app, net_log_cons, !requests_app, !map_app in Hd.
      rewrite net_log_app, requests_app, map_app in Hd.
      apply (in_map rpc_id) in Hq', Hrun. rewrite Hid2 in Hq'.
      clear - Hd Hq' Hrun. rewrite <- !app_assoc in Hd.
      apply in_split in Hq'. destruct Hq' as (l1 & l2 & E). rewrite E in Hd.
      rewrite <- app_assoc in Hd. cbn [app] in Hd. apply NoDup_remove_2 in Hd. apply Hd.
      rewrite !in_app_iff. tauto.
  Qed.
  Lemma net_sound_copy ms tag resp : forallb noise_ok ms = true ->
    Forall (fun r => wf_rpc r = true) (requests (net_log ms)) ->
    NoDup (map rpc_id (requests (net_log ms))) ->
    In (OReply tag (Ok resp)) (net_log ms) ->
    exists pre q mid k post,
      ms = pre ++ (MRequest tag q true :: mid) ++ MServe k :: post /\
      l_out (nt_loop (net_after pre)) = None /\
      (exists o, l_out (nt_loop (net_after (pre ++ MRequest tag q true :: mid))) = Some o /\
                 o_tag o = tag /\ o_request o = q) /\
      nth_error (nt_sent (net_after (pre ++ MRequest tag q true :: mid))) k = Some (wire q) /\
      snd (sp (nt_sp (net_after (pre ++ MRequest tag q true :: mid))) (as_received q)) = Ok resp.
  Proof.
    intros Hn Hw Hd Hin. destruct (net_sound_all ms tag resp Hn Hw Hd Hin) as (pre & q & mid & k & post & H1 & H2 & H3 & H5 & _ & _ & H4).
    exists pre, q, mid, k, post. repeat (split; [assumption|]). exact H4.
  Qed.
  Lemma net_sound ms tag resp : forallb noise_ok ms = true ->
    Forall (fun r => wf_rpc r = true) (requests (net_log ms)) ->
    NoDup (map rpc_id (requests (net_log ms))) ->
    In (OReply tag (Ok resp)) (net_log ms) ->
    exists pre q mid k post,
      ms = pre ++ (MRequest tag q true :: mid) ++ MServe k :: post /\
      l_out (nt_loop (net_after pre)) = None /\
      (exists o, l_out (nt_loop (net_after (pre ++ MRequest tag q true :: mid))) = Some o /\
                 o_tag o = tag /\ o_request o = q) /\
      snd (sp (nt_sp (net_after (pre ++ MRequest tag q true :: mid))) (as_received q)) = Ok resp.
  Proof.
    intros Hn Hw Hd Hin. destruct (net_sound_copy ms tag resp Hn Hw Hd Hin) as (pre & q & mid & k & post & H1 & H2 & H3 & _ & H4).
    exists pre, q, mid, k, post. repeat (split; [assumption|]). exact H4.
  Qed.
End Main.
