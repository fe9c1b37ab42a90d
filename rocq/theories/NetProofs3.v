(** An honest SP behind the network (C61). *)
From Verif Require Export NetProofs2.
From Verif Require Import Tac Spec ModuleIdProofs CodecProofs MessageProofs IoProofs3 ControllerProofs ControllerProofs9.

Lemma concat_unit {A} (f : A -> list N) l n : (forall x, In x l -> length (f x) = n) ->
  length (concat (map f l)) = (n * length l)%nat.
Proof.
  induction l as [|x l IH]; cbn; intros H; [lia|]. rewrite app_length, IH, (H x) by auto. lia.
Qed.
Lemma bytes_concat l : Forall (fun x => bytes x = true) l -> bytes (concat l) = true.
Proof. induction 1 as [|x l Hx Hl IH]; [reflexivity|]. cbn. now rewrite bytes_app, Hx, IH. Qed.

Lemma honest_polite {St} (a : honest St) : honest_ok a -> polite (honest_sp a).
Proof.
  intros Ha s r resp Hw. unfold honest_sp. destruct (msg_body (rpc_message r)) as [|q| | |] eqn:Eb; try discriminate.
  cbn [snd]. unfold honest_reply. set (f := hs_verdict a s q (rpc_data r)).
  set (m := request_modules q). intros [= <-].
  apply andb_prop in Hw. destruct Hw as [Hh Hm].
  assert (Hq : wf_host_request q = true).
  { unfold wf_message in Hm. rewrite Eb in Hm. apply andb_prop in Hm. tauto. }
  assert (Hg : port_mask (good_ports m f) <? 2 ^ 64 = true).
  { apply N.ltb_lt, mask_ok_lt, port_mask_ok, filter_ports_lt. }
  assert (Hbd : port_mask (bad_ports m f) <? 2 ^ 64 = true).
  { apply N.ltb_lt, mask_ok_lt, port_mask_ok, filter_ports_lt. }
  exists (response_to q (port_mask (good_ports m f)) (port_mask (bad_ports m f))).
  split.
  { unfold wf_rpc. cbn [rpc_header rpc_message]. unfold wf_header in *. cbn [h_version h_id header_new].
    apply andb_prop in Hh. destruct Hh as [_ Hi]. rewrite Hi. unfold wf_message. cbn [msg_version msg_body message_new wf_body].
    rewrite !andb_true_iff. repeat split.
    destruct q; cbn [response_to wf_sp_response]; unfold u64; rewrite Hg, Hbd; try reflexivity;
      cbn [wf_host_request] in Hq; apply andb_prop in Hq; tauto. }
  split; [reflexivity|]. split; [reflexivity|]. split; [reflexivity|].
  cbn [rpc_data].
  assert (G : (exists data, Some (concat (map (fun i => good_data (f i)) (good_ports m f)) ++
       map (fun i => bad_code (f i)) (bad_ports m f)) = Some data /\
       length data = announced (response_to q (port_mask (good_ports m f)) (port_mask (bad_ports m f))) /\
       bytes data = true)).
  { eexists. split; [reflexivity|]. split.
    - unfold announced.
      replace (resp_modules (response_to q (port_mask (good_ports m f)) (port_mask (bad_ports m f))))
        with (port_mask (good_ports m f)) by (destruct q; reflexivity).
      replace (resp_failed (response_to q (port_mask (good_ports m f)) (port_mask (bad_ports m f))))
        with (port_mask (bad_ports m f)) by (destruct q; reflexivity).
      rewrite !port_mask_indices by (apply filter_ports_sorted || apply filter_ports_lt).
      rewrite app_length, map_length.
      rewrite (concat_unit _ _ (unit_size (response_to q (port_mask (good_ports m f)) (port_mask (bad_ports m f))))); [reflexivity|].
      intros i Hi. apply filter_In in Hi. destruct Hi as [_ Hi]. specialize (Ha s q (rpc_data r) i). fold f in Ha.
      destruct (f i) as [d|e]; [|discriminate]. cbn. destruct Ha as [-> _]. destruct q; reflexivity.
    - rewrite bytes_app. apply andb_true_iff. split.
      + apply bytes_concat. apply Forall_forall. intros x Hx. apply in_map_iff in Hx. destruct Hx as (i & <- & Hi).
        specialize (Ha s q (rpc_data r) i). fold f in Ha. destruct (f i); [tauto|reflexivity].
      + unfold bytes. rewrite forallb_forall. intros x Hx. apply in_map_iff in Hx. destruct Hx as (i & <- & Hi).
        specialize (Ha s q (rpc_data r) i). fold f in Ha. destruct (f i); [reflexivity|]. cbn. now apply N.ltb_lt. }
  destruct q; exact G.
Qed.

Lemma honest_blind {St} (a : honest St) : data_blind a -> blind (honest_sp a).
Proof.
  intros H s r. unfold honest_sp, as_received. cbn [rpc_message rpc_header rpc_data].
  destruct (msg_body (rpc_message r)); try reflexivity.
  destruct (rpc_data r) as [[|]|]; try reflexivity. destruct (H s r0) as [-> ->]. reflexivity.
Qed.
Lemma honest_reply_ext h q f g : (forall i, f i = g i) -> honest_reply h q f = honest_reply h q g.
Proof.
  intros H. unfold honest_reply, good_ports, bad_ports.
  rewrite (filter_ext (fun i => is_good (f i)) (fun i => is_good (g i))) by (intros; now rewrite H).
  rewrite (filter_ext (fun i => negb (is_good (f i))) (fun i => negb (is_good (g i)))) by (intros; now rewrite H).
  rewrite (map_ext (fun i => good_data (f i)) (fun i => good_data (g i))) by (intros; now rewrite H).
  now rewrite (map_ext (fun i => bad_code (f i)) (fun i => bad_code (g i))) by (intros; now rewrite H).
Qed.
Lemma steady_constant {St} (a : honest St) v : steady a v -> constant (honest_sp a).
Proof.
  intros H s s' r. unfold honest_sp. destruct (msg_body (rpc_message r)); try reflexivity. cbn [snd].
  apply honest_reply_ext. intros i. now rewrite !H.
Qed.

Lemma wired_read {St} (a : honest St) : honest_ok a -> data_blind a -> forall v, steady a v ->
  forall mem, (forall m rd i, v (HRead m rd) None i = mem i rd) ->
  forall retries s0 (w : world (wired St)) m rd r, in_use (honest_sp a) retries s0 (w_sp w) (w_counter w) ->
  m < 2 ^ 64 -> 1 <= rd_len rd <= 255 ->
  snd (ctl_read (wired_sp (honest_sp a)) m rd w) = Ok r ->
  all_speak m (ident_told mem) (rd_page rd) /\
  reports m (and_then (ident_told mem) (told (fun x => x) (fun i => mem i rd))) r.
Proof.
  intros Ha Hbl v Hv mem Hmem retries s0 w m rd r Hi Hm Hrd Hr.
  pose proof (wired_lossy (honest_sp a) (honest_polite a Ha) (steady_constant a v Hv) (honest_blind a Hbl) retries s0) as Hl.
  pose (w1 := mkWorld s0 (w_counter w) []).
  assert (Hf := sim_follows _ _ _ (sim_read _ _ _ Hl m rd) w w1 Hi eq_refl).
  assert (Hra : reads_as a (w_sp w1) mem).
  { intros before m' rd' i. now rewrite Hv, Hmem. }
  destruct Hf as [(Hn & _)|(E & _)]; [now destruct (Hn r)|]. rewrite Hr in E.
  destruct (@read_correct St a Ha w1 m rd mem Hm Hrd Hra) as [(Hs & r' & gs & E' & Hrep & _)|(i & id & _ & E' & _)].
  - rewrite E' in E. injection E as <-. auto.
  - rewrite E' in E. discriminate.
Qed.

(** The answer, once it reaches the loop, ends the request. *)
Lemma wire_completes q resp x : wf_rpc resp = true -> h_kind (rpc_header resp) = KSpResponse ->
  rpc_id resp = rpc_id q -> msg_body (rpc_message resp) = BSpResponse x ->
  match x with
  | SMacAddrs _ => rpc_data resp = None
  | _ => exists data, rpc_data resp = Some data /\ length data = announced x /\ bytes data = true
  end -> (length (wire resp) <= MAX_PACKET_SIZE)%nat -> completes q (wire resp) resp.
Proof.
  intros Hw Hk Hid Hx Hd Hl. apply andb_prop in Hw. destruct Hw as [Hh Hm].
  exists (rpc_header resp), (rpc_message resp), x, (match rpc_data resp with Some d => d | None => [] end), [].
  rewrite firstn_all2 by exact Hl. unfold wire. rewrite app_nil_r.
  repeat (split; [assumption || reflexivity|]).
  destruct resp as [h m d]. cbn [rpc_header rpc_message rpc_data] in *.
  destruct x; try (destruct Hd as (data & -> & Hl' & _); split; [exact Hl'|reflexivity]).
  subst d. split; reflexivity.
Qed.
Lemma net_progress {St} (sp : St -> Rpc -> St * reply) : polite sp ->
  forall (n : net St) o resp k j, l_status (nt_loop n) = Running -> l_out (nt_loop n) = Some o -> o_gone o = false ->
  wf_rpc (o_request o) = true -> nth_error (nt_sent n) k = Some (wire (o_request o)) ->
  snd (sp (nt_sp n) (as_received (o_request o))) = Ok resp -> (length (wire resp) <= MAX_PACKET_SIZE)%nat ->
  j = length (nt_mail n) ->
  net_log sp n [MServe k; MDeliver j] = [OReply (o_tag o) (Ok resp)].
Proof.
  intros Hp n o resp k j Hr Ho Hg Hw Hk Hs Hl ->. rewrite net_log_cons.
  unfold net_step. rewrite Hk. unfold serve.
  pose proof Hw as Hw2. apply andb_prop in Hw2. destruct Hw2 as [Hh Hm].
  destruct (wire_decodes _ Hh Hm) as (rest & -> & ->).
  replace (as_received (mkRpc (rpc_header (o_request o)) (rpc_message (o_request o)) (Some (match rpc_data (o_request o) with Some d => d | None => [] end))))
    with (as_received (o_request o)) by (unfold as_received; cbn; destruct (rpc_data (o_request o)) as [[|]|]; reflexivity).
  destruct (Hp _ _ _ (wf_received _ Hw) Hs) as (x & Hwr & Hkd & Hid & Hx & Hd).
  destruct (sp (nt_sp n) (as_received (o_request o))) as [s' y]. cbn [snd] in Hs. subst y. cbn [fst snd app].
  rewrite net_log_cons. unfold net_step. cbn [move_event nt_mail nt_loop].
  rewrite nth_error_app2, Nat.sub_diag by lia. cbn [nth_error].
  rewrite (success_complete (nt_loop n) o 0 (wire resp) true resp Hr Ho Hg).
  - reflexivity.
  - now apply (wire_completes _ _ x).
Qed.
