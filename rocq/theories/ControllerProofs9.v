(** Statements in specification vocabulary and counterexamples (C28, C31, C33, C35, C38, C40). *)
From Verif Require Export ControllerSim.

(** ** C28 *)
Lemma reads_split_correct m rd : m < 2 ^ 64 -> 1 <= rd_len rd <= 255 ->
  exists gs, split_large_reads m rd = Ok gs /\
    concat (map to_indices gs) = to_indices m /\
    Forall (fun g => g <> 0 /\ g < 2 ^ 64 /\
                     (length (to_indices g) * N.to_nat (rd_len rd) <= 1024)%nat) gs /\
    Forall (fun g => length (to_indices g) = (1024 / N.to_nat (rd_len rd))%nat) (removelast gs).
Proof.
  intros Hm Hr. rewrite <- mask_ok_lt in Hm. destruct (split_spec m rd Hm Hr) as (gs & E & C & F & U).
  exists gs. split; [exact E|]. split; [exact C|]. split; [|exact U]. eapply Forall_impl; [|exact F].
  intros g (H1 & H2 & H3). split; [exact H1|]. split; [now apply mask_ok_lt|].
  unfold fits_in_one_message in H3. apply Nat.leb_le in H3. rewrite count_to_indices in H3 by exact H2. exact H3.
Qed.

(** ** C31 *)
Lemma verify_correct p m ids : m < 2 ^ 64 -> one_each m ids ->
  (verify_ids_for_page p m ids = Ok tt <-> forall i id, at_port m ids i id -> speaks id p) /\
  (forall e, verify_ids_for_page p m ids = Err e ->
     exists i id, at_port m ids i id /\ ~ speaks id p /\
       e = ETransceiver (TeInvalidInterfaceForModule i id (page_interface p))).
Proof.
  intros Hm Ho. apply one_each_aligned in Ho.
  assert (G : forall i id, at_port m ids i id <-> get m ids i = Some id) by (intros; now apply at_port_get).
  destruct (verify_spec p m ids Ho) as [[E Hs]|(i & id & E & Hg & Hn & _)]; rewrite E.
  - split; [|discriminate]. split; [|reflexivity]. intros _ i id H. apply (Hs i), G, H.
  - split.
    + split; [discriminate|]. intros H. destruct Hn. apply (H i). now apply G.
    + intros e [= <-]. exists i, id. split; [now apply G|]. split; [exact Hn|reflexivity].
Qed.

(** ** C35 *)
Lemma power_correct {St} (a : honest St) : honest_ok a ->
  forall (w : world St) m mem, let st := hs_verdict a (w_sp w) (HStatus m) None in
  m < 2 ^ 64 -> reads_as a (hs_next a (w_sp w) (HStatus m) None) mem ->
  (forall i id, member i m -> readable st i = true -> ident_told mem i = inl id -> supported_kind id = true) ->
  exists r ds, snd (power (honest_sp a) m w) = Ok r /\
    (forall i x, succeeds r i x <-> member i m /\ power_says st (control_says mem) i = inl x) /\
    (forall i, failed r i <-> member i m /\ exists e, power_says st (control_says mem) i = inr e) /\
    one_each (mr_modules r) (mr_data r) /\ wf_failed (mr_failures r) /\
    deeds (power (honest_sp a) m) w = DRequest (HStatus m) None :: ds /\ Forall only_looks ds /\
    (fails_in_order power_reads power_parse mem (readable_mask m st) ->
     reports m (power_says st (control_says mem)) r).
Proof.
  intros Hok w m mem st Hm Hr Hs. assert (Hm' := Hm). rewrite <- mask_ok_lt in Hm'.
  destruct (power_rrep a Hok w m mem Hm' Hr) as (r & w' & C & ds & E & _ & L & O & R & Cs & Co & _).
  { intros i id Hi. apply Hs. now apply member_testbit. }
  fold st in R, Cs, Co. pose proof R as [[Aa Fa] RI]. exists r, ds.
  assert (Same : forall i, N.testbit m i = true ->
    match power_says st C i, power_says st (control_says mem) i with
    | inl x, inl y => x = y | inr _, inr _ => True | _, _ => False end).
  { intros i Hi. unfold power_says. pose proof (Cs i) as Ci. unfold readable in Ci.
    destruct (st i) as [d|e]; [|exact I].
    destruct (supplied (hd 0 d)), (held_in_reset (hd 0 d)); cbn [negb orb andb] in *; try reflexivity.
    specialize (fun c => Ci c Hi eq_refl). destruct (C i) as [c|], (control_says mem i) as [c'|].
    - pose proof (proj1 (Ci c) eq_refl) as X. injection X as ->. destruct c; reflexivity.
    - specialize (proj1 (Ci c) eq_refl). discriminate.
    - specialize (proj2 (Ci c') eq_refl). discriminate.
    - exact I. }
  apply rrep_reports in R. assert (R' := R). apply rrep_reports in R'.
  rewrite E. split; [reflexivity|]. destruct R as (Wf & Sc & Fl). split; [|split; [|split; [|split; [|split; [|split]]]]].
  - intros i x. rewrite Sc, member_testbit. split; intros [Hi H]; (split; [exact Hi|]); specialize (Same i Hi);
      destruct (power_says st C i), (power_says st (control_says mem) i); try contradiction; try discriminate; congruence.
  - intros i. unfold failed. rewrite member_testbit, (rrep_failed _ _ _ i R'), member_testbit, andb_true_iff.
    split; intros [Hi H]; (split; [exact Hi|]); specialize (Same i Hi);
      destruct (power_says st C i), (power_says st (control_says mem) i) as [?|e']; try contradiction; eauto;
      try discriminate; destruct H; discriminate.
  - now apply one_each_aligned.
  - now apply one_each_aligned.
  - eapply deeds_grew; [exact E|exact L].
  - eapply Forall_impl; [|exact O]. intros [q d|t]; cbn; [|tauto]. destruct q; cbn; tauto.
  - intros Hf. split; [exact Wf|]. specialize (Co Hf).
    assert (Eq : forall i, member i m -> power_says st C i = power_says st (control_says mem) i).
    { intros i Hi. apply member_testbit in Hi. unfold power_says. specialize (Co i Hi). unfold readable in Co.
      destruct (st i) as [d|]; [|reflexivity].
      destruct (supplied (hd 0 d)), (held_in_reset (hd 0 d)); cbn [negb orb andb] in *; try reflexivity. now rewrite Co. }
    split; intros i x.
    + rewrite Sc. split; intros [Hi H]; (split; [exact Hi|]); now rewrite Eq in * by exact Hi.
    + rewrite Fl. split; intros [Hi H]; (split; [exact Hi|]); now rewrite Eq in * by exact Hi.
Qed.

(** ** C38, in terms of requests *)
Lemma set_power_on_looks {St} (a : honest St) : honest_ok a -> forall v, steady a v ->
  forall mem, (forall m rd i, v (HRead m rd) None i = mem i rd) ->
  forall (w : world St) m st k, st <> PowerOff -> m < 2 ^ 64 -> supported_kind k = true ->
  all_kind k m mem -> all_on m v ->
  (forall i c, member i m -> control_says mem i = inl c -> c = UseLpModePin) ->
  let m1 := passed m (power_says (v (HStatus m) None) (control_says mem)) in
  let m2 := good_mask m1 (v (HStatus m1) None) in
  let m3 := good_mask m2 (v (lpmode_request st m2) None) in
  let m4 := good_mask m3 (fun i => mem i ident_read) in
  let m5 := good_mask m4 (v (HWrite m4 (soft_place k)) (Some [soft_word k false st])) in
  exists r ds, snd (set_power (honest_sp a) m st w) = Ok r /\ accounts m m5 r /\ Forall only_looks ds /\
    deeds (set_power (honest_sp a) m st) w =
      DRequest (HStatus m) None :: ds ++
      DRequest (HStatus m1) None :: DRequest (lpmode_request st m2) None ::
      ident_request m3 ++ software_deeds k st m4.
Proof.
  intros Hok v Hv mem Hmem w m st k H1 H2 H3 H4 H5 H6 m1 m2 m3 m4 m5.
  destruct (set_power_on_correct a Hok v Hv mem Hmem w m st k H1 H2 H3 H4 H5 H6) as (r & ds & E & A & O & D).
  exists r, ds. split; [exact E|]. split; [exact A|]. split; [|exact D].
  eapply Forall_impl; [|exact O]. intros [q d|t]; cbn; [|tauto]. destruct q; cbn; tauto.
Qed.

(** ** Counterexamples *)
(** Supplied modules of one kind, with these SFF control bytes. *)
Definition board_on (id sff cmis : N -> N) : board := mkBoard (fun _ => 35) (mem_of id sff cmis) none_fail.
(** Port 0 on, the other ports off. *)
Definition board_mixed : board :=
  mkBoard (fun i => if i =? 0 then 35 else 1) (mem_of (fun _ => 17) (fun _ => 0) (fun _ => 0)) none_fail.
(** All off; port 0 refuses to be powered. *)
Definition board_refusing : board :=
  mkBoard (fun _ => 1) (mem_of (fun _ => 17) (fun _ => 0) (fun _ => 0))
    (fun q i => match q with HEnablePower _ => if i =? 0 then Some 6 else None | _ => None end).
(** Port 1 does not answer the identifier read, port 0 not the control read. *)
Definition board_silent : board :=
  mkBoard (fun _ => 35) (mem_of (fun _ => 17) (fun _ => 0) (fun _ => 0))
    (fun q i => match q with
                | HRead _ rd => if (i =? 1) && (rd_offset rd =? 0) then Some 9
                                else if (i =? 0) && (rd_offset rd =? 93) then Some 8 else None
                | _ => None end).

Lemma board_on_each id sff cmis : fail_each (board_on id sff cmis). Proof. intros m m' rd i. reflexivity. Qed.
Lemma board_silent_each : fail_each board_silent. Proof. intros m m' rd i. reflexivity. Qed.

(** Every reported module counted: the ports of [m] that [r] mentions neither way. *)
Lemma lost_override : exists (b : board) r, snd (set_power (honest_sp (board_sp b)) 1 PowerLow w0) = Ok r /\
  member 0 1 /\ ~ member 0 (mr_modules r) /\ ~ failed r 0.
Proof.
  exists (board_on (fun _ => 17) (fun _ => 3) (fun _ => 0)). eexists.
  split; [vm_compute; reflexivity|]. unfold failed. rewrite !member_testbit. repeat split; vm_compute; congruence.
Qed.
Lemma lost_mixed : exists (b : board) r, snd (set_power (honest_sp (board_sp b)) 3 PowerLow w0) = Ok r /\
  member 0 3 /\ ~ member 0 (mr_modules r) /\ ~ failed r 0 /\
  Forall (fun d => match d with DRequest (HAssertLpMode m) _ => ~ member 0 m | _ => True end)
         (deeds (set_power (honest_sp (board_sp b)) 3 PowerLow) w0).
Proof.
  exists board_mixed. eexists. split; [vm_compute; reflexivity|]. unfold failed. rewrite !member_testbit.
  repeat split; try (vm_compute; congruence).
  replace (deeds (set_power (honest_sp (board_sp board_mixed)) 3 PowerLow) w0) with
    (ltac:(let x := eval vm_compute in (deeds (set_power (honest_sp (board_sp board_mixed)) 3 PowerLow) w0) in exact x))
    by (vm_compute; reflexivity).
  repeat constructor. rewrite member_testbit. vm_compute. congruence.
Qed.
Lemma lost_kinds : exists (b : board) r, snd (set_power (honest_sp (board_sp b)) 3 PowerLow w0) = Ok r /\
  (forall i, ~ member i (mr_modules r) /\ ~ failed r i) /\
  Forall (fun d => match d with DRequest (HWrite m _) _ => ~ member 1 m | _ => True end)
         (deeds (set_power (honest_sp (board_sp b)) 3 PowerLow) w0).
Proof.
  exists (board_on (fun i => if i =? 0 then 17 else 24) (fun _ => 0) (fun _ => 64)). eexists.
  split; [vm_compute; reflexivity|]. split.
  - intros i. unfold failed. rewrite !member_testbit. cbn [mr_modules mr_failures fm_modules]. rewrite N.bits_0. split; discriminate.
  - replace (deeds _ w0) with
      (ltac:(let x := eval vm_compute in (deeds (set_power (honest_sp (board_sp (board_on (fun i => if i =? 0 then 17 else 24) (fun _ => 0) (fun _ => 64)))) 3 PowerLow) w0) in exact x))
      by (vm_compute; reflexivity).
    repeat constructor; rewrite member_testbit; vm_compute; congruence.
Qed.
Lemma both_ways : exists (b : board) r, snd (set_power (honest_sp (board_sp b)) 3 PowerLow w0) = Ok r /\
  member 0 (mr_modules r) /\ failed r 0.
Proof.
  exists board_refusing. eexists. split; [vm_compute; reflexivity|]. unfold failed. rewrite !member_testbit.
  split; vm_compute; reflexivity.
Qed.

(** One unsupported module fails the call for all modules. *)
Lemma one_spoils_all : exists (b : board) e, fail_each b /\
  snd (power (honest_sp (board_sp b)) 3 w0) = Err e /\
  snd (parse_modules_by_identifier (honest_sp (board_sp b)) power_reads power_parse 3 w0) = Err e /\
  says power_reads power_parse (board_mem b) 0 = inl UseLpModePin.
Proof.
  exists (board_on (fun i => if i =? 0 then 17 else 3) (fun _ => 0) (fun _ => 0)). eexists.
  split; [apply board_on_each|].
  split; [vm_compute; reflexivity|]. split; vm_compute; reflexivity.
Qed.
(** Errors are attributed to the wrong ports. *)
Lemma swapped_errors : exists (b : board) r r', fail_each b /\
  snd (parse_modules_by_identifier (honest_sp (board_sp b)) power_reads power_parse 3 w0) = Ok r /\
  snd (power (honest_sp (board_sp b)) 3 w0) = Ok r' /\
  (forall x, fails r 0 x \/ fails r' 0 x -> x <> hw_fault 0 8) /\
  says power_reads power_parse (board_mem b) 0 = inr (hw_fault 0 8) /\
  power_says (hs_verdict (board_sp b) tt (HStatus 3) None) (control_says (board_mem b)) 0 = inr (hw_fault 0 8).
Proof.
  exists board_silent. eexists. eexists. split; [exact board_silent_each|].
  split; [vm_compute; reflexivity|]. split; [vm_compute; reflexivity|].
  split; [|split; vm_compute; reflexivity].
  intros x [H|H]; apply fails_get in H; cbn in H; vm_compute in H; injection H as <-; vm_compute; discriminate.
Qed.

(** A wrong length is noticed after the identifiers were read. *)
Lemma late_length : exists (b : board) e,
  snd (ctl_write (honest_sp (board_sp b)) 1 (mkWrite (PageSff SffLower) 93 1) [1; 2] w0) = Err e /\
  deeds (ctl_write (honest_sp (board_sp b)) 1 (mkWrite (PageSff SffLower) 93 1) [1; 2]) w0 <> [].
Proof.
  exists (board_on (fun _ => 17) (fun _ => 3) (fun _ => 0)). eexists. split; [vm_compute; reflexivity|].
  vm_compute. discriminate.
Qed.

(** ** Crashes (C33) *)
(** An SP that sends the same response to everything. *)
Definition parrot (resp : Rpc) : unit -> Rpc -> unit * reply := fun s _ => (s, Ok resp).
Definition sent (q : HostRequest) : Rpc :=
  mkRpc (header_new 0 KHostRequest) (message_new (BHostRequest q)) None.
Definition says_back (r : SpResponse) (data : list N) : Rpc :=
  mkRpc (header_new 0 KSpResponse) (message_new (BSpResponse r)) (Some data).
Definition on_wire (r : SpResponse) (data : list N) : list N :=
  enc_header (header_new 0 KSpResponse) ++ enc_message (message_new (BSpResponse r)) ++ data.

Lemma parrot_completes q r data : wf_message (message_new (BSpResponse r)) = true ->
  length data = announced r -> (forall m, r <> SMacAddrs m) ->
  (length (on_wire r data) <= MAX_PACKET_SIZE)%nat ->
  completes (sent q) (on_wire r data) (says_back r data).
Proof.
  intros Hw Hl Hm Hn. exists (header_new 0 KSpResponse), (message_new (BSpResponse r)), r, data, [].
  rewrite firstn_all2 by exact Hn. rewrite app_nil_r. repeat split; try reflexivity; auto.
  unfold says_back. destruct r; try reflexivity. now destruct (Hm r).
Qed.

Lemma leds_crash : exists d resp, completes (sent (HLedState 1)) d resp /\
  snd (leds (parrot resp) 1 w0) = Panic.
Proof.
  exists (on_wire (SLedState 1 0) [3]), (says_back (SLedState 1 0) [3]). split; [|vm_compute; reflexivity].
  apply parrot_completes; try (vm_compute; reflexivity); [discriminate|]. vm_compute. repeat constructor.
Qed.
Lemma ext_crash : exists d resp, completes (sent (HExtendedStatus 1)) d resp /\
  snd (extended_status (parrot resp) 1 w0) = Panic.
Proof.
  exists (on_wire (SExtendedStatus 1 0) [0; 2; 0; 0]), (says_back (SExtendedStatus 1 0) [0; 2; 0; 0]).
  split; [|vm_compute; reflexivity].
  apply parrot_completes; try (vm_compute; reflexivity); [discriminate|]. vm_compute. repeat constructor.
Qed.
Lemma read_crash : exists d resp, completes (sent (HRead 1 (mkRead (PageSff SffLower) 0 2))) d resp /\
  snd (read_impl (parrot resp) 1 (mkRead (PageSff SffLower) 0 2) w0) = Panic.
Proof.
  exists (on_wire (SRead 1 0 ident_read) [7]), (says_back (SRead 1 0 ident_read) [7]).
  split; [|vm_compute; reflexivity].
  apply parrot_completes; try (vm_compute; reflexivity); [discriminate|]. vm_compute. repeat constructor.
Qed.

(** ** C33 and C40, collected *)
Lemma wrong_kinds : forall St (sp : St -> Rpc -> St * reply) w m b,
  (wrong_kind sp w (HLedState m) None b -> snd (leds sp m w) = Err (EUnexpectedMessage b)) /\
  (wrong_kind sp w (HStatus m) None b -> snd (ctl_status sp m w) = Err (EUnexpectedMessage b)) /\
  (wrong_kind sp w (HExtendedStatus m) None b ->
     snd (extended_status sp m w) = Err (EUnexpectedMessage b)) /\
  (wrong_kind sp w HMacAddrs None b -> snd (mac_addrs sp w) = Err (EUnexpectedMessage b)) /\
  (forall q, (forall x y, answers q (SAck x y) = true) -> wrong_kind sp w q None b ->
     snd (no_payload_request sp q w) = Err (EUnexpectedMessage b)) /\
  (forall wr data, wr_len wr = Nlen data -> wrong_kind sp w (HWrite m wr) (Some data) b ->
     snd (write_impl sp m wr data w) = Err (EUnexpectedMessage b)) /\
  (forall rd, fits_in_one_message m rd = true -> wrong_kind sp w (HRead m rd) None b ->
     snd (read_impl_one_message sp m rd w) = Err (EUnexpectedMessage b)) /\
  (m < 2 ^ 64 -> m <> 0 -> wrong_kind sp w (HRead m ident_read) None b ->
     snd (identifier sp m w) = Err (EUnexpectedMessage b)).
Proof.
  intros St sp w m b.
  split; [apply wrong_leds|]. split; [apply wrong_status|]. split; [apply wrong_ext|]. split; [apply wrong_mac|].
  split; [intros q; apply wrong_ack|]. split; [intros wr data; apply wrong_write|].
  split; [intros rd; apply wrong_read|]. apply wrong_identifier.
Qed.
Lemma sane_calm : forall St (sp : St -> Rpc -> St * reply), sane sp ->
  forall m, m < 2 ^ 64 ->
  calm (leds sp m) /\ calm (ctl_status sp m) /\ calm (extended_status sp m) /\ calm (mac_addrs sp) /\
  calm (identifier sp m) /\ calm (reset sp m) /\ calm (power sp m) /\
  (forall rd, 1 <= rd_len rd <= 255 -> calm (ctl_read sp m rd)) /\
  (forall wr data, calm (ctl_write sp m wr data)) /\
  (forall st, calm (set_power sp m st)).
Proof.
  intros St sp Hs m Hm. assert (Hm' := Hm). rewrite <- mask_ok_lt in Hm'.
  split; [eapply safe_calm, calm_leds; assumption|]. split; [eapply safe_calm, covers_status; assumption|].
  split; [eapply safe_calm, calm_ext; assumption|]. split; [eapply safe_calm, calm_mac, Hs|].
  split; [eapply safe_calm, covers_identifier; [exact Hs|exact Hm']|]. split; [eapply safe_calm, calm_reset; assumption|].
  split; [eapply safe_calm, calm_power; assumption|].
  split; [intros rd Hr; eapply safe_calm, calm_read; assumption|].
  split; [intros wr data; eapply safe_calm, calm_write; assumption|].
  intros st. eapply safe_calm, calm_set_power; assumption.
Qed.
Lemma query_correct_spec : forall St (a : honest St), honest_ok a ->
  forall P reads (parse : Identifier -> list (list N) -> outcome DecodeError P) mem (w : world St) m,
  m < 2 ^ 64 -> reads_as a (w_sp w) mem -> queryable reads parse mem m ->
  exists r ds, snd (parse_modules_by_identifier (honest_sp a) reads parse m w) = Ok r /\
    deeds (parse_modules_by_identifier (honest_sp a) reads parse m) w = ds /\ Forall only_looks ds /\
    (forall i x, succeeds r i x <-> member i m /\ says reads parse mem i = inl x) /\
    one_each (mr_modules r) (mr_data r) /\
    (forall i, failed r i <-> member i m /\ exists e, says reads parse mem i = inr e) /\
    wf_failed (mr_failures r) /\
    (forall e, In e (fm_errors (mr_failures r)) <-> exists i, member i m /\ says reads parse mem i = inr e) /\
    (fails_in_order reads parse mem m -> reports m (says reads parse mem) r).
Proof.
  intros St a Hok P reads parse mem w m Hm Hr Hq.
  destruct (query_reports a Hok reads parse mem w m Hm Hr Hq)
    as (r & w' & E & _ & (ds & L & O) & Sc & One & Fl & Lt & Len & Es & Rep & _).
  exists r, ds. rewrite E. split; [reflexivity|]. split; [eapply deeds_grew; [exact E|exact L]|].
  split; [eapply Forall_impl; [|exact O]; intros [q d|t]; cbn; [|tauto]; destruct q; cbn; tauto|].
  split; [exact Sc|]. split; [exact One|]. split; [exact Fl|]. split; [|split; [exact Es|exact Rep]].
  apply one_each_aligned. split; [now apply mask_ok_lt|]. now rewrite Len, count_to_indices by (now apply mask_ok_lt).
Qed.

(** Honest SPs with defined values are sane. *)
Lemma honest_sane {St} (a : honest St) : honest_ok a ->
  (forall s q d i x, hs_verdict a s q d i = inl x -> in_range q x) -> sane (honest_sp a).
Proof.
  intros Hok Hr s h q d Hm. apply mask_ok_lt in Hm. unfold honest_sp. cbn [rpc_message rpc_data rpc_header message_new msg_body snd].
  set (f := hs_verdict a s q d). unfold honest_reply, sane_reply. cbn [msg_body message_new rpc_message].
  intros _ Hn.
  pose proof (honest_documented a Hok (mkWorld s (h_id h) []) q d) as D. unfold vd in D. cbn [w_sp] in D. fold f in D.
  eexists _, _. split; [exact D|]. split; [destruct q; try reflexivity; congruence|]. split.
  - set (r := response_to q _ _). intros i.
    assert (Rm : resp_modules r = port_mask (good_ports (request_modules q) f) /\
                 resp_failed r = port_mask (bad_ports (request_modules q) f)) by (destruct q; split; reflexivity).
    destruct Rm as [-> ->].
    assert (G : N.testbit (port_mask (good_ports (request_modules q) f)) i = N.testbit (request_modules q) i && is_good (f i)).
    { apply good_mask_bit. exact Hm. }
    assert (B : N.testbit (port_mask (bad_ports (request_modules q) f)) i = N.testbit (request_modules q) i && negb (is_good (f i))).
    { rewrite port_mask_spec. apply eq_true_iff_eq. unfold bad_ports.
      rewrite existsb_eqb_in, filter_In, in_to_indices_ok, andb_true_iff by exact Hm. reflexivity. }
    rewrite G, B. destruct (N.testbit (request_modules q) i), (is_good (f i)); split; reflexivity.
  - apply Forall_forall. intros x Hx. apply in_map_iff in Hx. destruct Hx as (i & <- & Hi).
    unfold good_ports in Hi. apply filter_In in Hi. destruct Hi as [_ Hi]. unfold f in *.
    destruct (hs_verdict a s q d i) as [y|] eqn:E; [|discriminate]. exact (Hr _ _ _ _ _ E).
Qed.
Lemma board_sane b : sane (honest_sp (board_sp b)).
Proof.
  apply honest_sane; [apply board_ok|]. intros s q d i x E.
  pose proof (board_ok b s q d i) as K. rewrite E in K. split; [apply K|].
  cbn [board_sp hs_verdict] in E. unfold board_verdict in E. destruct (b_fail b q i); [discriminate|].
  destruct q; try exact I; injection E as <-; reflexivity.
Qed.

(** ** Calls with one request *)
Lemma simple_npr {St} (sp : St -> Rpc -> St * reply) m s c q : In (c, q) (simple_calls sp m s) -> c = no_payload_request sp q.
Proof. unfold simple_calls. cbn [In]. intros H. repeat (destruct H as [[= <- <-]|H]; [reflexivity|]). destruct H. Qed.
Lemma simple_attaches St (sp : St -> Rpc -> St * reply) w m s c q good bad errs : In (c, q) (simple_calls sp m s) ->
  documented_reply (answer sp w q None) (SAck good bad) (repeat [] (length (to_indices good))) errs ->
  exists r, snd (c w) = Ok r /\
    attaches (SAck good bad) (fun _ => tt) (repeat [] (length (to_indices good))) errs r.
Proof. intros H. rewrite (simple_npr sp m s c q H). apply ack_attaches. Qed.
Lemma macs_given St (sp : St -> Rpc -> St * reply) w h r d :
  answer sp w HMacAddrs None = Ok (mkRpc h (message_new (BSpResponse (SMacAddrs r))) d) ->
  snd (mac_addrs sp w) = match r with MacOk macs => Ok macs | MacError e => Err (EMac e) end.
Proof.
  intros H. unfold mac_addrs, cbind. rewrite rpc_eq. unfold answer in H. unfold req. rewrite H. cbn [rpc_message msg_body message_new].
  now destruct r.
Qed.

(** ** C39: the request that carries the word *)
Lemma soft_write_sends St (sp : St -> Rpc -> St * reply) id st ov m s w : supported_kind id = true -> st <> PowerOff ->
  exists wr b, power_word id ov st = Ok (wr, b) /\
    deeds (soft_write sp id st ov m s) w = [DRequest (HWrite m wr) (Some [b])].
Proof.
  intros Hs Ho. destruct (power_word_correct id ov st Hs Ho) as (wr & b & E & _ & L & _).
  exists wr, b. split; [exact E|]. destruct s as [[su mo] f].
  destruct (soft_write sp id st ov m (su, mo, f) w) as [w1 x] eqn:X. apply (deeds_grew _ _ _ _ _ X).
  unfold soft_write in X. erewrite cbind_ok in X by (unfold cret; rewrite E; reflexivity). cbn [fst snd] in X.
  unfold write_impl in X. rewrite L in X. change (negb (1 =? Nlen [b])) with false in X. cbv iota in X.
  unfold cbind in X. rewrite rpc_eq in X.
  destruct (snd (sp (w_sp w) (req w (HWrite m wr) (Some [b])))) as [resp|e|].
  - assert (w1 = stepped w (HWrite m wr) (Some [b]) (fst (sp (w_sp w) (req w (HWrite m wr) (Some [b]))))) as ->;
      [|apply grew_stepped].
    destruct (msg_body (rpc_message resp)) as [?|?|r|[]|[]]; try (injection X as <- _; reflexivity).
    destruct r; try (injection X as <- _; reflexivity). unfold cret in X.
    destruct (_ <-? _ ;; _) as [y|y|]; try (injection X as <- _; reflexivity).
  - injection X as <- _. apply grew_stepped.
  - injection X as <- _. apply grew_stepped.
Qed.
