(** Proofs about the controller, part 7: crashes (C33), refused transitions (C37), power words (C39). *)
From Verif Require Export ControllerProofs6.

(** ** Logs *)
Section Emits.
  Context {St : Type} (sp : St -> Rpc -> St * reply).
  Implicit Type w : world St.

  Definition emits (P : done -> Prop) {A} (c : ctl (St := St) A) : Prop :=
    forall w, exists ds, grew w (fst (c w)) ds /\ Forall P ds.

  Lemma emits_ret P {A} (x : outcome Error A) : emits P (cret x).
  Proof. intros w. exists []. split; [apply grew_refl|constructor]. Qed.
  Lemma emits_bind P {A B} (c : ctl A) (f : A -> ctl B) :
    emits P c -> (forall x, emits P (f x)) -> emits P (cbind c f).
  Proof.
    intros Hc Hf w. destruct (Hc w) as (d1 & G1 & F1). unfold cbind. destruct (c w) as [w1 [x|e|]] eqn:E; cbn [fst] in *.
    - destruct (Hf x w1) as (d2 & G2 & F2). exists (d1 ++ d2). split; [eapply grew_trans; eassumption|].
      apply Forall_app. auto.
    - eauto.
    - eauto.
  Qed.
  Lemma emits_rpc (P : done -> Prop) q d : P (DRequest q d) -> emits P (rpc sp q d).
  Proof.
    intros H w. exists [DRequest q d]. split; [|auto]. unfold rpc. cbn [next_header].
    destruct (sp _ _) as [s x]. cbn [fst]. apply grew_stepped.
  Qed.

  Ltac em := repeat first
    [ apply emits_ret
    | apply emits_rpc; exact I
    | apply emits_bind; [|intros ?]
    | match goal with |- context [match ?x with _ => _ end] => destruct x end ].

  Lemma status_looks m : emits only_looks (ctl_status sp m).
  Proof. unfold ctl_status, unexpected. em. Qed.
  Lemma read_one_looks m rd : emits only_looks (read_impl_one_message sp m rd).
  Proof. unfold read_impl_one_message, unexpected. em. Qed.
  Lemma read_rest_looks rd l : forall r, emits only_looks (read_rest sp l rd r).
  Proof.
    induction l as [|m l IH]; intros r; cbn [read_rest]; [apply emits_ret|].
    apply emits_bind; [apply read_one_looks|]. intros n. apply emits_bind; [apply emits_ret|]. intros; apply IH.
  Qed.
  Lemma read_impl_looks m rd : emits only_looks (read_impl sp m rd).
  Proof.
    unfold read_impl. destruct (_ || _); [apply emits_ret|]. apply emits_bind; [apply emits_ret|].
    intros [|g gs]; [apply emits_ret|]. apply emits_bind; [apply read_one_looks|]. intros; apply read_rest_looks.
  Qed.
  Lemma identifier_looks m : emits only_looks (identifier sp m).
  Proof.
    unfold identifier. apply emits_bind; [apply emits_ret|]. intros rd.
    apply emits_bind; [apply read_impl_looks|]. intros; apply emits_ret.
  Qed.
  Lemma read_each_looks m rds : emits only_looks (read_each sp m rds).
  Proof.
    induction rds as [|rd rds IH]; cbn [read_each]; [apply emits_ret|].
    apply emits_bind; [apply read_impl_looks|]. intros. apply emits_bind; [exact IH|]. intros; apply emits_ret.
  Qed.
  Lemma parse_groups_looks {P} reads (parse : _ -> _ -> outcome DecodeError P) gs : forall s,
    emits only_looks (parse_groups sp reads parse gs s).
  Proof.
    induction gs as [|[id m] gs IH]; intros s; cbn [parse_groups]; [apply emits_ret|].
    apply emits_bind; [apply emits_ret|]. intros. apply emits_bind; [apply read_each_looks|]. intros.
    apply emits_bind; [apply emits_ret|]. intros; apply IH.
  Qed.
  Lemma query_looks {P} reads (parse : _ -> _ -> outcome DecodeError P) m :
    emits only_looks (parse_modules_by_identifier sp reads parse m).
  Proof.
    unfold parse_modules_by_identifier. apply emits_bind; [apply identifier_looks|]. intros.
    apply emits_bind; [apply emits_ret|]. intros. apply emits_bind; [apply parse_groups_looks|]. intros; apply emits_ret.
  Qed.
  Lemma power_looks m : emits only_looks (power sp m).
  Proof.
    unfold power. apply emits_bind; [apply status_looks|]. intros st.
    destruct (filter_module_data _ _ _) as [p ps]. destruct (filter_module_data _ _ _) as [x xs].
    destruct (remove_module_data _ _ _) as [r rs].
    apply emits_bind.
    - destruct (Nat.eqb _ _); [apply emits_ret|]. apply emits_bind; [apply query_looks|]. intros c.
      destruct (filter_module_data _ _ _). apply emits_ret.
    - intros r'. destruct (merge_module_data _ _ _ _). apply emits_ret.
  Qed.

  Lemma emits_deeds P {A} (c : ctl (St := St) A) w : emits P c -> Forall P (deeds c w).
  Proof.
    intros H. destruct (H w) as (ds & G & F). destruct (c w) as [w' o] eqn:E.
    erewrite deeds_grew; [exact F|exact E|exact G].
  Qed.

  (** C37, for any SP. *)
  Lemma high_refused w m r : snd (power sp m w) = Ok r -> Exists (fun x => pm_state x = PowerOff) (mr_data r) ->
    set_power sp m PowerHigh w = (fst (power sp m w), Err EInvalidPowerStateTransition) /\
    Forall only_looks (deeds (set_power sp m PowerHigh) w).
  Proof.
    intros E X.
    assert (S : set_power sp m PowerHigh w = (fst (power sp m w), Err EInvalidPowerStateTransition)).
    { unfold set_power, set_power_on. destruct (power sp m w) as [w' o] eqn:Ep. cbn in E. subst o.
      erewrite cbind_ok by exact Ep. cbn [andb].
      assert (existsb is_off (mr_data r) = true) as ->.
      { apply existsb_exists. apply Exists_exists in X. destruct X as (x & Hx & Hs). exists x. split; [exact Hx|].
        unfold is_off. now rewrite Hs. }
      reflexivity. }
    split; [exact S|]. destruct (power_looks m w) as (ds & G & F).
    erewrite deeds_grew; [exact F|exact S|exact G].
  Qed.
End Emits.

(** ** C39 *)
Lemma power_word_correct id ov st : supported_kind id = true -> st <> PowerOff ->
  exists wr b, power_word id ov st = Ok (wr, b) /\ b < 256 /\ wr_len wr = 1 /\
    power_parse id [[b]] = Ok (if ov then OverrideLpModePin (match st with PowerLow => true | _ => false end)
                               else UseLpModePin) /\
    exists rd, power_reads id = Ok [rd] /\ rd_offset rd = wr_offset wr /\ rd_len rd = wr_len wr.
Proof.
  intros Hs Ho. unfold supported_kind in Hs. unfold power_word, power_parse, power_reads.
  change (benum_eqb id QsfpPlusSff8636 || benum_eqb id Qsfp28) with (is_sff id).
  change (benum_eqb id QsfpPlusCmis || benum_eqb id QsfpDD) with (is_cmis id).
  change (sff_kind id) with (is_sff id) in Hs. change (cmis_kind id) with (is_cmis id) in Hs.
  destruct (is_sff id).
  - destruct ov, st; try congruence; (eexists _, _; split; [reflexivity|]; split; [reflexivity|]; split; [reflexivity|];
      split; [reflexivity|]; eexists; split; [reflexivity|]; split; reflexivity).
  - cbn [orb] in Hs. rewrite Hs.
    destruct ov, st; try congruence; (eexists _, _; split; [reflexivity|]; split; [reflexivity|]; split; [reflexivity|];
      split; [reflexivity|]; eexists; split; [reflexivity|]; split; reflexivity).
Qed.

(** ** C33 *)
Section Calm.
  Context {St : Type} (sp : St -> Rpc -> St * reply) (Hsane : sane sp).
  Implicit Type w : world St.

  Definition safe {A} (Q : A -> Prop) (c : ctl (St := St) A) : Prop :=
    forall w, match snd (c w) with Ok x => Q x | Err _ => True | Panic => False end.
  Lemma safe_ret {A} (Q : A -> Prop) x : match x with Ok y => Q y | Err _ => True | Panic => False end ->
    safe Q (cret x).
  Proof. intros H w. exact H. Qed.
  Lemma safe_bind {A B} (Q : A -> Prop) (R : B -> Prop) c f :
    safe Q c -> (forall x, Q x -> safe R (f x)) -> safe R (cbind c f).
  Proof.
    intros Hc Hf w. specialize (Hc w). unfold cbind. destruct (c w) as [w1 [x|e|]]; cbn [snd] in *; auto.
    apply (Hf x Hc).
  Qed.
  Lemma safe_sleep t : safe (fun _ => True) (sleep (St := St) t).
  Proof. intros w. exact I. Qed.
  Lemma safe_weaken {A} (Q R : A -> Prop) c : (forall x, Q x -> R x) -> safe Q c -> safe R c.
  Proof. intros H Hc w. specialize (Hc w). destruct (snd (c w)); auto. Qed.

  Definition covers {P} (m : N) (r : Result P) : Prop := exists F, rrep m F r.

  Lemma covers_intro {P} m good bad (d : list P) errs : splits m good bad ->
    aligned good d -> faligned (faults bad errs) -> fm_modules (faults bad errs) = bad ->
    covers m (mkResult good d (faults bad errs)).
  Proof.
    intros Hs Ha Hf Hb. set (r := mkResult good d (faults bad errs)).
    exists (fun i => match rget r i with
                     | Some x => inl x
                     | None => inr match rerr r i with Some e => e | None => TeDecode DeParseFailed end
                     end).
    split; [split; assumption|]. intros i. destruct (Hs i) as [S1 S2].
    assert (T1 : N.testbit good i = match rget r i with Some _ => true | None => false end)
      by exact (testbit_get good d i Ha).
    assert (T2 : N.testbit bad i = match rerr r i with Some _ => true | None => false end).
    { rewrite <- Hb at 1. exact (testbit_get _ _ i Hf). }
    rewrite S1, T1, T2. rewrite T1, T2 in S2.
    destruct (rget r i), (rerr r i); try discriminate; auto.
  Qed.

  Lemma sane_cases w q d : mask_ok (request_modules q) = true -> q <> HMacAddrs ->
    (exists w' e, rpc sp q d w = (w', Err e)) \/
    (exists w' resp, rpc sp q d w = (w', Ok resp) /\
       forall r, msg_body (rpc_message resp) = BSpResponse r -> answers q r = false) \/
    (exists r items errs, documented_reply (answer sp w q d) r items errs /\ answers q r = true /\
       unit_size r = request_unit q /\
       splits (request_modules q) (resp_modules r) (resp_failed r) /\ Forall (in_range q) items).
  Proof.
    intros Hm Hn. pose proof (Hsane (w_sp w) (header_new (w_counter w) KHostRequest) q d (proj1 (mask_ok_lt _) Hm)) as H.
    change (snd (sp (w_sp w) _)) with (answer sp w q d) in H.
    destruct (answer sp w q d) as [resp|e|] eqn:Ea; cbn [sane_reply] in H; [| |destruct H].
    - destruct (msg_body (rpc_message resp)) as [| |r0| |] eqn:Eb;
        try (right; left; eexists _, resp; split; [apply rpc_answer; exact Ea|rewrite Eb; discriminate]).
      destruct (answers q r0) eqn:Ans.
      + right; right. destruct (H eq_refl Hn) as (items & errs & D). exists r0, items, errs. tauto.
      + right; left. eexists _, resp. split; [apply rpc_answer; exact Ea|]. rewrite Eb. intros r' E. congruence.
    - left. eexists _, e. rewrite rpc_eq. unfold answer in Ea. unfold req. rewrite Ea. reflexivity.
  Qed.

  Ltac err_case E := erewrite cbind_err by exact E; exact I.

  Lemma items_nil n (items : list (list N)) : length items = n -> Forall (fun x => length x = 0%nat) items ->
    items = repeat [] n.
  Proof.
    intros <- H. induction H as [|z l Hz _ IH]; [reflexivity|]. cbn. rewrite <- IH. now destruct z.
  Qed.

  Lemma covers_ack q : (forall r, answers q r = true -> exists x y, r = SAck x y) ->
    q <> HMacAddrs -> (forall x y, answers q (SAck x y) = true) -> mask_ok (request_modules q) = true ->
    safe (covers (request_modules q)) (no_payload_request sp q).
  Proof.
    intros Hq Hn Hy Hm w. destruct (sane_cases w q None Hm Hn) as [(w' & e & E)|[(w' & resp & E & No)|(r & items & errs & D & Ans & U & S & _)]].
    - unfold no_payload_request. err_case E.
    - unfold no_payload_request. erewrite cbind_ok by exact E.
      destruct (msg_body (rpc_message resp)) as [| |r| |] eqn:Eb; try exact I.
      all: destruct r; try exact I. all: specialize (No _ eq_refl); rewrite Hy in No; discriminate.
    - destruct (Hq _ Ans) as (x & y & ->).
      pose proof (documented_cut _ _ _ _ D) as (h & msg & _ & _ & Mx & My & Li & Fi & Le & _).
      cbn [resp_modules resp_failed unit_size] in *.
      rewrite (items_nil _ _ Li Fi) in D. rewrite (raw_ack sp w q x y errs D). cbn [snd].
      apply covers_intro; [exact S| |now apply faligned_faults|reflexivity].
      split; [exact Mx|]. apply repeat_length.
  Qed.

  Lemma covers_write m wr data : mask_ok m = true -> safe (covers m) (write_impl sp m wr data).
  Proof.
    intros Hm w. destruct (N.eqb_spec (wr_len wr) (Nlen data)) as [Hl|Hl].
    2:{ unfold write_impl. destruct (N.eqb_spec (wr_len wr) (Nlen data)); [congruence|]. exact I. }
    destruct (sane_cases w (HWrite m wr) (Some data)) as [(w' & e & E)|[(w' & resp & E & No)|(r & items & errs & D & Ans & U & S & _)]];
      [exact Hm|discriminate| | |].
    - unfold write_impl. destruct (N.eqb_spec (wr_len wr) (Nlen data)); [|congruence]. cbn [negb]. err_case E.
    - unfold write_impl. destruct (N.eqb_spec (wr_len wr) (Nlen data)); [|congruence]. cbn [negb].
      erewrite cbind_ok by exact E.
      destruct (msg_body (rpc_message resp)) as [| |r| |] eqn:Eb; try exact I.
      all: destruct r; try exact I. all: specialize (No _ eq_refl); discriminate.
    - destruct r as [|x y wr'| | | | |]; try discriminate.
      pose proof (documented_cut _ _ _ _ D) as (h & msg & _ & _ & Mx & My & Li & Fi & Le & _).
      cbn [resp_modules resp_failed unit_size request_modules] in *.
      rewrite (items_nil _ _ Li Fi) in D. rewrite (raw_write sp w m wr data x y wr' errs Hl D). cbn [snd].
      apply covers_intro; [exact S| |now apply faligned_faults|reflexivity].
      split; [exact Mx|]. apply repeat_length.
  Qed.

  Lemma range_bytes q items : Forall (in_range q) items -> Forall (fun x => bytes x = true) items.
  Proof. apply Forall_impl. intros x [H _]. exact H. Qed.

  Lemma covers_status m : mask_ok m = true -> safe (covers m) (ctl_status sp m).
  Proof.
    intros Hm w. destruct (sane_cases w (HStatus m) None) as [(w' & e & E)|[(w' & resp & E & No)|(r & items & errs & D & Ans & U & S & R)]];
      [exact Hm|discriminate| | |].
    - unfold ctl_status. err_case E.
    - unfold ctl_status. erewrite cbind_ok by exact E.
      destruct (msg_body (rpc_message resp)) as [| |r| |] eqn:Eb; try exact I.
      all: destruct r; try exact I. all: specialize (No _ eq_refl); discriminate.
    - destruct r; try discriminate.
      pose proof (documented_cut _ _ _ _ D) as (h & msg & _ & _ & Mx & My & Li & Fi & Le & _).
      cbn [resp_modules resp_failed unit_size request_modules] in *.
      rewrite (raw_status sp w m _ _ items errs (range_bytes _ _ R) D). cbn [snd].
      apply covers_intro; [exact S| |now apply faligned_faults|reflexivity].
      split; [exact Mx|]. now rewrite map_length, Li, count_to_indices.
  Qed.

  Lemma calm_leds m : mask_ok m = true -> safe (covers m) (leds sp m).
  Proof.
    intros Hm w. destruct (sane_cases w (HLedState m) None) as [(w' & e & E)|[(w' & resp & E & No)|(r & items & errs & D & Ans & U & S & R)]];
      [exact Hm|discriminate| | |].
    - unfold leds. err_case E.
    - unfold leds. erewrite cbind_ok by exact E.
      destruct (msg_body (rpc_message resp)) as [| |r| |] eqn:Eb; try exact I.
      all: destruct r; try exact I. all: specialize (No _ eq_refl); discriminate.
    - destruct r; try discriminate.
      pose proof (documented_cut _ _ _ _ D) as (h & msg & _ & _ & Mx & My & Li & Fi & Le & _).
      cbn [resp_modules resp_failed unit_size request_modules] in *.
      assert (R' : Forall (fun x => hd 0 x < 3) items) by (eapply Forall_impl; [|exact R]; intros x [_ H]; exact H).
      rewrite (raw_leds sp w m _ _ items errs R' D). cbn [snd].
      apply covers_intro; [exact S| |now apply faligned_faults|reflexivity].
      split; [exact Mx|]. now rewrite map_length, Li, count_to_indices.
  Qed.

  Lemma calm_ext m : mask_ok m = true -> safe (covers m) (extended_status sp m).
  Proof.
    intros Hm w. destruct (sane_cases w (HExtendedStatus m) None) as [(w' & e & E)|[(w' & resp & E & No)|(r & items & errs & D & Ans & U & S & R)]];
      [exact Hm|discriminate| | |].
    - unfold extended_status. err_case E.
    - unfold extended_status. erewrite cbind_ok by exact E.
      destruct (msg_body (rpc_message resp)) as [| |r| |] eqn:Eb; try exact I.
      all: destruct r; try exact I. all: specialize (No _ eq_refl); discriminate.
    - destruct r; try discriminate.
      pose proof (documented_cut _ _ _ _ D) as (h & msg & _ & _ & Mx & My & Li & Fi & Le & _).
      cbn [resp_modules resp_failed unit_size request_modules] in *.
      assert (R' : Forall (fun x => le_value x < 512) items) by (eapply Forall_impl; [|exact R]; intros x [_ H]; exact H).
      rewrite (raw_ext sp w m _ _ items errs (range_bytes _ _ R) R' D). cbn [snd].
      apply covers_intro; [exact S| |now apply faligned_faults|reflexivity].
      split; [exact Mx|]. now rewrite map_length, Li, count_to_indices.
  Qed.

  Lemma calm_mac : safe (fun _ => True) (mac_addrs sp).
  Proof.
    intros w. unfold mac_addrs, cbind. rewrite rpc_eq.
    pose proof (Hsane (w_sp w) (header_new (w_counter w) KHostRequest) HMacAddrs None eq_refl) as H. unfold req.
    destruct (snd (sp (w_sp w) _)) as [resp|e|]; [|exact I|destruct H].
    destruct (msg_body (rpc_message resp)) as [| |r| |]; try exact I.
    all: destruct r as [| | | |[|]| |]; exact I.
  Qed.

  Lemma covers_read_one m rd : mask_ok m = true -> rd_len rd <> 0 -> fits_in_one_message m rd = true ->
    safe (fun r => covers m r /\ Forall (fun x => length x = N.to_nat (rd_len rd)) (mr_data r))
         (read_impl_one_message sp m rd).
  Proof.
    intros Hm Hl Hf w. destruct (sane_cases w (HRead m rd) None) as [(w' & e & E)|[(w' & resp & E & No)|(r & items & errs & D & Ans & U & S & R)]];
      [exact Hm|discriminate| | |].
    - unfold read_impl_one_message. rewrite Hf. cbn [negb]. err_case E.
    - unfold read_impl_one_message. rewrite Hf. cbn [negb]. erewrite cbind_ok by exact E.
      destruct (msg_body (rpc_message resp)) as [| |r| |] eqn:Eb; try exact I.
      all: destruct r; try exact I. all: specialize (No _ eq_refl); discriminate.
    - destruct r as [x y rd'| | | | | |]; try discriminate.
      pose proof (documented_cut _ _ _ _ D) as (h & msg & _ & _ & Mx & My & Li & Fi & Le & _).
      cbn [resp_modules resp_failed unit_size request_modules request_unit] in *.
      assert (Hr : rd_len rd' = rd_len rd) by (apply N2Nat.inj; exact U).
      rewrite (raw_read sp w m rd _ _ rd' items errs Hf Hl Hr D). cbn [snd mr_data]. split.
      + apply covers_intro; [exact S| |now apply faligned_faults|reflexivity].
        split; [exact Mx|]. now rewrite Li, count_to_indices.
      + now rewrite <- Hr.
  Qed.

  Lemma covers_ok {P} m (r : Result P) : covers m r -> raligned r.
  Proof. intros [F [H _]]. exact H. Qed.
  Lemma covers_mask {P} m (r : Result P) : covers m r -> mask_ok (mr_modules r) = true.
  Proof. intros H. apply covers_ok in H. apply H. Qed.

  Lemma covers_merge {P} m1 m2 (r1 r2 : Result P) : covers m1 r1 -> covers m2 r2 -> N.land m1 m2 = 0 ->
    exists r, result_merge r1 r2 = Some r /\ covers (N.lor m1 m2) r /\
      forall i x, rget r i = Some x -> rget r1 i = Some x \/ rget r2 i = Some x.
  Proof.
    intros [F1 R1] [F2 R2] D. pose (F := fun i => if N.testbit m1 i then F1 i else F2 i).
    assert (Dj : forall i, N.testbit m2 i = true -> N.testbit m1 i = false).
    { intros i H. destruct (N.testbit m1 i) eqn:E; [|reflexivity].
      assert (X : N.testbit (N.land m1 m2) i = true) by now rewrite N.land_spec, E, H.
      rewrite D, N.bits_0 in X. discriminate. }
    assert (R1' : rrep m1 F r1) by (eapply rrep_ext; [|exact R1]; intros i Hi; unfold F; now rewrite Hi).
    assert (R2' : rrep m2 F r2) by (eapply rrep_ext; [|exact R2]; intros i Hi; unfold F; now rewrite (Dj i Hi)).
    destruct (rrep_merge m1 m2 F r1 r2 R1' R2' D) as (r & E & R). exists r. split; [exact E|].
    split; [exists F; exact R|]. intros i x Hx. destruct R as [_ R]. destruct (R i) as [G _].
    destruct R1' as [_ R1']. destruct (R1' i) as [G1 _]. destruct R2' as [_ R2']. destruct (R2' i) as [G2 _].
    rewrite G1, G2. rewrite G, N.lor_spec in Hx. destruct (N.testbit m1 i), (N.testbit m2 i); cbn [orb] in Hx; auto.
  Qed.

  Lemma in_data_rget {P} (r : Result P) x : raligned r -> In x (mr_data r) <-> exists i, rget r i = Some x.
  Proof.
    intros [Ha _]. rewrite <- (zip_snd _ _ Ha) at 1. rewrite in_map_iff. unfold rget. setoid_rewrite <- in_zip_get.
    split; [intros ([i y] & <- & H); eauto|intros (i & H); exists (i, x); auto].
  Qed.

  Definition sized (n : N) (r : Result (list N)) : Prop :=
    forall i x, rget r i = Some x -> length x = N.to_nat n.

  Lemma read_one_sized m rd : mask_ok m = true -> rd_len rd <> 0 -> fits_in_one_message m rd = true ->
    safe (fun r => covers m r /\ sized (rd_len rd) r) (read_impl_one_message sp m rd).
  Proof.
    intros Hm Hl Hf. eapply safe_weaken; [|apply covers_read_one; assumption]. intros r [C F]. split; [exact C|].
    intros i x Hx. rewrite Forall_forall in F. apply F. apply in_data_rget; [eapply covers_ok; exact C|eauto].
  Qed.

  Definition piece (rd : MemoryRead) (g : N) : Prop :=
    g <> 0 /\ mask_ok g = true /\ fits_in_one_message g rd = true.

  Lemma covers_rest rd : rd_len rd <> 0 -> forall gs m r, Forall (piece rd) gs ->
    StronglySorted N.lt (to_indices m ++ concat (map to_indices gs)) -> mask_ok m = true ->
    covers m r -> sized (rd_len rd) r ->
    safe (fun r' => (exists m', to_indices m' = to_indices m ++ concat (map to_indices gs) /\ mask_ok m' = true /\
                                covers m' r') /\ sized (rd_len rd) r')
         (read_rest sp gs rd r).
  Proof.
    intros Hl gs. induction gs as [|g gs IH]; intros m r Hg Hs Hm C S; cbn [read_rest].
    - apply safe_ret. split; [|exact S]. exists m. cbn. rewrite app_nil_r. auto.
    - pose proof (Forall_inv Hg) as (Hz & Hgo & Hfit). apply Forall_inv_tail in Hg. cbn [map concat] in Hs.
      eapply safe_bind; [apply read_one_sized; assumption|]. intros n [Cn Sn].
      assert (D : N.land m g = 0).
      { apply N.bits_inj. intros i. rewrite N.land_spec, N.bits_0.
        destruct (N.testbit m i) eqn:E1; [|reflexivity]. destruct (N.testbit g i) eqn:E2; [|reflexivity]. exfalso.
        apply sorted_app_inv in Hs. destruct Hs as (_ & _ & Hs).
        specialize (Hs i i). rewrite in_app_iff, !in_to_indices_ok in Hs by assumption.
        specialize (Hs E1 (or_introl E2)). lia. }
      destruct (covers_merge m g r n C Cn D) as (r' & E & C' & X). rewrite E. cbn [opt_unwrap].
      eapply safe_bind; [apply (safe_ret (fun y => y = r')); reflexivity|]. intros y ->.
      assert (Mo : mask_ok (N.lor m g) = true) by now rewrite mask_ok_lor, Hm, Hgo.
      assert (Ti : to_indices (N.lor m g) = to_indices m ++ to_indices g).
      { apply sorted_lt_ext; [apply to_indices_sorted| |].
        - rewrite app_assoc in Hs. apply sorted_app_inv in Hs. tauto.
        - intros i. rewrite in_app_iff, !in_to_indices_ok, N.lor_spec, orb_true_iff by assumption. reflexivity. }
      rewrite app_assoc, <- Ti in Hs.
      eapply safe_weaken; [|apply (IH (N.lor m g) r' Hg Hs Mo C')].
      + intros z [(m' & T & Mm & Cm) Sz]. split; [|exact Sz]. exists m'. cbn [map concat]. rewrite app_assoc, <- Ti. auto.
      + intros i x Hx. destruct (X i x Hx); eauto.
  Qed.

  Lemma covers_read m rd : mask_ok m = true -> 1 <= rd_len rd <= 255 ->
    safe (fun r => covers m r /\ sized (rd_len rd) r) (read_impl sp m rd).
  Proof.
    intros Hm Hl. unfold read_impl. destruct (Nat.eqb_spec (m_count m) 0) as [Hz|Hz].
    - apply count0 in Hz; [|exact Hm]. subst m. cbn [orb]. apply safe_ret. cbn. split.
      + exists (fun _ => inr (TeDecode DeParseFailed)). apply rrep_empty.
      + intros i x Hx. discriminate.
    - destruct (N.eqb_spec (rd_len rd) 0) as [|Hn]; [lia|]. cbn [orb].
      destruct (split_spec m rd Hm Hl) as (gs & Es & Ec & Fg & _). rewrite Es.
      eapply safe_bind; [apply (safe_ret (fun y => y = gs)); reflexivity|]. intros y ->.
      destruct gs as [|g gs].
      { exfalso. apply Hz. rewrite count_to_indices, <- Ec by exact Hm. reflexivity. }
      pose proof (Forall_inv Fg) as (_ & Ho & Hf). apply Forall_inv_tail in Fg.
      eapply safe_bind; [apply read_one_sized; assumption|]. intros r [C S].
      eapply safe_weaken; [|apply (covers_rest rd Hn gs g r Fg)]; auto.
      + intros z [(m' & T & Mm & Cm) Sz]. split; [|exact Sz]. cbn [map concat] in Ec. rewrite Ec in T.
        replace m with m'; [exact Cm|]. apply mask_ext. intros i. apply eq_true_iff_eq.
        rewrite <- (in_to_indices_ok m' i Mm), <- (in_to_indices_ok m i Hm). now rewrite T.
      + cbn [map concat] in Ec. rewrite Ec. apply to_indices_sorted.
  Qed.

  Lemma covers_identifier m : mask_ok m = true -> safe (covers m) (identifier sp m).
  Proof.
    intros Hm. unfold identifier.
    eapply safe_bind; [apply (safe_ret (fun y => y = ident_read)); reflexivity|]. intros y ->.
    eapply safe_bind; [apply covers_read; [exact Hm|cbn; lia]|]. intros r [C S]. apply safe_ret.
    pose proof (covers_ok _ _ C) as Ho.
    rewrite (omapM_ok _ (fun x => ident_of_byte (hd 0 x))).
    - destruct C as [F R]. cbn [obind].
      exists (fun i => match F i with inl x => inl (ident_of_byte (hd 0 x)) | inr e => inr e end).
      exact (rrep_map (fun x => ident_of_byte (hd 0 x)) m F r R).
    - intros x Hx. apply in_data_rget in Hx; [|exact Ho]. destruct Hx as [i Hx]. apply S in Hx.
      destruct x; [discriminate|reflexivity].
  Qed.

  Lemma safe_verify p (m : N) (ids : list Identifier) : aligned m ids ->
    safe (fun _ => True) (cret (St := St) (verify_ids_for_page p m ids)).
  Proof.
    intros Ha. apply safe_ret. destruct (verify_spec p m ids Ha) as [[-> _]|(i & id & -> & _)]; exact I.
  Qed.

  Lemma calm_read m rd : mask_ok m = true -> 1 <= rd_len rd <= 255 -> safe (fun _ => True) (ctl_read sp m rd).
  Proof.
    intros Hm Hl. unfold ctl_read. destruct (Nat.eqb_spec (m_count m) 0) as [Hz|Hz].
    - apply count0 in Hz; [|exact Hm]. subst m. apply safe_ret. exact I.
    - destruct (N.eqb_spec (rd_len rd) 0) as [|Hn]; [lia|]. cbn [orb].
      eapply safe_bind; [apply covers_identifier; exact Hm|]. intros id C.
      eapply safe_bind; [apply safe_verify; apply (covers_ok _ _ C)|]. intros _ _.
      eapply safe_bind; [apply covers_read; [apply (covers_mask _ _ C)|exact Hl]|]. intros r _. apply safe_ret. exact I.
  Qed.

  Lemma calm_write m wr data : mask_ok m = true -> safe (fun _ => True) (ctl_write sp m wr data).
  Proof.
    intros Hm. unfold ctl_write.
    eapply safe_bind; [apply covers_identifier; exact Hm|]. intros id C.
    eapply safe_bind; [apply safe_verify; apply (covers_ok _ _ C)|]. intros _ _.
    eapply safe_bind; [apply covers_write; exact (covers_mask _ _ C)|]. intros r _. apply safe_ret. exact I.
  Qed.

  Lemma covers_any q : q <> HMacAddrs -> (forall x y, answers q (SAck x y) = true) -> mask_ok (request_modules q) = true ->
    safe (covers (request_modules q)) (no_payload_request sp q).
  Proof.
    intros Hn Hy Hm. apply covers_ack; [|exact Hn|exact Hy|exact Hm]. intros r Hr.
    destruct q; try congruence; destruct r; try discriminate; eauto; exfalso; specialize (Hy 0 0); discriminate.
  Qed.

  Lemma calm_reset m : mask_ok m = true -> safe (fun _ => True) (reset sp m).
  Proof.
    intros Hm. unfold reset. eapply safe_bind; [apply covers_any; [discriminate|reflexivity|exact Hm]|]. intros x C.
    eapply safe_bind; [apply safe_sleep|]. intros _ _.
    eapply safe_bind; [apply covers_any; [discriminate|reflexivity|exact (covers_mask _ _ C)]|]. intros y D.
    eapply safe_bind; [apply safe_sleep|]. intros _ _. apply safe_ret. exact I.
  Qed.

  Lemma remove_mask m r : mask_ok m = true -> mask_ok (m_remove m r) = true.
  Proof.
    intros Hm. apply mask_ok_testbit. intros i Hi. rewrite m_remove_spec in Hi by exact Hm.
    apply andb_true_iff in Hi. apply (proj1 (mask_ok_testbit m) Hm). tauto.
  Qed.
  Section CalmQuery.
    Context {P : Type} (reads : Identifier -> outcome DecodeError (list MemoryRead))
            (parse : Identifier -> list (list N) -> outcome DecodeError P).
    Context (Hrd : forall id, match reads id with
                              | Ok rds => Forall (fun rd => 1 <= rd_len rd <= 255) rds
                              | Err _ => True | Panic => False end)
            (Hps : forall id ds, parse id ds <> Panic).

    Lemma covers_each m rds : mask_ok m = true -> Forall (fun rd => 1 <= rd_len rd <= 255) rds ->
      safe (Forall (covers m)) (read_each sp m rds).
    Proof.
      intros Hm H. induction H as [|rd rds Hl _ IH]; cbn [read_each]; [apply safe_ret; constructor|].
      eapply safe_bind; [apply covers_read; assumption|]. intros r [C _].
      eapply safe_bind; [exact IH|]. intros rs Cs. apply safe_ret. now constructor.
    Qed.

    Lemma parse_fail_ok (s : parsing P) i e : i < 64 -> exists s', parse_fail s i e = Ok s' /\
      (mask_ok (ps_modules s) = true -> mask_ok (ps_modules s') = true).
    Proof.
      intros Hi. unfold parse_fail, m_clear, m_set, MAX_INDEX. destruct (N.leb_spec 64 i); [lia|].
      cbn [ounwrap obind]. eexists. split; [reflexivity|]. cbn [ps_modules]. apply (remove_mask _ (N.shiftl 1 i)).
    Qed.

    Lemma calm_parse_each id m rs : mask_ok m = true -> Forall (covers m) rs -> forall l s,
      (forall i, In i l -> N.testbit m i = true) -> exists s', parse_each parse id rs l s = Ok s' /\
        (mask_ok (ps_modules s) = true -> mask_ok (ps_modules s') = true).
    Proof.
      intros Hm C l. induction l as [|i l IH]; intros s Hl; cbn [parse_each]; [eauto|].
      assert (Hi : N.testbit m i = true) by (apply Hl; now left).
      assert (H64 : i < 64) by (apply (proj1 (mask_ok_testbit m) Hm); exact Hi).
      assert (X : exists s1, parse_one parse id rs s i = Ok s1 /\
        (mask_ok (ps_modules s) = true -> mask_ok (ps_modules s1) = true)).
      { unfold parse_one. destruct (first_err rs i) as [e|] eqn:Fe; [now apply parse_fail_ok|].
        assert (Y : exists ds, omapM (fun r => @opt_unwrap Error _ (result_nth r i)) rs = Ok ds).
        { clear -C Fe Hi. induction C as [|r rs [F [_ R]] _ IH]; [eexists; reflexivity|].
          cbn [first_err] in Fe. unfold result_nth_err in Fe. rewrite failed_nth_get in Fe.
          destruct (R i) as [G E]. unfold rerr in E. rewrite Hi in G, E. rewrite E in Fe.
          destruct (F i) as [x|e]; [|discriminate]. destruct (IH Fe) as [ds Hd].
          exists (x :: ds). cbn [omapM]. rewrite result_nth_get, G. cbn [opt_unwrap obind]. now rewrite Hd. }
        destruct Y as [ds ->]. cbn [obind]. destruct (parse id ds) as [x|e|] eqn:Ep; [eauto|now apply parse_fail_ok|].
        now destruct (Hps id ds). }
      destruct X as (s1 & -> & M1). cbn [obind]. destruct (IH s1) as (s2 & -> & M2); [intros j Hj; apply Hl; now right|].
      exists s2. auto.
    Qed.

    Lemma calm_groups gs : Forall (fun g : Identifier * ModuleId => mask_ok (snd g) = true) gs -> forall s,
      mask_ok (ps_modules s) = true ->
      safe (fun s' => mask_ok (ps_modules s') = true) (parse_groups sp reads parse gs s).
    Proof.
      intros H. induction H as [|[id m] gs Hm _ IH]; intros s Hs; cbn [parse_groups]; [apply safe_ret; exact Hs|].
      cbn [snd] in Hm. specialize (Hrd id).
      eapply safe_bind with (Q := fun rds => Forall (fun rd => 1 <= rd_len rd <= 255) rds).
      { apply safe_ret. destruct (reads id); auto. }
      intros rds Hl. eapply safe_bind; [apply covers_each; assumption|]. intros rs C.
      eapply safe_bind with (Q := fun s' => mask_ok (ps_modules s') = true).
      { apply safe_ret. destruct (calm_parse_each id m rs Hm C (to_indices m) s) as (s' & -> & M); [|exact (M Hs)].
        intros i Hi. apply in_to_indices in Hi. tauto. }
      intros s' H'. apply IH. exact H'.
    Qed.

    Lemma query_mask m : mask_ok m = true ->
      safe (fun r => mask_ok (mr_modules r) = true) (parse_modules_by_identifier sp reads parse m).
    Proof.
      intros Hm. unfold parse_modules_by_identifier.
      eapply safe_bind; [apply covers_identifier; exact Hm|]. intros id C.
      pose proof (covers_ok _ _ C) as [Ai _]. destruct (split_groups _ _ Ai) as (gs & -> & Hg).
      eapply safe_bind; [apply (safe_ret (fun y => y = gs)); reflexivity|]. intros y ->.
      eapply safe_bind; [apply calm_groups; [|apply Ai]|intros s Hs; apply safe_ret; exact Hs].
      apply Forall_forall. intros [k mk] Hin. cbn [snd]. destruct Hg as (_ & Hg & _).
      eapply group_mask_lt; [apply (Hg k mk Hin)|]. apply Forall_forall. intros [i x] Hx. cbn.
      apply in_zip_get in Hx. apply (proj1 (mask_ok_testbit _) (proj1 Ai)).
      apply (proj1 (get_some _ _ i Ai)). eauto.
    Qed.
    Lemma calm_query m : mask_ok m = true -> safe (fun _ => True) (parse_modules_by_identifier sp reads parse m).
    Proof. intros Hm. eapply safe_weaken; [|apply query_mask; exact Hm]. auto. Qed.
  End CalmQuery.

  Lemma lor_mask x y : mask_ok x = true -> mask_ok y = true -> mask_ok (m_merge x y) = true.
  Proof. intros Hx Hy. unfold m_merge. now rewrite mask_ok_lor, Hx, Hy. Qed.
  Lemma power_mask m : mask_ok m = true -> safe (fun r => mask_ok (mr_modules r) = true) (power sp m).
  Proof.
    intros Hm. unfold power. eapply safe_bind; [apply covers_status; exact Hm|]. intros st C.
    pose proof (covers_ok _ _ C) as [As _].
    destruct (filter_module_data (mr_modules st) (mr_data st) _) as [p ps] eqn:E1.
    destruct (filter_eq _ _ _ _ _ (proj1 As) E1) as [Ap _].
    destruct (filter_module_data p ps _) as [x xs] eqn:E2.
    destruct (filter_eq _ _ _ _ _ (proj1 Ap) E2) as [Ax _].
    destruct (remove_module_data p ps x) as [rd rds] eqn:E3.
    destruct (remove_eq _ _ _ _ _ Ap E3) as [Ad _].
    eapply safe_bind with (Q := fun r => mask_ok (mr_modules r) = true).
    - destruct (Nat.eqb _ _); [apply safe_ret; reflexivity|].
      eapply safe_bind; [unfold power_control; apply query_mask; [| |apply Ad]|].
      + intros id. unfold power_reads.
        change (ounwrap (read_new (PageSff SffLower) 93 1)) with (@Ok DecodeError _ (mkRead (PageSff SffLower) 93 1)).
        change (ounwrap (read_new (PageCmis CmisLower) 26 1)) with (@Ok DecodeError _ (mkRead (PageCmis CmisLower) 26 1)).
        destruct (is_sff id); [|destruct (is_cmis id)]; cbn; [| |exact I]; repeat constructor; cbn; discriminate.
      + intros id ds. unfold power_parse. destruct ds as [|[|b t] ds]; cbn;
          destruct (is_sff id), (is_cmis id); discriminate.
      + intros c Hc. destruct (filter_module_data rd rds _). apply safe_ret. exact Hc.
    - intros r Hr. unfold merge_module_data. apply safe_ret. cbn [mr_modules].
      apply lor_mask; [|exact Hr]. apply lor_mask; [|apply Ax]. apply remove_mask. apply As.
  Qed.
  Lemma calm_power m : mask_ok m = true -> safe (fun _ => True) (power sp m).
  Proof. intros Hm. eapply safe_weaken; [|apply power_mask; exact Hm]. auto. Qed.

  Definition soft_mask (s : soft) : Prop := mask_ok (fst (fst s)) = true.
  Lemma calm_soft_write id st ov m s : mask_ok m = true -> safe soft_mask (soft_write sp id st ov m s).
  Proof.
    intros Hm. unfold soft_write. destruct s as [[x modes] failures].
    eapply safe_bind with (Q := fun _ => True).
    - apply safe_ret. unfold power_word. destruct (_ || _); [exact I|]. destruct (_ || _); exact I.
    - intros ww _. eapply safe_bind; [apply covers_write; exact Hm|]. intros r _.
      unfold remove_module_data. apply safe_ret. now apply remove_mask.
  Qed.
  Lemma calm_soft_groups st gs : Forall (fun g : Identifier * ModuleId => mask_ok (snd g) = true) gs ->
    forall s, soft_mask s -> safe (fun _ => True) (soft_groups sp st gs s).
  Proof.
    intros H. induction H as [|[id m] gs Hm _ IH]; intros [[x modes] failures] Hs; cbn [soft_groups]; [apply safe_ret; exact I|].
    destruct (filter_module_data x modes _) as [wo wod] eqn:E1. destruct (filter_module_data m modes _) as [wi wid] eqn:E2.
    destruct (filter_eq _ _ _ _ _ Hs E1) as [[M1 _] _]. destruct (filter_eq _ _ _ _ _ Hm E2) as [[M2 _] _].
    eapply safe_bind; [apply calm_soft_write; exact M1|]. intros s1 _.
    eapply safe_bind; [apply calm_soft_write; exact M2|]. intros s2 H2. apply IH. exact H2.
  Qed.
  Lemma groups_masks m (ids : list Identifier) gs : aligned m ids -> groups_of (zip_data m ids) gs ->
    Forall (fun g : Identifier * ModuleId => mask_ok (snd g) = true) gs.
  Proof.
    intros Ai (_ & Hg & _). apply Forall_forall. intros [k mk] Hin. cbn [snd].
    eapply group_mask_lt; [apply (Hg k mk Hin)|]. apply Forall_forall. intros [i x] Hx. cbn.
    apply in_zip_get in Hx. apply (proj1 (mask_ok_testbit _) (proj1 Ai)).
    apply (proj1 (get_some _ _ i Ai)). eauto.
  Qed.
  Lemma calm_software pr st : mask_ok (mr_modules pr) = true -> st <> PowerOff ->
    safe (fun _ => True) (set_software_power_state sp pr st).
  Proof.
    intros Hm Hs. unfold set_software_power_state.
    assert (X : safe (fun _ : Result unit => True) (cbind (identifier sp (mr_modules pr)) (fun ident =>
        cbind (cret (split_modules_by_identifier (mr_modules ident) (mr_data ident))) (fun groups =>
        let (success, modes) := keep_module_data (mr_modules pr) (mr_data pr) (mr_modules ident) in
        let failures := failed_merge (mr_failures pr) (mr_failures ident) in
        cbind (soft_groups sp st groups (success, modes, failures)) (fun s =>
        cret (Ok (ack_new (fst (fst s)) (snd s)))))))).
    { eapply safe_bind; [apply covers_identifier; exact Hm|]. intros id C.
      pose proof (covers_ok _ _ C) as [Ai _]. destruct (split_groups _ _ Ai) as (gs & -> & Hg).
      eapply safe_bind; [apply (safe_ret (fun y => y = gs)); reflexivity|]. intros y ->.
      unfold keep_module_data, remove_module_data. eapply safe_bind; [apply calm_soft_groups|].
      { eapply groups_masks; [exact Ai|exact Hg]. }
      { now apply remove_mask. }
      intros s _.
      apply safe_ret. exact I. }
    destruct st; [congruence|exact X|exact X].
  Qed.

  Lemma calm_set_power m st : mask_ok m = true -> safe (fun _ => True) (set_power sp m st).
  Proof.
    intros Hm.
    assert (On : st <> PowerOff -> safe (fun _ => True) (set_power_on sp m st)).
    { intros Ho. unfold set_power_on. eapply safe_bind; [apply power_mask; exact Hm|]. intros p Hp.
      destruct (_ && existsb is_off (mr_data p)); [apply safe_ret; exact I|].
      eapply safe_bind; [apply covers_status; exact Hp|]. intros s C. pose proof (covers_mask _ _ C) as Hs.
      destruct (filter_module_data (mr_modules s) (mr_data s) _) as [np nps] eqn:E1.
      destruct (filter_module_data (mr_modules s) (mr_data s) _) as [nr nrs] eqn:E2 in |- *.
      destruct (filter_eq _ _ _ _ _ Hs E1) as [[M1 _] _].
      eapply safe_bind with (Q := fun s1 => mask_ok (fst s1) = true).
      { destruct (Nat.ltb _ _); [|apply safe_ret; exact Hs].
        eapply safe_bind; [apply covers_any; [discriminate|reflexivity|now apply remove_mask]|]. intros a Ca.
        eapply safe_bind; [apply safe_sleep|]. intros _ _. apply safe_ret. exact (covers_mask _ _ Ca). }
      intros s1 H1. eapply safe_bind with (Q := fun s2 => mask_ok (fst s2) = true).
      { destruct (Nat.ltb _ _); [|apply safe_ret; exact H1].
        eapply safe_bind; [apply covers_any; [discriminate|reflexivity|exact M1]|]. intros a Ca. apply safe_ret. exact (covers_mask _ _ Ca). }
      intros s2 H2. eapply safe_bind with (Q := fun l : Result unit => mask_ok (mr_modules l) = true).
      { destruct st.
        - congruence.
        - eapply safe_weaken; [|apply covers_any; [discriminate|reflexivity|exact H2]]. intros x. apply covers_mask.
        - eapply safe_weaken; [|apply covers_any; [discriminate|reflexivity|exact H2]]. intros x. apply covers_mask. }
      intros l Hl. eapply safe_bind with (Q := fun s4 => mask_ok (fst s4) = true).
      { destruct (Nat.ltb _ _); [|apply safe_ret; exact Hl].
        eapply safe_bind; [apply covers_any; [discriminate|reflexivity|exact M1]|]. intros a Ca.
        eapply safe_bind; [apply safe_sleep|]. intros _ _. apply safe_ret. exact (covers_mask _ _ Ca). }
      intros s4 H4. destruct (keep_module_data _ _ _) as [k ks]. now apply calm_software. }
    destruct st; [|apply On; discriminate|apply On; discriminate].
    unfold set_power, set_power_off. eapply safe_bind; [apply covers_any; [discriminate|reflexivity|exact Hm]|]. intros a Ca.
    eapply safe_bind; [apply covers_any; [discriminate|reflexivity|exact (covers_mask _ _ Ca)]|]. intros b Cb.
    eapply safe_bind; [apply covers_any; [discriminate|reflexivity|exact (covers_mask _ _ Cb)]|]. intros c _. apply safe_ret. exact I.
  Qed.

  Lemma safe_calm {A} (Q : A -> Prop) (c : ctl (St := St) A) : safe Q c -> calm c.
  Proof. intros H w E. specialize (H w). now rewrite E in H. Qed.
End Calm.

(** Wrong kinds of response are reported, whatever the SP. *)
Section WrongKind.
  Context {St : Type} (sp : St -> Rpc -> St * reply).
  Implicit Type w : world St.
  Ltac wk := match goal with H : wrong_kind _ _ _ _ ?b |- _ =>
    destruct H as (resp & Ha & Hb & Hn); erewrite cbind_ok by (apply rpc_answer; exact Ha); rewrite Hb;
    destruct b as [| |r| |]; try reflexivity; specialize (Hn _ eq_refl); destruct r; try discriminate; reflexivity end.

  Lemma wrong_leds w m b : wrong_kind sp w (HLedState m) None b -> snd (leds sp m w) = Err (EUnexpectedMessage b).
  Proof. intros H. unfold leds, unexpected. wk. Qed.
  Lemma wrong_status w m b : wrong_kind sp w (HStatus m) None b -> snd (ctl_status sp m w) = Err (EUnexpectedMessage b).
  Proof. intros H. unfold ctl_status, unexpected. wk. Qed.
  Lemma wrong_ext w m b : wrong_kind sp w (HExtendedStatus m) None b ->
    snd (extended_status sp m w) = Err (EUnexpectedMessage b).
  Proof. intros H. unfold extended_status, unexpected. wk. Qed.
  Lemma wrong_mac w b : wrong_kind sp w HMacAddrs None b -> snd (mac_addrs sp w) = Err (EUnexpectedMessage b).
  Proof. intros H. unfold mac_addrs, unexpected. wk. Qed.
  Lemma wrong_ack w q b : (forall x y, answers q (SAck x y) = true) -> wrong_kind sp w q None b ->
    snd (no_payload_request sp q w) = Err (EUnexpectedMessage b).
  Proof.
    intros Hy H. unfold no_payload_request, unexpected. destruct H as (resp & Ha & Hb & Hn).
    erewrite cbind_ok by (apply rpc_answer; exact Ha). rewrite Hb.
    destruct b as [| |r| |]; try reflexivity. specialize (Hn _ eq_refl).
    destruct r; try reflexivity. rewrite Hy in Hn. discriminate.
  Qed.
  Lemma wrong_write w m wr data b : wr_len wr = Nlen data -> wrong_kind sp w (HWrite m wr) (Some data) b ->
    snd (write_impl sp m wr data w) = Err (EUnexpectedMessage b).
  Proof.
    intros Hl H. unfold write_impl, unexpected. destruct (N.eqb_spec (wr_len wr) (Nlen data)); [|congruence].
    cbn [negb]. wk.
  Qed.
  Lemma wrong_read w m rd b : fits_in_one_message m rd = true -> wrong_kind sp w (HRead m rd) None b ->
    snd (read_impl_one_message sp m rd w) = Err (EUnexpectedMessage b).
  Proof. intros Hl H. unfold read_impl_one_message, unexpected. rewrite Hl. cbn [negb]. wk. Qed.
  Lemma wrong_identifier w m b : m < 2 ^ 64 -> m <> 0 -> wrong_kind sp w (HRead m ident_read) None b ->
    snd (identifier sp m w) = Err (EUnexpectedMessage b).
  Proof.
    intros Hm Hz H. rewrite <- mask_ok_lt in Hm.
    assert (Hn : m_count m <> 0%nat).
    { intros E. apply Hz. apply m_is_empty_spec; [assumption|]. unfold m_is_empty. now rewrite E. }
    assert (Hs : split_large_reads m ident_read = Ok [m]).
    { unfold split_large_reads. cbn [rd_len ident_read]. change (1 =? 0) with false. cbv iota.
      change (N.to_nat 1) with 1%nat. rewrite Nat.div_1_r. unfold chunks.
      rewrite chunks_fuel_one; [|rewrite count_to_indices in Hn by assumption; now destruct (to_indices m)
        |pose proof (to_indices_le64 m); unfold MAX_PAYLOAD_SIZE; lia|reflexivity].
      cbn [omapM]. rewrite from_to_indices by assumption. reflexivity. }
    assert (Hfit : fits_in_one_message m ident_read = true).
    { unfold fits_in_one_message. rewrite count_to_indices by assumption. cbn [rd_len ident_read].
      change (N.to_nat 1) with 1%nat. pose proof (to_indices_le64 m). unfold MAX_PAYLOAD_SIZE.
      apply Nat.leb_le. lia. }
    pose proof (wrong_read w m ident_read b Hfit H) as R.
    destruct (read_impl_one_message sp m ident_read w) as [w' o] eqn:E. cbn [snd] in R. subst o.
    unfold identifier. unfold cret at 1. erewrite cbind_ok by reflexivity.
    change (mkRead (PageSff SffLower) 0 1) with ident_read. erewrite cbind_err; [reflexivity|].
    unfold read_impl. destruct (Nat.eqb_spec (m_count m) 0) as [|_]; [contradiction|].
    cbn [orb rd_len ident_read]. change (1 =? 0) with false. cbv iota. rewrite Hs. unfold cret at 1.
    erewrite cbind_ok by reflexivity. cbv beta iota. erewrite cbind_err by exact E. reflexivity.
  Qed.
End WrongKind.
