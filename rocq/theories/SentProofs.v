(** Every request is well made (C80). *)
From Verif Require Export SpecSent Queries.
From Verif Require Import Tac Spec ModuleIdProofs ModuleIdProps ResultsProofs ControllerProofs ControllerProofs3
  ControllerProofs5 ScopeProofs ScopeProofs2.

Definition small (m : N) : Prop := m < 2 ^ 64.
Definition full : N := 2 ^ 64 - 1.
Lemma small_sub m : small m <-> sub m full.
Proof.
  unfold small. rewrite <- mask_ok_lt, mask_ok_testbit. unfold sub, full. change (2 ^ 64 - 1) with (N.ones 64).
  split; intros H i Hi; specialize (H i Hi).
  - now apply N.ones_spec_low.
  - destruct (N.ltb_spec i 64) as [L|L]; [exact L|]. rewrite N.ones_spec_high in H by exact L. discriminate.
Qed.
Definition fine (x : done) : Prop := match x with DRequest q d => well_made q d | DSleep _ => True end.
Definition rsmall {P} (r : Result P) : Prop := small (mr_modules r) /\ small (fm_modules (mr_failures r)).
Lemma small_sub_of a m : small m -> sub a m -> small a.
Proof. rewrite !small_sub. intros H K. exact (sub_trans _ _ _ K H). Qed.
Lemma small_remove a b : small a -> small (m_remove a b).
Proof. intros H. exact (small_sub_of _ _ H (sub_remove a b)). Qed.
Lemma small_merge a b : small a -> small b -> small (m_merge a b).
Proof. rewrite !small_sub. apply sub_merge. Qed.
Lemma small_failed {E} (a b : FailedModules E) : small (fm_modules a) -> small (fm_modules b) ->
  small (fm_modules (failed_merge a b)).
Proof. rewrite !small_sub. apply sub_failed_merge. Qed.
Lemma small_0 : small 0. Proof. reflexivity. Qed.
Lemma small_filter {A} m (d : list A) f : small m -> small (fst (filter_module_data m d f)).
Proof. intros H. exact (small_sub_of _ _ H (sub_filter m d f)). Qed.
Lemma small_u64 m : u64 m = true <-> small m.
Proof. unfold u64, small. apply N.ltb_lt. Qed.

Section Sent.
  Context {St : Type} (sp : St -> Rpc -> St * reply) (Hsp : answers_in_range sp).
  Local Notation hoare := (hoare sp).
  Local Notation made c Q := (hoare fine c Q).

  Definition about_ok (resp : Rpc) : Prop := forall r, msg_body (rpc_message resp) = BSpResponse r ->
    match r with SMacAddrs _ => True | _ => small (resp_modules r) /\ small (resp_failed r) end.
  Lemma mk_rpc q d : well_made q d -> made (rpc sp q d) about_ok.
  Proof.
    intros H. apply hoare_rpc; [exact H|]. intros w resp Hr r Er. apply Hsp in Hr; [|exact (proj1 H)]. rewrite Er in Hr. cbn [wf_body] in Hr.
    destruct r; cbn [wf_sp_response resp_modules resp_failed] in *; try exact I;
      repeat (apply andb_true_iff in Hr; destruct Hr as [Hr ?]); split; now apply small_u64.
  Qed.
  Lemma hw_small f data fl : ctl_hw_errors f data = Ok fl -> fm_modules fl = f.
  Proof. unfold ctl_hw_errors. destruct (omap_err _ _); cbn; try discriminate. now intros [= <-]. Qed.
  Ltac outc H := repeat match type of H with
    | obind ?x _ = Ok _ => let y := fresh "y" in let E := fresh "E" in
        destruct x as [y| |] eqn:E; cbn [obind] in H; try discriminate
    | (if ?b then _ else _) = Ok _ => let E := fresh "E" in destruct b eqn:E; try discriminate
    end.
  Ltac fin H := outc H; injection H as <-; split; cbn [mr_modules mr_failures ack_new]; [assumption|erewrite hw_small by eassumption; assumption].
  Ltac asked := eapply hoare_bind; [apply mk_rpc|];
    [|intros resp Hi; destruct (msg_body (rpc_message resp)) as [| |r0| |] eqn:E; try (apply hoare_ret; discriminate);
      pose proof (Hi _ E) as Hm; destruct r0; try (apply hoare_ret; discriminate);
      destruct Hm as [? ?]; cbn [resp_modules resp_failed] in *; apply hoare_ret; intros a Ha; fin Ha].

  Lemma mk_npr q : well_made q None -> made (no_payload_request sp q) rsmall.
  Proof. intros H. unfold no_payload_request, unexpected. asked. exact H. Qed.
  Lemma mk_leds m : small m -> made (leds sp m) rsmall.
  Proof. intros H. unfold leds, unexpected. asked. split; [now apply small_u64|reflexivity]. Qed.
  Lemma mk_status m : small m -> made (ctl_status sp m) rsmall.
  Proof. intros H. unfold ctl_status, unexpected. asked. split; [now apply small_u64|reflexivity]. Qed.
  Lemma mk_ext m : small m -> made (extended_status sp m) rsmall.
  Proof. intros H. unfold extended_status, unexpected. asked. split; [now apply small_u64|reflexivity]. Qed.
  Lemma mk_macs : made (mac_addrs sp) (fun _ => True).
  Proof.
    unfold mac_addrs. eapply hoare_bind; [apply mk_rpc; split; reflexivity|]. intros resp _.
    unfold unexpected. repeat match goal with |- context [match ?x with _ => _ end] => destruct x end; now apply hoare_ret.
  Qed.
  Lemma mk_one m rd : small m -> wf_read rd = true -> made (read_impl_one_message sp m rd) rsmall.
  Proof.
    intros H Hr. unfold read_impl_one_message, unexpected. destruct (negb _); [apply hoare_ret; discriminate|].
    asked. split; [|reflexivity]. cbn [wf_host_request]. rewrite Hr, andb_true_r. now apply small_u64.
  Qed.
  Lemma rsmall_merge {P} (a b r : Result P) : rsmall a -> rsmall b -> result_merge a b = Some r -> rsmall r.
  Proof.
    intros [Ha Fa] [Hb Fb] E. rewrite small_sub in *. destruct (rin_merge full a b r) as [H K].
    - now split.
    - now split.
    - exact E.
    - split; now apply small_sub.
  Qed.
  Lemma mk_rest l rd : Forall small l -> wf_read rd = true -> forall r, rsmall r -> made (read_rest sp l rd r) rsmall.
  Proof.
    intros Hl Hrd. induction Hl as [|g l Hg Hl IH]; intros r Hr; cbn [read_rest].
    - apply hoare_ret. now intros a [= <-].
    - eapply hoare_bind; [now apply mk_one|]. intros a Ha. eapply hoare_bind; [apply (hoare_ret _ _ rsmall)|].
      + intros b Hb. destruct (result_merge r a) eqn:E; [|discriminate]. injection Hb as ->. exact (rsmall_merge _ _ _ Hr Ha E).
      + intros b Hb. now apply IH.
  Qed.
  Lemma rsmall_success {P} m (d : list P) r : small m -> opt_unwrap (E := Error) (result_success m d) = Ok r -> rsmall r.
  Proof. intros H. unfold result_success. destruct (Nat.eqb _ _); [|discriminate]. intros [= <-]. split; [exact H|apply small_0]. Qed.
  Lemma mk_read_impl m rd : small m -> wf_read rd = true -> made (read_impl sp m rd) rsmall.
  Proof.
    intros H Hr. unfold read_impl. destruct (_ || _).
    { apply hoare_ret. intros a. now apply rsmall_success. }
    eapply hoare_bind; [apply (hoare_ret _ _ (Forall small))|].
    - intros l Hl. apply split_sub in Hl. eapply Forall_impl; [|exact Hl]. intros g Hg. exact (small_sub_of _ _ H Hg).
    - intros [|g l] Hl; [apply hoare_ret; discriminate|]. apply Forall_cons_iff in Hl. destruct Hl as [Hg Hl].
      eapply hoare_bind; [now apply mk_one|]. intros a Ha. now apply mk_rest.
  Qed.
  Lemma mk_identifier m : small m -> made (identifier sp m) rsmall.
  Proof.
    intros H. unfold identifier. eapply hoare_bind; [apply (hoare_ret _ _ (fun rd => wf_read rd = true))|].
    - intros rd. vm_compute. now intros [= <-].
    - intros rd Hrd. eapply hoare_bind; [now apply mk_read_impl|]. intros r [H1 H2]. apply hoare_ret. intros a Ha. outc Ha.
      injection Ha as <-. now split.
  Qed.
  Lemma mk_read m rd : small m -> wf_read rd = true -> made (ctl_read sp m rd) rsmall.
  Proof.
    intros H Hrd. unfold ctl_read. destruct (_ || _).
    { apply hoare_ret. intros a. now apply rsmall_success. }
    eapply hoare_bind; [now apply mk_identifier|]. intros id [H1 H2].
    eapply hoare_bind; [apply (hoare_ret _ _ (fun _ => True)); auto|]. intros _ _.
    eapply hoare_bind; [now apply mk_read_impl|]. intros r [H3 H4]. apply hoare_ret. intros a [= <-].
    split; [exact H3|]. now apply small_failed.
  Qed.
  Lemma mk_write_impl m wr d : small m -> wf_write wr = true -> made (write_impl sp m wr d) rsmall.
  Proof.
    intros H Hw. unfold write_impl, unexpected. destruct (N.eqb_spec (wr_len wr) (Nlen d)) as [Hl|]; [|apply hoare_ret; discriminate].
    cbn [negb]. asked. split; [|now exists d]. cbn [wf_host_request]. rewrite Hw, andb_true_r. now apply small_u64.
  Qed.
  Lemma mk_write m wr d : small m -> wf_write wr = true -> made (ctl_write sp m wr d) rsmall.
  Proof.
    intros H Hw. unfold ctl_write. eapply hoare_bind; [now apply mk_identifier|]. intros id [H1 H2].
    eapply hoare_bind; [apply (hoare_ret _ _ (fun _ => True)); auto|]. intros _ _.
    eapply hoare_bind; [now apply mk_write_impl|]. intros r [H3 H4]. apply hoare_ret. intros a [= <-].
    split; [exact H3|]. now apply small_failed.
  Qed.
  Lemma mk_sleep t : made (sleep t) (fun _ => True).
  Proof. now apply hoare_sleep. Qed.
  Lemma mk_pin (q : N -> HostRequest) m : small m -> (forall m, wf_host_request (q m) = u64 m) ->
    (forall m, match q m with HWrite _ _ => False | _ => True end) -> well_made (q m) None.
  Proof.
    intros H E K. split; [rewrite E; now apply small_u64|]. specialize (K m). destruct (q m); try reflexivity. destruct K.
  Qed.
  Lemma mk_reset m : small m -> made (reset sp m) rsmall.
  Proof.
    intros H. unfold reset. eapply hoare_bind; [now apply mk_npr, (mk_pin HAssertReset)|]. intros a [H1 H2].
    eapply hoare_bind; [apply mk_sleep|]. intros _ _. eapply hoare_bind; [now apply mk_npr, (mk_pin HDeassertReset)|]. intros b [H3 H4].
    eapply hoare_bind; [apply mk_sleep|]. intros _ _. apply hoare_ret. intros r [= <-].
    split; [exact H3|now apply small_failed].
  Qed.
  Lemma mk_each m l : small m -> Forall (fun rd => wf_read rd = true) l -> made (read_each sp m l) (fun _ => True).
  Proof.
    intros H. induction 1 as [|rd l Hrd Hl IH]; cbn [read_each]; [now apply hoare_ret|].
    eapply hoare_bind; [now apply mk_read_impl|]. intros r _. eapply hoare_bind; [apply IH|]. intros rs _. now apply hoare_ret.
  Qed.
  Definition psmall {P} (s : parsing P) : Prop := small (ps_modules s) /\ small (ps_failed s).
  Lemma mk_groups {P} reads (parse : Identifier -> list (list N) -> outcome DecodeError P) l : reads_in_range reads ->
    Forall (fun g => small (snd g)) l -> forall s, psmall s -> made (parse_groups sp reads parse l s) psmall.
  Proof.
    intros Hreads. induction 1 as [|[id m] l Hm Hl IH]; intros s Hs; cbn [parse_groups].
    - apply hoare_ret. now intros a [= <-].
    - eapply hoare_bind; [apply (hoare_ret _ _ (Forall (fun rd => wf_read rd = true)))|].
      + intros rds E. apply Forall_forall. intros rd Hrd. destruct (reads id) as [l0| |] eqn:Er; try discriminate.
        cbn in E. injection E as <-. exact (Hreads id l0 rd Er Hrd).
      + intros rds Hrds. eapply hoare_bind; [now apply mk_each|]. intros rs _.
        eapply hoare_bind; [apply (hoare_ret _ _ psmall)|].
        * intros s' E. destruct (parse_each_in parse full id rs (to_indices m) s s') as [K1 K2]; try exact E.
          { intros i Hi. apply in_to_indices in Hi. apply small_sub in Hm. now apply Hm. }
          { destruct Hs as [S1 S2]. split; now apply small_sub. }
          split; now apply small_sub.
        * intros s' Hs'. now apply IH.
  Qed.
  Lemma groups_small m ids gs : small m -> split_modules_by_identifier m ids = Ok gs -> Forall (fun g => small (snd g)) gs.
  Proof.
    intros H E. apply groups_sub in E. eapply Forall_impl; [|exact E]. intros g Hg. exact (small_sub_of _ _ H Hg).
  Qed.
  Lemma mk_parse {P} reads (parse : Identifier -> list (list N) -> outcome DecodeError P) m : reads_in_range reads -> small m ->
    made (parse_modules_by_identifier sp reads parse m) rsmall.
  Proof.
    intros Hreads H. unfold parse_modules_by_identifier. eapply hoare_bind; [now apply mk_identifier|]. intros id [H1 H2].
    eapply hoare_bind; [apply (hoare_ret _ _ (Forall (fun g => small (snd g)))); intros gs; now apply groups_small|].
    intros gs Hgs. eapply hoare_bind; [apply mk_groups; [exact Hreads|exact Hgs|now split]|].
    intros s [H3 H4]. apply hoare_ret. intros a [= <-]. now split.
  Qed.
  Lemma power_in_range : reads_in_range power_reads.
  Proof.
    intros id rds rd. unfold power_reads. destruct (is_sff id); [|destruct (is_cmis id); [|discriminate]];
      vm_compute; intros [= <-] [<-|[]]; reflexivity.
  Qed.
  Lemma mk_power m : small m -> made (power sp m) rsmall.
  Proof.
    intros H. unfold power. eapply hoare_bind; [now apply mk_status|]. intros st [H1 H2].
    match goal with |- context [filter_module_data (mr_modules st) (mr_data st) ?f] =>
      pose proof (small_filter (mr_modules st) (mr_data st) f H1) as Hp; destruct (filter_module_data (mr_modules st) (mr_data st) f) as [pw ps] end.
    cbn [fst] in Hp.
    match goal with |- context [filter_module_data pw ps ?f] =>
      pose proof (small_filter pw ps f Hp) as Hir; destruct (filter_module_data pw ps f) as [ir ps2] end.
    cbn [fst] in Hir. unfold remove_module_data. set (rd := m_remove pw ir). set (rs := map snd _).
    assert (Hrd : small rd) by now apply small_remove.
    apply (hoare_bind _ _ _ rsmall).
    - destruct (Nat.eqb _ _).
      + apply hoare_ret. intros a [= <-]. split; apply small_0.
      + unfold power_control. eapply hoare_bind; [apply mk_parse; [apply power_in_range|exact Hrd]|]. intros c Hc.
        destruct (filter_module_data _ _ _). apply hoare_ret. intros a [= <-]. exact Hc.
    - intros r [H3 H4]. unfold merge_module_data. apply hoare_ret. intros a [= <-]. split; cbn [mr_modules mr_failures].
      + apply small_merge; [|exact H3]. apply small_merge; [|exact Hir]. now apply small_remove.
      + now apply small_failed.
  Qed.
  Definition ssmall (s : soft) : Prop := small (fst (fst s)) /\ small (fm_modules (snd s)).
  Lemma word_wf id o st ww : power_word id o st = Ok ww -> wf_write (fst ww) = true.
  Proof.
    unfold power_word. destruct (_ || _); [|destruct (_ || _); [|discriminate]]; cbn; intros [= <-]; reflexivity.
  Qed.
  Lemma mk_soft_write id st o m s : small m -> ssmall s -> made (soft_write sp id st o m s) ssmall.
  Proof.
    intros Hm. destruct s as [[a b] c]. intros [H1 H2]. cbn [soft_write].
    eapply hoare_bind; [apply (hoare_ret _ _ (fun ww => wf_write (fst ww) = true)); apply word_wf|]. intros ww Hw.
    eapply hoare_bind; [now apply mk_write_impl|]. intros r [H3 H4]. unfold remove_module_data. apply hoare_ret. intros q [= <-].
    split; cbn [fst snd]; [now apply small_remove|now apply small_failed].
  Qed.
  Lemma mk_soft_groups st l : Forall (fun g => small (snd g)) l -> forall s, ssmall s -> made (soft_groups sp st l s) ssmall.
  Proof.
    induction 1 as [|[id m] l Hm Hl IH]; intros s Hs; cbn [soft_groups].
    - apply hoare_ret. now intros a [= <-].
    - destruct s as [[a b] c]. cbn in Hm.
      match goal with |- context [filter_module_data a b ?f] =>
        pose proof (small_filter a b f (proj1 Hs)) as H1; destruct (filter_module_data a b f) as [wo l1] end.
      match goal with |- context [filter_module_data m b ?f] =>
        pose proof (small_filter m b f Hm) as H2; destruct (filter_module_data m b f) as [wo2 l2] end.
      eapply hoare_bind; [now apply mk_soft_write|]. intros s1 Hs1.
      eapply hoare_bind; [now apply mk_soft_write|]. intros s2 Hs2. now apply IH.
  Qed.
  Lemma mk_ssps pr st : rsmall pr -> made (set_software_power_state sp pr st) rsmall.
  Proof.
    intros [H1 H2]. unfold set_software_power_state. destruct st; try (apply hoare_ret; discriminate);
    (eapply hoare_bind; [apply mk_identifier, H1|]; intros id [H3 H4];
     eapply hoare_bind; [apply (hoare_ret _ _ (Forall (fun g => small (snd g)))); intros gs; now apply groups_small|];
     intros gs Hgs; unfold keep_module_data, remove_module_data;
     eapply hoare_bind;
     [apply mk_soft_groups; [exact Hgs|split; cbn [fst snd]; [now apply small_remove|now apply small_failed]]
     |intros s [H5 H6]; apply hoare_ret; intros a [= <-]; now split]).
  Qed.
  Ltac pin_ := first [apply (mk_pin HDisablePower)|apply (mk_pin HEnablePower)|apply (mk_pin HAssertReset)|apply (mk_pin HDeassertReset)
                    |apply (mk_pin HAssertLpMode)|apply (mk_pin HDeassertLpMode)]; [assumption|reflexivity|exact (fun _ => I)].
  Lemma mk_set_power m st : small m -> made (set_power sp m st) rsmall.
  Proof.
    intros H.
    assert (Hon : made (set_power_on sp m st) rsmall).
    { unfold set_power_on. eapply hoare_bind; [now apply mk_power|]. intros p [P1 P2].
      destruct (_ && _); [apply hoare_ret; discriminate|].
      eapply hoare_bind; [apply mk_status, P1|]. intros s [S1 S2].
      match goal with |- context [filter_module_data (mr_modules s) (mr_data s) ?f] =>
        pose proof (small_filter (mr_modules s) (mr_data s) f S1) as Hnpe;
        destruct (filter_module_data (mr_modules s) (mr_data s) f) as [npe l1] end.
      match goal with |- context [filter_module_data (mr_modules s) (mr_data s) ?f] =>
        destruct (filter_module_data (mr_modules s) (mr_data s) f) as [nrd l2] end.
      cbn [fst] in Hnpe.
      assert (F0 : small (fm_modules (failed_merge (mr_failures p) (mr_failures s)))) by now apply small_failed.
      set (fl := failed_merge (mr_failures p) (mr_failures s)) in *. clearbody fl.
      assert (Hnr : small (m_remove npe nrd)) by now apply small_remove.
      set (Q := fun s : ModuleId * Failures => small (fst s) /\ small (fm_modules (snd s))).
      apply (hoare_bind _ _ _ Q).
      { destruct (Nat.ltb _ _).
        - eapply hoare_bind; [apply mk_npr; pin_|]. intros a [A1 A2]. eapply hoare_bind; [apply mk_sleep|]. intros _ _.
          apply hoare_ret. intros q [= <-]. split; [exact A1|now apply small_failed].
        - apply hoare_ret. intros q [= <-]. split; assumption. }
      intros s1 [A1 A2]. apply (hoare_bind _ _ _ Q).
      { destruct (Nat.ltb _ _).
        - eapply hoare_bind; [apply mk_npr; pin_|]. intros a [B1 B2].
          apply hoare_ret. intros q [= <-]. split; [exact B1|now apply small_failed].
        - apply hoare_ret. intros q [= <-]. split; assumption. }
      intros s2 [B1 B2]. apply (hoare_bind _ _ _ rsmall). { destruct st; apply mk_npr; pin_. }
      intros lp [C1 C2]. apply (hoare_bind _ _ _ Q).
      { destruct (Nat.ltb _ _).
        - eapply hoare_bind; [apply mk_npr; pin_|]. intros a [D1 D2]. eapply hoare_bind; [apply mk_sleep|]. intros _ _.
          apply hoare_ret. intros q [= <-]. split; [exact D1|]. apply small_failed; [now apply small_failed|exact D2].
        - apply hoare_ret. intros q [= <-]. split; [exact C1|now apply small_failed]. }
      intros s4 [D1 D2]. unfold keep_module_data, remove_module_data. apply mk_ssps. split; assumption. }
    destruct st; cbn [set_power]; try exact Hon.
    unfold set_power_off. eapply hoare_bind; [apply mk_npr; pin_|]. intros a [A1 A2].
    eapply hoare_bind; [apply mk_npr; pin_|]. intros b [B1 B2].
    eapply hoare_bind; [apply mk_npr; pin_|]. intros c [C1 C2]. apply hoare_ret. intros r [= <-].
    split; [exact C1|]. apply small_failed; [now apply small_failed|exact C2].
  Qed.
  Lemma made_well {A} (c : ctl (St := St) A) Q : made c Q -> makes_well c.
  Proof.
    intros H w q d Hin. pose proof (hoare_deeds _ _ _ w H) as K. rewrite Forall_forall in K. exact (K _ Hin).
  Qed.
  Lemma all_well_made m : m < 2 ^ 64 ->
    makes_well (leds sp m) /\ makes_well (ctl_status sp m) /\ makes_well (extended_status sp m) /\
    makes_well (identifier sp m) /\ makes_well (reset sp m) /\ makes_well (power sp m) /\ makes_well (mac_addrs sp) /\
    (forall q, wf_host_request q = true -> (forall m wr, q <> HWrite m wr) -> makes_well (no_payload_request sp q)) /\
    (forall rd, wf_read rd = true -> makes_well (ctl_read sp m rd)) /\
    (forall wr data, wf_write wr = true -> makes_well (ctl_write sp m wr data)) /\
    (forall st, makes_well (set_power sp m st)) /\
    (forall P reads (parse : Identifier -> list (list N) -> outcome DecodeError P), reads_in_range reads ->
       makes_well (parse_modules_by_identifier sp reads parse m)).
  Proof.
    intros H.
    assert (X : forall A (c : ctl (St := St) A) Q, made c Q -> makes_well c) by (intros; eapply made_well; eassumption).
    split; [exact (X _ _ _ (mk_leds m H))|]. split; [exact (X _ _ _ (mk_status m H))|]. split; [exact (X _ _ _ (mk_ext m H))|].
    split; [exact (X _ _ _ (mk_identifier m H))|]. split; [exact (X _ _ _ (mk_reset m H))|].
    split; [exact (X _ _ _ (mk_power m H))|]. split; [exact (X _ _ _ mk_macs)|].
    split.
    { intros q Hq Hn. eapply X. apply mk_npr. split; [exact Hq|]. destruct q; try reflexivity. exfalso. eapply Hn. reflexivity. }
    split; [intros rd Hrd; exact (X _ _ _ (mk_read m rd H Hrd))|].
    split; [intros wr data Hw; exact (X _ _ _ (mk_write m wr data H Hw))|].
    split; [intros st; exact (X _ _ _ (mk_set_power m st H))|].
    intros P reads parse Hr. exact (X _ _ _ (mk_parse reads parse m Hr H)).
  Qed.
End Sent.

Lemma queries_in_range : Forall reads_in_range [vendor_reads; memory_reads; power_reads; monitor_reads; datapath_reads].
Proof.
  repeat constructor; try exact power_in_range; intros id rds rd;
    unfold vendor_reads, memory_reads, monitor_reads, datapath_reads;
    repeat match goal with |- context [if ?b then _ else _] => destruct b end; try discriminate;
    vm_compute; intros [= <-]; cbn; intuition (subst; reflexivity).
Qed.
(** An SP that answers for each module answers in range. *)
Lemma honest_in_range {St} (a : honest St) : answers_in_range (honest_sp a).
Proof.
  intros s r resp Hw. unfold honest_sp. destruct (msg_body (rpc_message r)) as [|q| | |] eqn:Eb; try discriminate.
  cbn [snd]. unfold honest_reply. set (f := hs_verdict a s q (rpc_data r)). set (m := request_modules q). intros [= <-].
  assert (Hq : wf_host_request q = true).
  { unfold wf_message in Hw. rewrite Eb in Hw. apply andb_prop in Hw. tauto. }
  assert (Hp : forall g, port_mask (filter g (to_indices m)) <? 2 ^ 64 = true).
  { intros g. apply N.ltb_lt, mask_ok_lt, mask_ok_testbit. intros i Hi. apply port_mask_in in Hi. apply filter_In in Hi.
    destruct Hi as [Hi _]. apply in_to_indices in Hi. tauto. }
  cbn [rpc_message message_new msg_body wf_body].
  destruct q; cbn [response_to wf_sp_response]; unfold u64, good_ports, bad_ports; rewrite !Hp; try reflexivity;
    cbn [wf_host_request] in Hq; apply andb_prop in Hq; tauto.
Qed.
