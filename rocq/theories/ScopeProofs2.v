(** Proofs about which modules calls touch (C63). *)
From Verif Require Export ScopeProofs.
From Verif Require Import Tac Spec ModuleIdProofs ModuleIdProps ResultsProofs ControllerProofs ControllerProofs3
  ControllerProofs5.

Definition sub (a m : N) : Prop := forall i, N.testbit a i = true -> N.testbit m i = true.
Definition rin {P} (m : N) (r : Result P) : Prop := sub (mr_modules r) m /\ sub (fm_modules (mr_failures r)) m.
Definition touch (m : N) (x : done) : Prop := match x with DRequest q _ => sub (request_modules q) m | DSleep _ => True end.

Lemma sub_refl m : sub m m. Proof. now intros i. Qed.
Lemma sub_trans a b c : sub a b -> sub b c -> sub a c. Proof. intros H K i Hi. auto. Qed.
Lemma sub_0 m : sub 0 m. Proof. intros i. now rewrite N.bits_0. Qed.
Lemma sub_remove a b : sub (m_remove a b) a.
Proof. intros i. unfold m_remove. rewrite N.land_spec. now destruct (N.testbit a i). Qed.
Lemma sub_merge a b m : sub a m -> sub b m -> sub (m_merge a b) m.
Proof. intros H K i. rewrite m_merge_spec. destruct (N.testbit a i) eqn:E; auto. Qed.
Lemma sub_filter {A} m (d : list A) f : sub (fst (filter_module_data m d f)) m.
Proof.
  intros i. unfold filter_module_data. cbn [fst]. rewrite fold_lor_spec. unfold m_empty. rewrite N.bits_0. cbn [orb].
  rewrite existsb_eqb_in, in_map_iff. intros ((j & x) & E & Hj). apply filter_In in Hj. destruct Hj as [Hj _].
  unfold zip_data in Hj. apply in_combine_l in Hj. apply in_to_indices in Hj. cbn in E. subst. tauto.
Qed.
Lemma sub_failed_merge {E} (a b : FailedModules E) m : sub (fm_modules a) m -> sub (fm_modules b) m ->
  sub (fm_modules (failed_merge a b)) m.
Proof. intros H K. unfold failed_merge, merge_module_data. cbn [fm_modules]. now apply sub_merge. Qed.
Lemma rin_merge {P} m (a b r : Result P) : rin m a -> rin m b -> result_merge a b = Some r -> rin m r.
Proof.
  intros [Ha Fa] [Hb Fb]. unfold result_merge. destruct (negb _); [discriminate|]. destruct (negb _); [discriminate|].
  unfold without_failures_from, remove_module_data, merge_module_data. intros [= <-]. split.
  - cbn [mr_modules]. apply sub_merge; (eapply sub_trans; [apply sub_remove|assumption]).
  - cbn [mr_failures]. now apply sub_failed_merge.
Qed.
Lemma from_indices_sub l m m' : (forall i, In i l -> N.testbit m i = true) -> from_indices l = Ok m' -> sub m' m.
Proof.
  intros H E. apply from_indices_ok_iff in E. destruct E as [_ E]. intros i Hi. apply H.
  now apply E.
Qed.
Lemma chunks_fuel_in {A} fuel k (l : list A) c x : In c (chunks_fuel fuel k l) -> In x c -> In x l.
Proof.
  revert l. induction fuel as [|f IH]; intros l; cbn; [tauto|]. destruct l as [|y l]; [intros []|].
  intros [<-|H] Hx.
  - rewrite <- (firstn_skipn k (y :: l)). apply in_app_iff. now left.
  - rewrite <- (firstn_skipn k (y :: l)). apply in_app_iff. right. eauto.
Qed.
Lemma omapM_in {E A B} (f : A -> outcome E B) l r y : omapM f l = Ok r -> In y r -> exists x, In x l /\ f x = Ok y.
Proof.
  revert r. induction l as [|a l IH]; cbn; intros r.
  - intros [= <-] [].
  - destruct (f a) as [b| |] eqn:Ef; cbn; try discriminate. destruct (omapM f l) as [r'| |]; cbn; try discriminate.
    intros [= <-] [<-|H]; [eauto|]. destruct (IH _ eq_refl H) as (x & ? & ?). eauto.
Qed.
Lemma split_sub m rd l : split_large_reads m rd = Ok l -> Forall (fun g => sub g m) l.
Proof.
  unfold split_large_reads. destruct (rd_len rd =? 0); [discriminate|]. intros E. apply Forall_forall. intros g Hg.
  destruct (omapM_in _ _ _ _ E Hg) as (c & Hc & Ec).
  destruct (from_indices c) as [m'| |] eqn:Ef; try discriminate. injection Ec as ->.
  apply (from_indices_sub _ m) in Ef; [exact Ef|]. intros i Hi.
  unfold chunks in Hc. apply (chunks_fuel_in _ _ _ _ i) in Hc; [|exact Hi]. apply in_to_indices in Hc. tauto.
Qed.
Lemma insert_sub k p gs m : N.testbit m p = true -> Forall (fun g => sub (snd g) m) gs ->
  Forall (fun g => sub (snd g) m) (ident_insert k p gs).
Proof.
  intros Hp.
  assert (Hb : forall x, sub x m -> sub (N.lor x (N.shiftl 1 p)) m).
  { intros x Hx i. rewrite N.lor_spec, shiftl_bit. rewrite orb_true_iff. intros [H|H]; [auto|].
    apply N.eqb_eq in H. now subst. }
  induction 1 as [|[k' x] gs Hx Hg IH]; cbn [ident_insert].
  - repeat constructor. apply Hb, sub_0.
  - destruct (benum_eqb k k'); [constructor; [now apply Hb|exact Hg]|].
    destruct (benum_ltb k k'); constructor; auto; try (apply Hb, sub_0); constructor; auto.
Qed.
Lemma groups_sub m ids gs : split_modules_by_identifier m ids = Ok gs -> Forall (fun g => sub (snd g) m) gs.
Proof.
  unfold split_modules_by_identifier. destruct (Nat.eqb _ _); [|discriminate]. intros [= <-].
  assert (Hz : Forall (fun p => N.testbit m (fst p) = true) (zip_data m ids)).
  { apply Forall_forall. intros [i x] H. apply in_combine_l in H. apply in_to_indices in H. tauto. }
  assert (Hg : Forall (fun g => sub (snd g) m) (@nil (Identifier * ModuleId))) by constructor.
  revert Hg. generalize (@nil (Identifier * ModuleId)). induction Hz as [|p l Hp Hl IH]; intros gs Hg; cbn; [exact Hg|].
  apply IH. now apply insert_sub.
Qed.

Section Scope.
  Context {St : Type} (sp : St -> Rpc -> St * reply) (Hsp : scoped sp).

  Local Notation hoare := (hoare sp).
  Lemma scoped_reply (w : world St) q d resp r : snd (sp (w_sp w) (req w q d)) = Ok resp ->
    msg_body (rpc_message resp) = BSpResponse r ->
    sub (resp_modules r) (request_modules q) /\ sub (resp_failed r) (request_modules q).
  Proof.
    intros H E. pose proof (Hsp _ _ _ _ _ _ H E) as K.
    split; intros i Hi; apply member_testbit; apply K; [left|right]; now apply member_testbit.
  Qed.
  Definition inscope (q : HostRequest) (resp : Rpc) : Prop := forall r, msg_body (rpc_message resp) = BSpResponse r ->
    sub (resp_modules r) (request_modules q) /\ sub (resp_failed r) (request_modules q).
  Lemma in_rpc m q d : sub (request_modules q) m -> hoare (touch m) (rpc sp q d) (inscope q).
  Proof. intros H. apply hoare_rpc; [exact H|]. intros w resp Hr r. now apply (scoped_reply w q d). Qed.
  Lemma hw_errors_sub f data fl : ctl_hw_errors f data = Ok fl -> fm_modules fl = f.
  Proof.
    unfold ctl_hw_errors. destruct (omap_err _ _); cbn; try discriminate. now intros [= <-].
  Qed.
  Ltac outc H := repeat match type of H with
    | obind ?x _ = Ok _ => let y := fresh "y" in let E := fresh "E" in
        destruct x as [y| |] eqn:E; cbn [obind] in H; try discriminate
    | (if ?b then _ else _) = Ok _ => let E := fresh "E" in destruct b eqn:E; try discriminate
    end.
  Ltac fin H m := outc H; injection H as <-; split; cbn [mr_modules mr_failures ack_new]; [|erewrite hw_errors_sub by eassumption];
        eapply sub_trans; try eassumption.

  Lemma in_npr m q : sub (request_modules q) m -> hoare (touch m) (no_payload_request sp q) (rin m).
  Proof.
    intros H. unfold no_payload_request, unexpected. eapply hoare_bind; [now apply in_rpc|]. intros resp Hi.
    destruct (msg_body (rpc_message resp)) eqn:E; try (apply hoare_ret; discriminate).
    destruct (Hi _ E) as [H1 H2]. destruct r; try (apply hoare_ret; discriminate).
    apply hoare_ret. intros a Ha. fin Ha m.
  Qed.
  Lemma in_leds m : hoare (touch m) (leds sp m) (rin m).
  Proof.
    unfold leds, unexpected. eapply hoare_bind; [apply in_rpc, sub_refl|]. intros resp Hi.
    destruct (msg_body (rpc_message resp)) eqn:E; try (apply hoare_ret; discriminate).
    destruct (Hi _ E) as [H1 H2]. destruct r; try (apply hoare_ret; discriminate).
    apply hoare_ret. intros a Ha. fin Ha m; apply sub_refl.
  Qed.
  Lemma in_status m x : sub x m -> hoare (touch m) (ctl_status sp x) (rin x).
  Proof.
    intros Hx. unfold ctl_status, unexpected. eapply hoare_bind; [apply in_rpc, Hx|]. intros resp Hi.
    destruct (msg_body (rpc_message resp)) eqn:E; try (apply hoare_ret; discriminate).
    destruct (Hi _ E) as [H1 H2]. destruct r; try (apply hoare_ret; discriminate).
    apply hoare_ret. intros a Ha. fin Ha x; apply sub_refl.
  Qed.
  Lemma in_ext m : hoare (touch m) (extended_status sp m) (rin m).
  Proof.
    unfold extended_status, unexpected. eapply hoare_bind; [apply in_rpc, sub_refl|]. intros resp Hi.
    destruct (msg_body (rpc_message resp)) eqn:E; try (apply hoare_ret; discriminate).
    destruct (Hi _ E) as [H1 H2]. destruct r; try (apply hoare_ret; discriminate).
    apply hoare_ret. intros a Ha. fin Ha m; apply sub_refl.
  Qed.
  Lemma in_one m x rd : sub x m -> hoare (touch m) (read_impl_one_message sp x rd) (rin x).
  Proof.
    intros Hx. unfold read_impl_one_message, unexpected. destruct (negb _); [apply hoare_ret; discriminate|].
    eapply hoare_bind; [apply in_rpc, Hx|]. intros resp Hi.
    destruct (msg_body (rpc_message resp)) eqn:E; try (apply hoare_ret; discriminate).
    destruct (Hi _ E) as [H1 H2]. destruct r; try (apply hoare_ret; discriminate).
    apply hoare_ret. intros a Ha. fin Ha x; apply sub_refl.
  Qed.
  Lemma rin_sub {P} a b (r : Result P) : sub a b -> rin a r -> rin b r.
  Proof. intros H [H1 H2]. split; eapply sub_trans; eauto. Qed.
  Lemma in_rest m x l rd r : sub x m -> Forall (fun g => sub g x) l -> rin x r ->
    hoare (touch m) (read_rest sp l rd r) (rin x).
  Proof.
    intros Hx Hl. revert r. induction Hl as [|g l Hg Hl IH]; intros r Hr; cbn [read_rest].
    - apply hoare_ret. now intros a [= <-].
    - eapply hoare_bind; [apply (in_one m g); eapply sub_trans; eauto|]. intros a Ha.
      eapply hoare_bind; [apply (hoare_ret _ _ (rin x))|].
      + intros b Hb. destruct (result_merge r a) eqn:E; [|discriminate]. injection Hb as ->.
        eapply rin_merge; [exact Hr| |exact E]. eapply rin_sub; eauto.
      + intros b Hb. now apply IH.
  Qed.
  Lemma rin_success {P} m x (d : list P) r : sub x m -> opt_unwrap (E := Error) (result_success x d) = Ok r -> rin m r.
  Proof.
    intros Hx. unfold result_success. destruct (Nat.eqb _ _); [|discriminate]. intros [= <-]. split; [exact Hx|apply sub_0].
  Qed.
  Lemma in_read_impl m x rd : sub x m -> hoare (touch m) (read_impl sp x rd) (rin x).
  Proof.
    intros Hx. unfold read_impl. destruct (_ || _).
    { apply hoare_ret. intros a. apply rin_success, sub_refl. }
    eapply hoare_bind; [apply (hoare_ret _ _ (fun l => Forall (fun g => sub g x) l)); apply split_sub|].
    intros [|g l] Hl; [apply hoare_ret; discriminate|]. apply Forall_cons_iff in Hl. destruct Hl as [Hg Hl].
    eapply hoare_bind; [apply (in_one m g); eapply sub_trans; eauto|]. intros a Ha. apply in_rest; auto. eapply rin_sub; eauto.
  Qed.
  Lemma in_identifier m x : sub x m -> hoare (touch m) (identifier sp x) (rin x).
  Proof.
    intros Hx. unfold identifier. eapply hoare_bind; [apply (hoare_ret _ _ (fun _ => True)); auto|]. intros rd _.
    eapply hoare_bind; [now apply in_read_impl|]. intros r [H1 H2]. apply hoare_ret. intros a Ha. outc Ha.
    injection Ha as <-. split; assumption.
  Qed.
  Lemma in_read m rd : hoare (touch m) (ctl_read sp m rd) (rin m).
  Proof.
    unfold ctl_read. destruct (_ || _).
    { apply hoare_ret. intros a. apply rin_success, sub_refl. }
    eapply hoare_bind; [apply in_identifier, sub_refl|]. intros id [H1 H2].
    eapply hoare_bind; [apply (hoare_ret _ _ (fun _ => True)); auto|]. intros _ _.
    eapply hoare_bind; [apply in_read_impl, H1|]. intros r Hr. apply hoare_ret. intros a [= <-].
    apply (rin_sub _ _ _ H1) in Hr. destruct Hr as [H3 H4]. split; [exact H3|]. now apply sub_failed_merge.
  Qed.
  Lemma in_write_impl m x wr d : sub x m -> hoare (touch m) (write_impl sp x wr d) (rin x).
  Proof.
    intros Hx. unfold write_impl, unexpected. destruct (negb _); [apply hoare_ret; discriminate|].
    eapply hoare_bind; [apply in_rpc, Hx|]. intros resp Hi.
    destruct (msg_body (rpc_message resp)) eqn:E; try (apply hoare_ret; discriminate).
    destruct (Hi _ E) as [H1 H2]. destruct r; try (apply hoare_ret; discriminate).
    apply hoare_ret. intros a Ha. fin Ha x; apply sub_refl.
  Qed.
  Lemma in_write m wr d : hoare (touch m) (ctl_write sp m wr d) (rin m).
  Proof.
    unfold ctl_write. eapply hoare_bind; [apply in_identifier, sub_refl|]. intros id [H1 H2].
    eapply hoare_bind; [apply (hoare_ret _ _ (fun _ => True)); auto|]. intros _ _.
    eapply hoare_bind; [apply in_write_impl, H1|]. intros r Hr. apply hoare_ret. intros a [= <-].
    apply (rin_sub _ _ _ H1) in Hr. destruct Hr as [H3 H4]. split; [exact H3|]. now apply sub_failed_merge.
  Qed.
  Lemma in_sleep m t : hoare (touch m) (sleep t) (fun _ => True).
  Proof. now apply hoare_sleep. Qed.
  Lemma in_reset m : hoare (touch m) (reset sp m) (rin m).
  Proof.
    unfold reset. eapply hoare_bind; [apply in_npr, sub_refl|]. intros a [H1 H2].
    eapply hoare_bind; [apply in_sleep|]. intros _ _. eapply hoare_bind; [apply in_npr, H1|]. intros b [H3 H4].
    eapply hoare_bind; [apply in_sleep|]. intros _ _. apply hoare_ret. intros r [= <-].
    split; [exact H3|now apply sub_failed_merge].
  Qed.
  Lemma in_each m x l : sub x m -> hoare (touch m) (read_each sp x l) (fun _ => True).
  Proof.
    intros Hx. induction l as [|rd l IH]; cbn [read_each]; [now apply hoare_ret|].
    eapply hoare_bind; [now apply in_read_impl|]. intros r _. eapply hoare_bind; [apply IH|]. intros rs _. now apply hoare_ret.
  Qed.
  Definition pin {P} (m : N) (s : parsing P) : Prop := sub (ps_modules s) m /\ sub (ps_failed s) m.
  Lemma parse_fail_in {P} m (s s' : parsing P) i e : N.testbit m i = true -> pin m s -> parse_fail s i e = Ok s' -> pin m s'.
  Proof.
    intros Hi [H1 H2]. unfold parse_fail, m_clear, m_set. destruct (MAX_INDEX <=? i); [discriminate|]. cbn.
    intros [= <-]. split; cbn; intros j.
    - rewrite N.land_spec. destruct (N.testbit (ps_modules s) j) eqn:E; [auto|discriminate].
    - rewrite N.lor_spec, shiftl_bit, orb_true_iff. intros [H|H]; [auto|]. apply N.eqb_eq in H. now subst.
  Qed.
  Lemma parse_each_in {P} (parse : Identifier -> list (list N) -> outcome DecodeError P) m id rs l s s' :
    (forall i, In i l -> N.testbit m i = true) -> pin m s -> parse_each parse id rs l s = Ok s' -> pin m s'.
  Proof.
    revert s. induction l as [|i l IH]; intros s Hl Hs; cbn [parse_each]; [now intros [= <-]|].
    destruct (parse_one parse id rs s i) as [s1| |] eqn:E; cbn [obind]; try discriminate.
    apply IH; [intros j Hj; apply Hl; now right|].
    unfold parse_one in E. destruct (first_err rs i) as [e|].
    - eapply parse_fail_in; eauto. apply Hl. now left.
    - match type of E with obind ?x _ = _ => destruct x as [data| |] end; cbn [obind] in E; try discriminate.
      destruct (parse id data) as [x|e|]; [injection E as <-; exact Hs| |discriminate].
      eapply parse_fail_in; eauto. apply Hl. now left.
  Qed.
  Lemma in_groups {P} reads (parse : Identifier -> list (list N) -> outcome DecodeError P) m l s :
    Forall (fun g => sub (snd g) m) l -> pin m s -> hoare (touch m) (parse_groups sp reads parse l s) (pin m).
  Proof.
    intros Hl. revert s. induction Hl as [|[id x] l Hx Hl IH]; intros s Hs; cbn [parse_groups].
    - apply hoare_ret. now intros a [= <-].
    - eapply hoare_bind; [apply (hoare_ret _ _ (fun _ => True)); auto|]. intros rds _.
      eapply hoare_bind; [apply in_each, Hx|]. intros rs _.
      eapply hoare_bind; [apply (hoare_ret _ _ (pin m))|].
      + intros s'. apply parse_each_in; [|exact Hs]. intros i Hi. apply Hx. apply in_to_indices in Hi. cbn. tauto.
      + intros s' Hs'. now apply IH.
  Qed.
  Lemma in_parse {P} reads (parse : Identifier -> list (list N) -> outcome DecodeError P) m x : sub x m ->
    hoare (touch m) (parse_modules_by_identifier sp reads parse x) (rin x).
  Proof.
    intros Hx. unfold parse_modules_by_identifier. eapply hoare_bind; [now apply in_identifier|]. intros id [H1 H2].
    eapply hoare_bind; [apply (hoare_ret _ _ (fun l => Forall (fun g => sub (snd g) (mr_modules id)) l)); apply groups_sub|].
    intros gs Hgs. 
    assert (Hgs' : Forall (fun g => sub (snd g) x) gs).
    { eapply Forall_impl; [|exact Hgs]. intros g Hg. exact (sub_trans _ _ _ Hg H1). }
    eapply hoare_bind.
    - assert (K : hoare (touch m) (parse_groups sp reads parse gs
          (mkParsing (mr_modules id) (fm_modules (mr_failures id)) (fm_errors (mr_failures id)) [])) (pin x)).
      { assert (K : hoare (touch x) (parse_groups sp reads parse gs
          (mkParsing (mr_modules id) (fm_modules (mr_failures id)) (fm_errors (mr_failures id)) [])) (pin x)).
        { apply in_groups; [exact Hgs'|]. split; assumption. }
        intros w. destruct (K w) as (ds & G & Hd & HQ). exists ds. split; [exact G|]. split; [|exact HQ].
        eapply Forall_impl; [|exact Hd]. intros [q d|t]; cbn; [|auto]. intros Hq. exact (sub_trans _ _ _ Hq Hx). }
      exact K.
    - intros s [H3 H4]. apply hoare_ret. intros a [= <-]. split; assumption.
  Qed.
  Lemma in_power m : hoare (touch m) (power sp m) (rin m).
  Proof.
    unfold power. eapply hoare_bind; [apply in_status, sub_refl|]. intros st [H1 H2].
    destruct (filter_module_data (mr_modules st) (mr_data st) _) as [pw ps] eqn:E1.
    assert (Hpw : sub pw m).
    { pose proof (sub_filter (mr_modules st) (mr_data st) (fun (_ : N) s => st_contains s (N.lor ST_POWER_GOOD ST_ENABLED))) as K.
      rewrite E1 in K. eapply sub_trans; eauto. }
    destruct (filter_module_data pw ps _) as [ir ps2] eqn:E2.
    assert (Hir : sub ir m).
    { pose proof (sub_filter pw ps (fun (_ : N) s => st_contains s ST_RESET)) as K. rewrite E2 in K. eapply sub_trans; eauto. }
    unfold remove_module_data. set (rd := m_remove pw ir). set (rs := map snd _).
    assert (Hrd : sub rd m) by (eapply sub_trans; [apply sub_remove|exact Hpw]).
    apply (hoare_bind _ _ _ (rin m)).
    - destruct (Nat.eqb _ _).
      + apply hoare_ret. intros a [= <-]. split; apply sub_0.
      + unfold power_control. eapply hoare_bind; [apply in_parse, Hrd|]. intros c Hc.
        destruct (filter_module_data _ _ _). apply hoare_ret. intros a [= <-]. apply (rin_sub _ _ _ Hrd) in Hc. exact Hc.
    - intros r [H3 H4]. unfold merge_module_data. apply hoare_ret. intros a [= <-]. split; cbn [mr_modules mr_failures].
      + apply sub_merge; [|exact H3]. apply sub_merge; [|exact Hir]. eapply sub_trans; [apply sub_remove|exact H1].
      + now apply sub_failed_merge.
  Qed.
  Definition sin (m : N) (s : soft) : Prop := sub (fst (fst s)) m /\ sub (fm_modules (snd s)) m.
  Lemma in_soft_write m id st o x s : sub x m -> sin m s -> hoare (touch m) (soft_write sp id st o x s) (sin m).
  Proof.
    intros Hx. destruct s as [[a b] c]. intros [H1 H2]. cbn [soft_write].
    eapply hoare_bind; [apply (hoare_ret _ _ (fun _ => True)); auto|]. intros ww _.
    eapply hoare_bind; [apply in_write_impl, Hx|]. intros r Hr. unfold remove_module_data. apply hoare_ret. intros q [= <-].
    apply (rin_sub _ _ _ Hx) in Hr. destruct Hr as [H3 H4]. split; cbn [fst snd].
    - eapply sub_trans; [apply sub_remove|exact Hx].
    - now apply sub_failed_merge.
  Qed.
  Lemma in_soft_groups m st l s : Forall (fun g => sub (snd g) m) l -> sin m s ->
    hoare (touch m) (soft_groups sp st l s) (sin m).
  Proof.
    intros Hl. revert s. induction Hl as [|[id x] l Hx Hl IH]; intros s Hs; cbn [soft_groups].
    - apply hoare_ret. now intros a [= <-].
    - destruct s as [[a b] c]. cbn in Hx.
      destruct (filter_module_data a b _) as [wo l1] eqn:E1. destruct (filter_module_data x b _) as [wo2 l2] eqn:E2.
      assert (H1 : sub wo m).
      { pose proof (sub_filter a b (fun i m0 => m_contains x i && overridden m0)) as K. rewrite E1 in K.
        eapply sub_trans; [exact K|]. exact (proj1 Hs). }
      assert (H2 : sub wo2 m).
      { pose proof (sub_filter x b (fun i m0 => m_contains x i && negb (overridden m0))) as K. rewrite E2 in K.
        eapply sub_trans; [exact K|]. exact Hx. }
      eapply hoare_bind; [now apply in_soft_write|]. intros s1 Hs1.
      eapply hoare_bind; [now apply in_soft_write|]. intros s2 Hs2. now apply IH.
  Qed.
  Lemma in_ssps m pr st : rin m pr -> hoare (touch m) (set_software_power_state sp pr st) (rin m).
  Proof.
    intros [H1 H2]. unfold set_software_power_state. destruct st; try (apply hoare_ret; discriminate);
    (eapply hoare_bind; [apply in_identifier, H1|]; intros id Hid; apply (rin_sub _ _ _ H1) in Hid; destruct Hid as [H3 H4];
     eapply hoare_bind; [apply (hoare_ret _ _ (fun l => Forall (fun g => sub (snd g) (mr_modules id)) l)); apply groups_sub|];
     intros gs Hgs; unfold keep_module_data, remove_module_data;
     eapply hoare_bind;
     [apply in_soft_groups;
       [eapply Forall_impl; [|exact Hgs]; intros g Hg; exact (sub_trans _ _ _ Hg H3)
       |split; cbn [fst snd]; [eapply sub_trans; [apply sub_remove|exact H1]|now apply sub_failed_merge]]
     |intros s [H5 H6]; apply hoare_ret; intros a [= <-]; split; assumption]).
  Qed.
  Lemma in_set_power m st : hoare (touch m) (set_power sp m st) (rin m).
  Proof.
    assert (Hon : hoare (touch m) (set_power_on sp m st) (rin m)).
    { unfold set_power_on. eapply hoare_bind; [apply in_power|]. intros p [P1 P2].
      destruct (_ && _); [apply hoare_ret; discriminate|].
      eapply hoare_bind; [apply in_status, P1|]. intros s Hs. apply (rin_sub _ _ _ P1) in Hs. destruct Hs as [S1 S2].
      destruct (filter_module_data (mr_modules s) (mr_data s) _) as [npe l1] eqn:E1.
      assert (Hnpe : sub npe m).
      { pose proof (sub_filter (mr_modules s) (mr_data s) (fun (_ : N) s => negb (st_contains s (N.lor ST_POWER_GOOD ST_ENABLED)) || st_contains s ST_RESET)) as K.
        rewrite E1 in K. eapply sub_trans; eauto. }
      destruct (filter_module_data (mr_modules s) (mr_data s) (fun _ s => st_contains s ST_RESET)) as [nrd l2].
      assert (F0 : sub (fm_modules (failed_merge (mr_failures p) (mr_failures s))) m) by now apply sub_failed_merge.
      set (fl := failed_merge (mr_failures p) (mr_failures s)) in *. clearbody fl.
      assert (Hnr : sub (m_remove npe nrd) m) by (eapply sub_trans; [apply sub_remove|exact Hnpe]).
      set (Q := fun s : ModuleId * Failures => sub (fst s) m /\ sub (fm_modules (snd s)) m).
      apply (hoare_bind _ _ _ Q).
      { destruct (Nat.ltb _ _).
        - eapply hoare_bind; [apply in_npr, Hnr|]. intros a [A1 A2]. eapply hoare_bind; [apply in_sleep|]. intros _ _.
          apply hoare_ret. intros q [= <-]. split; [exact A1|now apply sub_failed_merge].
        - apply hoare_ret. intros q [= <-]. split; assumption. }
      intros s1 [A1 A2]. apply (hoare_bind _ _ _ Q).
      { destruct (Nat.ltb _ _).
        - eapply hoare_bind; [apply in_npr, Hnpe|]. intros a [B1 B2].
          apply hoare_ret. intros q [= <-]. split; [exact B1|now apply sub_failed_merge].
        - apply hoare_ret. intros q [= <-]. split; assumption. }
      intros s2 [B1 B2]. apply (hoare_bind _ _ _ (rin m)). { destruct st; apply in_npr; exact B1. }
      intros lp [C1 C2]. apply (hoare_bind _ _ _ Q).
      { destruct (Nat.ltb _ _).
        - eapply hoare_bind; [apply in_npr, Hnpe|]. intros a [D1 D2]. eapply hoare_bind; [apply in_sleep|]. intros _ _.
          apply hoare_ret. intros q [= <-]. split; [exact D1|]. apply sub_failed_merge; [now apply sub_failed_merge|exact D2].
        - apply hoare_ret. intros q [= <-]. split; [exact C1|now apply sub_failed_merge]. }
      intros s4 [D1 D2]. unfold keep_module_data, remove_module_data. apply in_ssps. split; assumption. }
    destruct st; cbn [set_power]; try exact Hon.
    unfold set_power_off. eapply hoare_bind; [apply in_npr, sub_refl|]. intros a [A1 A2].
    eapply hoare_bind; [apply in_npr, A1|]. intros b [B1 B2].
    eapply hoare_bind; [apply in_npr, B1|]. intros c [C1 C2]. apply hoare_ret. intros r [= <-].
    split; [exact C1|]. apply sub_failed_merge; [now apply sub_failed_merge|exact C2].
  Qed.

  Lemma hoare_confined {P} m (c : ctl (St := St) (Result P)) : hoare (touch m) c (rin m) -> confined m c.
  Proof.
    intros H. split.
    - intros w q d i Hin. pose proof (hoare_deeds _ _ _ w H) as K. rewrite Forall_forall in K.
      specialize (K _ Hin). cbn in K. rewrite !member_testbit. apply K.
    - intros w r i Hr. destruct (H w) as (_ & _ & _ & K). destruct (K r Hr) as [K1 K2].
      unfold succeeded, failed. rewrite !member_testbit. intros [|]; auto.
  Qed.
  Lemma all_confined m :
    confined m (leds sp m) /\ confined m (ctl_status sp m) /\ confined m (extended_status sp m) /\
    confined m (identifier sp m) /\ confined m (reset sp m) /\ confined m (power sp m) /\
    (forall q, request_modules q = m -> confined m (no_payload_request sp q)) /\
    (forall rd, confined m (ctl_read sp m rd)) /\ (forall wr data, confined m (ctl_write sp m wr data)) /\
    (forall st, confined m (set_power sp m st)) /\
    (forall P reads (parse : Identifier -> list (list N) -> outcome DecodeError P),
       confined m (parse_modules_by_identifier sp reads parse m)).
  Proof.
    repeat apply conj; intros; apply hoare_confined;
      auto using in_leds, in_status, in_ext, in_identifier, in_reset, in_power, in_read, in_write, in_set_power, @in_parse, sub_refl.
    apply in_npr. rewrite H. apply sub_refl.
  Qed.
End Scope.

Lemma honest_scoped {St} (a : honest St) : scoped (honest_sp a).
Proof.
  intros s h q d resp r. unfold honest_sp. cbn [rpc_message message_new msg_body snd]. unfold honest_reply.
  intros [= <-]. cbn [rpc_message message_new msg_body]. intros [= <-] i. rewrite !member_testbit.
  destruct q; cbn [response_to resp_modules resp_failed request_modules]; rewrite !port_mask_in; unfold good_ports, bad_ports;
  intros [H|H]; apply filter_In in H; destruct H as [H _]; apply in_to_indices in H; tauto.
Qed.

(** Calls with one request. *)
Lemma simple_exact St (sp : St -> Rpc -> St * reply) m s c q w : In (c, q) (simple_calls sp m s) -> deeds c w = [DRequest q None].
Proof. intros H. unfold simple_calls in H. cbn [In] in H. repeat (destruct H as [[= <- <-]|H]; [apply npr_exact|]). destruct H. Qed.
Lemma one_request St (sp : St -> Rpc -> St * reply) w q d {A} (k : Rpc -> ctl (St := St) A) :
  (forall resp w', exists x, k resp w' = (w', x)) -> deeds (cbind (rpc sp q d) k) w = [DRequest q d].
Proof.
  intros Hk. destruct (cbind (rpc sp q d) k w) as [w1 x] eqn:E. apply (deeds_grew _ _ _ _ _ E).
  unfold cbind in E. rewrite rpc_eq in E. destruct (snd (sp (w_sp w) (req w q d))) as [resp|e|].
  - destruct (Hk resp (stepped w q d (fst (sp (w_sp w) (req w q d))))) as (y & Ey). rewrite Ey in E. injection E as <- _. apply grew_stepped.
  - injection E as <- _. apply grew_stepped.
  - injection E as <- _. apply grew_stepped.
Qed.
Lemma query_exact St (sp : St -> Rpc -> St * reply) m w :
  deeds (leds sp m) w = [DRequest (HLedState m) None] /\ deeds (mac_addrs sp) w = [DRequest HMacAddrs None] /\
  deeds (ctl_status sp m) w = [DRequest (HStatus m) None] /\ deeds (extended_status sp m) w = [DRequest (HExtendedStatus m) None].
Proof.
  repeat split; apply one_request; intros resp w';
    repeat match goal with |- context [match ?x with _ => _ end _] => destruct x end; eexists; reflexivity.
Qed.
