(** What calls cost (C85). *)
From Coq Require Import Lia.
From Verif Require Export SpecCost.
From Verif Require Import Tac Spec ModuleIdProofs ModuleIdProps ResultsProofs ControllerProofs ControllerProofs3
  ControllerProofs5 ScopeProofs AccessProofs MainProofs SpecMessages.

(** As [takes], with [s] more for each pause. *)
Definition weigh (s d : N) (l : list done) : N :=
  fold_right (fun x n => match x with DRequest _ _ => d | DSleep t => t + s end + n) 0 l.
Lemma weigh_app s d a b : weigh s d (a ++ b) = weigh s d a + weigh s d b.
Proof. induction a as [|x a IH]; [reflexivity|]. cbn [app weigh fold_right]. fold (weigh s d (a ++ b)) (weigh s d a). rewrite IH. lia. Qed.
Lemma weigh_0 d l : weigh 0 d l = takes d l.
Proof. induction l as [|[q x|t] l IH]; [reflexivity|..]; cbn [weigh takes fold_right]; fold (weigh 0 d l) (takes d l); rewrite IH; lia. Qed.

Local Transparent to_indices.
Definition ceiling (s n p : N) (ds : list done) : Prop := forall d, weigh s d ds <= n * d + p.
Section Cost.
  Context {St : Type} (sp : St -> Rpc -> St * reply) {s0 : N}.
  Definition cost {A} (c : ctl (St := St) A) (n p : N) : Prop :=
    forall w, exists ds, went sp w (fst (c w)) ds /\ ceiling s0 n p ds.
  Lemma cost_weigh {A} (c : ctl (St := St) A) n p : cost c n p -> forall d w, weigh s0 d (deeds c w) <= n * d + p.
  Proof.
    intros H d w. destruct (H w) as (ds & Hg & Hd). apply went_grew in Hg. destruct (c w) as [w1 x] eqn:E. cbn in *.
    rewrite (deeds_grew _ _ _ _ _ E Hg). apply Hd.
  Qed.
  Lemma cost_more {A} (c : ctl (St := St) A) n p n' p' : cost c n p -> n <= n' -> p <= p' -> cost c n' p'.
  Proof. intros H Hn Hp w. destruct (H w) as (ds & Hg & Hd). exists ds. split; [exact Hg|]. intro d. specialize (Hd d). nia. Qed.
  Lemma cost_ret {A} (x : outcome Error A) : cost (cret x) 0 0.
  Proof. intro w. exists []. split; [apply went_refl|]. intro d. apply N.le_0_l. Qed.
  Lemma cost_bind {A B} (c : ctl (St := St) A) (f : A -> ctl B) n p n' p' :
    cost c n p -> (forall a, cost (f a) n' p') -> cost (cbind c f) (n + n') (p + p').
  Proof.
    intros Hc Hf w. destruct (Hc w) as (ds & Hg & Hd). unfold cbind. destruct (c w) as [w1 [a|e|]]; cbn in *.
    - destruct (Hf a w1) as (ds2 & Hg2 & Hd2). exists (ds ++ ds2). split; [eapply went_trans; eauto|].
      intro d. rewrite weigh_app. specialize (Hd d). specialize (Hd2 d). nia.
    - exists ds. split; [exact Hg|]. intro d. specialize (Hd d). nia.
    - exists ds. split; [exact Hg|]. intro d. specialize (Hd d). nia.
  Qed.
  Lemma cost_seq {A B} (c : ctl (St := St) A) (f : A -> ctl B) n p n' p' N P :
    cost c n p -> (forall a, cost (f a) n' p') -> n + n' <= N -> p + p' <= P -> cost (cbind c f) N P.
  Proof. intros H K L M. exact (cost_more _ _ _ _ _ (cost_bind c f n p n' p' H K) L M). Qed.
  Lemma cost_pure {A B} (x : outcome Error A) (f : A -> ctl (St := St) B) n p :
    (forall a, x = Ok a -> cost (f a) n p) -> cost (cbind (cret x) f) n p.
  Proof.
    intros H w. unfold cbind, cret. destruct x as [a|e|]; [exact (H a eq_refl w)| |];
      (exists []; split; [apply went_refl|]; intro d; cbn; lia).
  Qed.
  Lemma cost_rpc q d : cost (rpc sp q d) 1 0.
  Proof. intro w. exists [DRequest q d]. split; [apply went_rpc|]. intro k. cbn. lia. Qed.
  Lemma cost_sleep t : cost (sleep t) 0 (t + s0).
  Proof. intro w. exists [DSleep t]. split; [apply went_sleep|]. intro k. cbn. lia. Qed.

  Ltac asked := match goal with |- cost _ ?n ?p => change (cost ?c n p) with (cost c n p) end;
    apply (cost_bind _ _ 1 0 0 0); [apply cost_rpc|]; intro resp; unfold unexpected;
    repeat match goal with |- context [match ?x with _ => _ end] => destruct x end; apply cost_ret.
  Lemma cost_npr q : cost (no_payload_request sp q) 1 0.
  Proof. unfold no_payload_request. asked. Qed.
  Lemma cost_leds m : cost (leds sp m) 1 0.
  Proof. unfold leds. asked. Qed.
  Lemma cost_status m : cost (ctl_status sp m) 1 0.
  Proof. unfold ctl_status. asked. Qed.
  Lemma cost_ext m : cost (extended_status sp m) 1 0.
  Proof. unfold extended_status. asked. Qed.
  Lemma cost_macs : cost (mac_addrs sp) 1 0.
  Proof. unfold mac_addrs. asked. Qed.
  Lemma cost_write_impl m wr d : cost (write_impl sp m wr d) 1 0.
  Proof.
    unfold write_impl. destruct (negb _); [apply (cost_more _ 0 0); [apply cost_ret|lia|lia]|]. asked.
  Qed.
  Lemma cost_one m rd : cost (read_impl_one_message sp m rd) 1 0.
  Proof.
    unfold read_impl_one_message. destruct (negb _); [apply (cost_more _ 0 0); [apply cost_ret|lia|lia]|].
    apply (cost_bind _ _ 1 0 0 0); [apply cost_rpc|]. intro resp. unfold unexpected.
    destruct (msg_body (rpc_message resp)) as [| |r| |]; try apply cost_ret. destruct r; apply cost_ret.
  Qed.
  Lemma cost_rest l rd : forall r, cost (read_rest sp l rd r) (N.of_nat (length l)) 0.
  Proof.
    induction l as [|m l IH]; intro r; cbn [read_rest length]; [apply cost_ret|].
    replace (N.of_nat (S (length l))) with (1 + N.of_nat (length l)) by lia.
    apply (cost_bind _ _ 1 0 _ 0); [apply cost_one|]. intro x. apply cost_pure. intros y _. apply IH.
  Qed.

  Lemma chunks_few {A} k fuel : (0 < k)%nat -> forall l : list A, (length (chunks_fuel fuel k l) * k < length l + k)%nat.
  Proof.
    intro Hk. induction fuel as [|fuel IH]; intro l; cbn [chunks_fuel]; [cbn; lia|]. destruct l as [|x l]; [cbn; lia|].
    cbn [length]. specialize (IH (skipn k (x :: l))). rewrite skipn_length in IH. cbn [length] in IH.
    destruct (Nat.le_gt_cases k (S (length l))) as [H|H]; [nia|].
    rewrite skipn_all2 by (cbn; lia). assert (E : chunks_fuel fuel k (@nil A) = []) by (now destruct fuel). rewrite E. cbn [length]. nia.
  Qed.
  Lemma omapM_long {E A B} (f : A -> outcome E B) l : forall r, omapM f l = Ok r -> length r = length l.
  Proof.
    induction l as [|x l IH]; intros r H; cbn [omapM] in H; [now injection H as <-|].
    destruct (f x); try discriminate. cbn [obind] in H. destruct (omapM f l) as [r'| |]; try discriminate.
    cbn [obind] in H. injection H as <-. cbn [length]. now rewrite (IH r' eq_refl).
  Qed.
  Lemma filter_short {A} (f : A -> bool) l : (length (filter f l) <= length l)%nat.
  Proof. induction l as [|x l IH]; [reflexivity|]. cbn [filter]. destruct (f x); cbn [length]; lia. Qed.
  Lemma ports_64 m : (length (to_indices m) <= 64)%nat.
  Proof. unfold to_indices. pose proof (filter_short (m_contains m) (nrange 0 64)) as H. exact H. Qed.
  Lemma few_arith (n k L : nat) : (0 < k)%nat -> (L <= 64)%nat -> (n * k < L + k)%nat -> N.of_nat n <= 63 / N.of_nat k + 1.
  Proof.
    intros Hk HL H. enough (G : N.of_nat n - 1 <= 63 / N.of_nat k) by lia. apply N.div_le_lower_bound; [lia|].
    assert (C : N.of_nat n * N.of_nat k < 64 + N.of_nat k) by lia. nia.
  Qed.
  Local Opaque to_indices MAX_PAYLOAD_SIZE.
  Lemma per_message len : 1 <= len <= 255 -> exists k, Nat.div MAX_PAYLOAD_SIZE (N.to_nat len) = k /\ N.of_nat k = 1024 / len /\ (0 < k)%nat.
  Proof.
    intro H. eexists. split; [reflexivity|].
    assert (E : N.of_nat (Nat.div MAX_PAYLOAD_SIZE (N.to_nat len)) = 1024 / len).
    { rewrite Nnat.Nat2N.inj_div, Nnat.N2Nat.id. f_equal. }
    split; [exact E|]. assert (1 <= 1024 / len) by (apply N.div_le_lower_bound; lia). lia.
  Qed.
  Lemma split_few m rd gs : rd_len rd <= 255 -> split_large_reads m rd = Ok gs -> N.of_nat (length gs) <= rounds (rd_len rd).
  Proof.
    intros Hr. unfold split_large_reads, rounds. destruct (N.eqb_spec (rd_len rd) 0) as [|Hz]; [discriminate|]. intro H.
    apply omapM_long in H. rewrite H. destruct (per_message (rd_len rd) ltac:(lia)) as (k & -> & <- & Hk).
    exact (few_arith _ k _ Hk (ports_64 m) (chunks_few k (length (to_indices m)) Hk (to_indices m))).
  Qed.
  Lemma cost_read_impl m rd : rd_len rd <= 255 -> cost (read_impl sp m rd) (rounds (rd_len rd)) 0.
  Proof.
    intro H. unfold read_impl. destruct (_ || _); [apply (cost_more _ 0 0); [apply cost_ret|lia|lia]|].
    apply cost_pure. intros gs E. apply split_few in E; [|exact H]. destruct gs as [|g gs]; [apply (cost_more _ 0 0); [apply cost_ret|lia|lia]|].
    cbn [length] in E. apply (cost_more _ (1 + N.of_nat (length gs)) (0 + 0)); [|lia|lia].
    apply cost_bind; [apply cost_one|]. intro r. apply cost_rest.
  Qed.
  Lemma cost_identifier m : cost (identifier sp m) 1 0.
  Proof.
    unfold identifier. apply cost_pure. intros rd E. vm_compute in E. injection E as <-.
    apply (cost_bind _ _ 1 0 0 0); [apply cost_read_impl; cbn; lia|]. intro r. apply cost_ret.
  Qed.
  Lemma cost_read m rd : rd_len rd <= 255 -> cost (ctl_read sp m rd) (1 + rounds (rd_len rd)) 0.
  Proof.
    intro H. unfold ctl_read. destruct (_ || _); [apply (cost_more _ 0 0); [apply cost_ret|lia|lia]|].
    apply (cost_bind _ _ 1 0 _ 0); [apply cost_identifier|]. intro id. apply cost_pure. intros _ _.
    replace (rounds (rd_len rd)) with (rounds (rd_len rd) + 0) by lia.
    apply (cost_bind _ _ _ 0 0 0); [now apply cost_read_impl|]. intro r. apply cost_ret.
  Qed.
  Lemma cost_write m wr d : cost (ctl_write sp m wr d) 2 0.
  Proof.
    unfold ctl_write. apply (cost_bind _ _ 1 0 1 0); [apply cost_identifier|]. intro id. apply cost_pure. intros _ _.
    apply (cost_bind _ _ 1 0 0 0); [apply cost_write_impl|]. intro r. apply cost_ret.
  Qed.
  Lemma cost_reset m : cost (reset sp m) 2 (2000010 + 2 * s0).
  Proof.
    unfold reset. apply (cost_seq _ _ 1 0 1 (2000010 + 2 * s0) _ _); [apply cost_npr| |lia|lia]. intro a.
    apply (cost_seq _ _ 0 (10 + s0) 1 (2000000 + s0) _ _); [apply cost_sleep| |lia|lia]. intros _.
    apply (cost_seq _ _ 1 0 0 (2000000 + s0) _ _); [apply cost_npr| |lia|lia]. intro b.
    apply (cost_seq _ _ 0 (2000000 + s0) 0 0 _ _); [apply cost_sleep| |lia|lia]. intros _. apply cost_ret.
  Qed.

  (** ** Groups *)
  Definition total {A} (f : A -> N) (l : list A) : N := fold_right (fun x n => f x + n) 0 l.
  Lemma total_app {A} (f : A -> N) a b : total f (a ++ b) = total f a + total f b.
  Proof. induction a as [|x a IH]; [reflexivity|]. cbn [app total fold_right]. fold (total f (a ++ b)) (total f a). rewrite IH. lia. Qed.
  Lemma total_incl {A} (f : A -> N) s : forall l, NoDup l -> (forall x, In x l -> f x <> 0 -> In x s) -> total f l <= total f s.
  Proof.
    induction s as [|y s IH]; intros l Hn H.
    - induction l as [|x l IHl]; [reflexivity|]. cbn [total fold_right]. fold (total f l). inversion Hn; subst.
      assert (f x = 0) by (destruct (N.eq_dec (f x) 0); [assumption|]; exfalso; exact (H x (or_introl eq_refl) n)).
      specialize (IHl ltac:(assumption) (fun z Hz => H z (or_intror Hz))). cbn [total fold_right] in IHl. lia.
    - cbn [total fold_right]. fold (total f s).
      assert (D : (exists a b, l = a ++ y :: b) \/ forall x, In x l -> f x <> 0 -> In x s).
      { clear IH. revert H. induction l as [|x l IHl]; intro H; [right; intros ? []|]. inversion Hn as [|? ? Hx Hl]; subst.
        destruct (IHl Hl (fun z Hz => H z (or_intror Hz))) as [(a & b & ->)|G]; [left; now exists (x :: a), b|].
        destruct (N.eq_dec (f x) 0) as [E|E]; [right; intros z [<-|Hz] Fz; [contradiction|now apply G]|].
        destruct (H x (or_introl eq_refl) E) as [<-|Hs]; [left; now exists [], l|].
        right. intros z [<-|Hz] Fz; [exact Hs|now apply G]. }
      destruct D as [(a & b & ->)|G].
      + apply NoDup_remove in Hn. destruct Hn as [Hn Hy]. rewrite total_app. cbn [total fold_right]. fold (total f b).
        specialize (IH (a ++ b) Hn). rewrite total_app in IH. enough (total f a + total f b <= total f s) by lia. apply IH.
        intros x Hx Fx. assert (Hx' : In x (a ++ y :: b)) by (apply in_app_iff in Hx; apply in_app_iff; destruct Hx; [now left|right; now right]).
        destruct (H x Hx' Fx) as [<-|?]; [contradiction|assumption].
      + specialize (IH l Hn G). lia.
  Qed.
  Lemma groups_distinct m ids gs : split_modules_by_identifier m ids = Ok gs -> NoDup (map fst gs).
  Proof.
    unfold split_modules_by_identifier. destruct (Nat.eqb _ _); [|discriminate]. intros [= <-].
    assert (S : gsorted (fold_left (fun o p => ident_insert (snd p) (fst p) o) (zip_data m ids) [])).
    { assert (G : forall l g, gsorted g -> gsorted (fold_left (fun o p => ident_insert (snd p) (fst p) o) l g)).
      { intro l. induction l as [|x l IH]; intros g Hg; [exact Hg|]. cbn [fold_left]. apply IH. now apply ident_insert_sorted. }
      apply G. constructor. }
    induction S as [|x l Hs IH Hf]; [constructor|]. cbn [map]. constructor; [|exact IH]. intro Hin. apply in_map_iff in Hin.
    destruct Hin as (y & Ey & Hy). rewrite Forall_forall in Hf. specialize (Hf y Hy). destruct x as [kx mx], y as [ky my]. cbn [fst] in *. subst ky. rewrite benum_ltb_irrefl in Hf. discriminate.
  Qed.

  Definition kinds : list Identifier := [QsfpPlusSff8636; Qsfp28; QsfpPlusCmis; QsfpDD].
  Lemma known id : is_sff id = true \/ is_cmis id = true -> In id kinds.
  Proof.
    unfold is_sff, is_cmis, kinds. rewrite !orb_true_iff, !benum_eqb_eq. cbn [In]. intuition.
  Qed.
  Definition reading (reads : Identifier -> outcome DecodeError (list MemoryRead)) (id : Identifier) : N :=
    match reads id with Ok rds => total (fun rd => rounds (rd_len rd)) rds | _ => 0 end.
  Definition reads_short (reads : Identifier -> outcome DecodeError (list MemoryRead)) : Prop :=
    forall id rds, reads id = Ok rds -> In id kinds /\ Forall (fun rd => rd_len rd <= 255) rds.
  Lemma cost_each m l : Forall (fun rd => rd_len rd <= 255) l ->
    cost (read_each sp m l) (total (fun rd => rounds (rd_len rd)) l) 0.
  Proof.
    induction 1 as [|rd l Hrd Hl IH]; cbn [read_each total fold_right]; [apply cost_ret|]. fold (total (fun rd => rounds (rd_len rd)) l).
    apply (cost_bind _ _ _ 0 _ 0); [now apply cost_read_impl|]. intro r.
    replace (total (fun rd => rounds (rd_len rd)) l) with (total (fun rd => rounds (rd_len rd)) l + 0) by lia.
    apply (cost_bind _ _ _ 0 0 0); [exact IH|]. intro rs. apply cost_ret.
  Qed.
  Lemma cost_groups {P} reads (parse : Identifier -> list (list N) -> outcome DecodeError P) gs : reads_short reads ->
    forall s, cost (parse_groups sp reads parse gs s) (total (reading reads) (map fst gs)) 0.
  Proof.
    intro Hr. induction gs as [|[id m] gs IH]; intro s; cbn [parse_groups map fst total fold_right]; [apply cost_ret|].
    fold (total (reading reads) (map fst gs)). apply cost_pure. intros rds E. unfold reading at 1.
    destruct (reads id) as [l|e|] eqn:El; try discriminate. cbn in E. injection E as <-. destruct (Hr id l El) as [_ Hf].
    apply (cost_bind _ _ _ 0 _ 0); [now apply cost_each|]. intro rs. apply cost_pure. intros s' _. apply IH.
  Qed.
  Lemma cost_parse {P} reads (parse : Identifier -> list (list N) -> outcome DecodeError P) m : reads_short reads ->
    cost (parse_modules_by_identifier sp reads parse m) (1 + total (reading reads) kinds) 0.
  Proof.
    intro Hr. unfold parse_modules_by_identifier. apply (cost_bind _ _ 1 0 _ 0); [apply cost_identifier|]. intro id.
    apply cost_pure. intros gs E. apply groups_distinct in E.
    apply (cost_more _ (total (reading reads) (map fst gs) + 0) (0 + 0)); [| |lia].
    - apply cost_bind; [now apply cost_groups|]. intro s. apply cost_ret.
    - rewrite N.add_0_r. apply total_incl; [exact E|]. intros x _ Hx. unfold reading in Hx.
      destruct (reads x) as [l| |] eqn:El; [|congruence|congruence]. exact (proj1 (Hr x l El)).
  Qed.
  Lemma short_all : Forall reads_short [vendor_reads; memory_reads; power_reads; monitor_reads; datapath_reads].
  Proof.
    repeat (constructor; [intros id rds;
      unfold vendor_reads, memory_reads, power_reads, monitor_reads, datapath_reads;
      destruct (is_sff id) eqn:E1; [|destruct (is_cmis id) eqn:E2; [|discriminate]]; intro H;
      (split; [apply known; now (left + right)|]; vm_compute in H; injection H as <-; repeat constructor; cbn; lia)|]).
    constructor.
  Qed.
  Lemma short_power : reads_short power_reads.
  Proof. pose proof short_all as H. rewrite Forall_forall in H. apply H. cbn. tauto. Qed.

  Lemma cost_power m : cost (power sp m) 6 0.
  Proof.
    unfold power. apply (cost_bind _ _ 1 0 5 0); [apply cost_status|]. intro st.
    repeat match goal with |- context [let (_, _) := ?x in _] => destruct x end.
    apply (cost_bind _ _ 5 0 0 0).
    - destruct (Nat.eqb _ _); [apply (cost_more _ 0 0); [apply cost_ret|lia|lia]|]. unfold power_control.
      apply (cost_bind _ _ 5 0 0 0); [|intro c; destruct (filter_module_data _ _ _); apply cost_ret].
      apply (cost_more _ _ _ _ _ (cost_parse power_reads power_parse _ short_power)); [vm_compute; discriminate|lia].
    - intro r. destruct (merge_module_data _ _ _ _). apply cost_ret.
  Qed.
  Lemma cost_soft_write id st o m s : cost (soft_write sp id st o m s) (if existsb (benum_eqb id) kinds then 1 else 0) 0.
  Proof.
    destruct s as [[a b] c]. cbn [soft_write]. apply cost_pure. intros ww E.
    assert (K : existsb (benum_eqb id) kinds = true).
    { unfold power_word in E. apply existsb_exists. exists id. split; [|now apply benum_eqb_eq].
      apply known. unfold is_sff, is_cmis. destruct (_ || _); [now left|]. destruct (_ || _); [now right|discriminate]. }
    rewrite K. apply (cost_bind _ _ 1 0 0 0); [apply cost_write_impl|]. intro r. destruct (remove_module_data _ _ _). apply cost_ret.
  Qed.
  Definition wording (id : Identifier) : N := if existsb (benum_eqb id) kinds then 2 else 0.
  Lemma cost_soft_groups st gs : forall s, cost (soft_groups sp st gs s) (total wording (map fst gs)) 0.
  Proof.
    induction gs as [|[id m] gs IH]; intro s; cbn [soft_groups map fst total fold_right]; [apply cost_ret|].
    fold (total wording (map fst gs)). destruct s as [[a b] c].
    repeat match goal with |- context [let (_, _) := ?x in _] => destruct x end.
    apply (cost_more _ ((if existsb (benum_eqb id) kinds then 1 else 0) + ((if existsb (benum_eqb id) kinds then 1 else 0) + total wording (map fst gs))) (0 + (0 + 0)));
      [|unfold wording; destruct (existsb _ _); lia|lia].
    apply cost_bind; [apply cost_soft_write|]. intro s1. apply cost_bind; [apply cost_soft_write|]. intro s2. apply IH.
  Qed.
  Lemma cost_ssps pr st : cost (set_software_power_state sp pr st) 9 0.
  Proof.
    unfold set_software_power_state. destruct st; try (apply (cost_more _ 0 0); [apply cost_ret|lia|lia]);
    (apply (cost_bind _ _ 1 0 8 0); [apply cost_identifier|]; intro id; apply cost_pure; intros gs E; apply groups_distinct in E;
     unfold keep_module_data, remove_module_data; cbv zeta;
     apply (cost_more _ (total wording (map fst gs) + 0) (0 + 0)); [|rewrite N.add_0_r|lia];
     [apply cost_bind; [apply cost_soft_groups|]; intro s; apply cost_ret
     |transitivity (total wording kinds); [|vm_compute; discriminate]; apply total_incl; [exact E|]; intros x _ Hx; unfold wording in Hx;
      destruct (existsb (benum_eqb x) kinds) eqn:K; [|congruence]; apply existsb_exists in K; destruct K as (y & Hy & Ey);
      apply benum_eqb_eq in Ey; now subst]).
  Qed.
  Lemma cost_off m : cost (set_power_off sp m) 3 0.
  Proof.
    unfold set_power_off.
    apply (cost_bind _ _ 1 0 2 0); [apply cost_npr|]. intro a. apply (cost_bind _ _ 1 0 1 0); [apply cost_npr|]. intro b. cbv zeta.
    apply (cost_bind _ _ 1 0 0 0); [apply cost_npr|]. intro c. apply cost_ret.
  Qed.
  Lemma cost_set_power m st : cost (set_power sp m st) 20 (2000010 + 2 * s0).
  Proof.
    assert (Hon : cost (set_power_on sp m st) 20 (2000010 + 2 * s0)).
    { unfold set_power_on. apply (cost_seq _ _ 6 0 14 (2000010 + 2 * s0) _ _); [apply cost_power| |lia|lia]. intro p. cbv zeta.
      destruct (_ && _); [apply (cost_more _ 0 0); [apply cost_ret|lia|lia]|].
      apply (cost_seq _ _ 1 0 13 (2000010 + 2 * s0) _ _); [apply cost_status| |lia|lia]. intro s.
      repeat match goal with |- context [let (_, _) := filter_module_data ?x ?y ?f in _] => destruct (filter_module_data x y f) end.
      apply (cost_seq _ _ 1 (10 + s0) 12 (2000000 + s0) _ _); [| |lia|lia].
      { destruct (Nat.ltb _ _); [|apply (cost_more _ 0 0); [apply cost_ret|lia|lia]].
        apply (cost_seq _ _ 1 0 0 (10 + s0) _ _); [apply cost_npr| |lia|lia]. intro a. apply (cost_seq _ _ 0 (10 + s0) 0 0 _ _); [apply cost_sleep| |lia|lia]. intros _. apply cost_ret. }
      intro s1. apply (cost_seq _ _ 1 0 11 (2000000 + s0) _ _); [| |lia|lia].
      { destruct (Nat.ltb _ _); [|apply (cost_more _ 0 0); [apply cost_ret|lia|lia]].
        apply (cost_seq _ _ 1 0 0 0 _ _); [apply cost_npr| |lia|lia]. intro a. apply cost_ret. }
      intro s2. apply (cost_seq _ _ 1 0 10 (2000000 + s0) _ _); [| |lia|lia]. { destruct st; apply cost_npr. }
      intro lp. cbv zeta. apply (cost_seq _ _ 1 (2000000 + s0) 9 0 _ _); [| |lia|lia].
      { destruct (Nat.ltb _ _); [|apply (cost_more _ 0 0); [apply cost_ret|lia|lia]].
        apply (cost_seq _ _ 1 0 0 (2000000 + s0) _ _); [apply cost_npr| |lia|lia]. intro a. apply (cost_seq _ _ 0 (2000000 + s0) 0 0 _ _); [apply cost_sleep| |lia|lia]. intros _. apply cost_ret. }
      intro s4. destruct (keep_module_data _ _ _). apply cost_ssps. }
    destruct st; cbn [set_power]; try exact Hon. apply (cost_more _ 3 0); [apply cost_off|lia|lia].
  Qed.
End Cost.

(** ** The tool *)
Section Tool.
  Context {St : Type} (sp : St -> Rpc -> St * reply) {s0 : N} (show_f32 : f32 -> text) (show : TransceiverError -> text).
  Local Notation cost := (cost sp (s0 := s0)).
  Lemma cost_bind1 {A B} (c : ctl (St := St) A) (f : A -> ctl B) n p : cost c n p -> (forall a, cost (f a) 0 0) -> cost (cbind c f) n p.
  Proof. intros H K. apply (cost_more _ _ (n + 0) (p + 0)); [now apply cost_bind|lia|lia]. Qed.
  Lemma cost_zero {A} (x : outcome Error A) n p : cost (cret x) n p.
  Proof. apply (cost_more _ _ 0 0); [apply cost_ret|lia|lia]. Qed.
  Lemma cost_select t : cost (address_transceivers sp t) (selecting t) 0.
  Proof.
    destruct t; cbn [address_transceivers selecting]; try apply cost_ret; apply cost_bind1; intros; try apply cost_ret.
    - apply cost_status.
    - apply cost_power.
    - apply cost_identifier.
  Qed.
  Lemma cost_status_result m : cost (status_result sp m) 2 0.
  Proof.
    intro w. unfold status_result. destruct (cost_ext sp (s0 := s0) m w) as (ds & G & D). destruct (extended_status sp m w) as [w1 [v|e|]]; cbn [fst] in *.
    - exists ds. split; [exact G|]. intro d. specialize (D d). lia.
    - assert (K : cost (cbind (ctl_status sp m) (fun r => cret (data <-? omapM (fun s => ounwrap (ext_of_status s)) (mr_data r) ;;
          Ok (mkResult (mr_modules r) data (mr_failures r))))) 1 0) by (apply cost_bind1; [apply cost_status|intro; apply cost_ret]).
      destruct (K w1) as (d2 & G2 & D2). exists (ds ++ d2). split; [eapply went_trans; eauto|].
      intro d. rewrite weigh_app. specialize (D d). specialize (D2 d). lia.
    - exists ds. split; [exact G|]. intro d. specialize (D d). lia.
  Qed.
  Lemma cost_loop m rds n : Forall (fun rd => rd_len rd <= 255 /\ rounds (rd_len rd) <= n) rds ->
    forall r, cost (read_loop sp m rds r) (N.of_nat (length rds) * (1 + n)) 0.
  Proof.
    induction 1 as [|rd l [H1 H2] Hl IH]; intro r; cbn [read_loop length]; [apply cost_ret|].
    apply (cost_more _ _ ((1 + rounds (rd_len rd)) + N.of_nat (length l) * (1 + n)) (0 + 0)); [|nia|lia].
    apply cost_bind; [now apply cost_read|]. intro x. apply cost_pure. intros y _. apply IH.
  Qed.
  Lemma step_few size : 0 < size -> forall fuel offset stop, offset <= stop ->
    N.of_nat (length (LargeAccess.step_by fuel offset stop size)) * size < stop - offset + size.
  Proof.
    intro Hs. induction fuel as [|fuel IH]; intros offset stop H; cbn [LargeAccess.step_by]; [cbn; lia|].
    destruct (N.ltb_spec offset stop) as [L|L]; [|cbn; lia]. cbn [length].
    destruct (N.le_gt_cases (offset + size) stop) as [K|K].
    - specialize (IH (offset + size) stop K). nia.
    - assert (E : LargeAccess.step_by fuel (offset + size) stop size = []) by (destruct fuel; [reflexivity|]; cbn; destruct (N.ltb_spec (offset + size) stop); [lia|reflexivity]).
      rewrite E. cbn [length]. lia.
  Qed.
  Lemma pieces_few p offset len rds : build_many_reads p offset len = Ok rds ->
    N.of_nat (length rds) <= (len + (split_read_size p - 1)) / split_read_size p.
  Proof.
    unfold build_many_reads, build_many. destruct (256 <? offset + len); [discriminate|]. intro H. apply omapM_long in H. rewrite H.
    pose proof (split_read_pos p) as Hp. pose proof (step_few (split_read_size p) Hp (N.to_nat len) offset (offset + len) ltac:(lia)) as K.
    replace (offset + len - offset) with len in K by lia. apply N.div_le_lower_bound; [lia|]. nia.
  Qed.
  Lemma short_pieces p offset len rds : build_many_reads p offset len = Ok rds ->
    Forall (fun rd => rd_len rd <= split_read_size p) rds.
  Proof.
    unfold build_many_reads, build_many. destruct (256 <? offset + len); [discriminate|].
    generalize (LargeAccess.step_by (N.to_nat len) offset (offset + len) (split_read_size p)). intro l. revert rds.
    induction l as [|x l IH]; intros rds H; cbn [omapM] in H; [injection H as <-; constructor|].
    unfold u8_unwrap in H at 1 2. destruct (_ <? 256); [|discriminate]. destruct (_ <? 256); [|discriminate]. cbn [obind] in H.
    destruct (read_new _ _ _) as [r|e|] eqn:Er; try discriminate. cbn [omap_err obind] in H.
    match type of H with obind ?y _ = _ => destruct y as [r'| |] eqn:El; try discriminate end. cbn [obind] in H. injection H as <-.
    constructor; [|now apply IH]. unfold read_new in Er.
    destruct (verify_read _ _ _); cbn [obind] in Er; try discriminate. injection Er as <-. cbn [rd_len]. lia.
  Qed.
  Lemma rounds_upto : forallb (fun l => (rounds l <=? 4) && ((8 <? l) || (rounds l <=? 1))) (nrange 0 65) = true.
  Proof. vm_compute. reflexivity. Qed.
  Lemma rounds_small l : (l <= 64 -> rounds l <= 4) /\ (l <= 8 -> rounds l <= 1).
  Proof.
    pose proof rounds_upto as H. rewrite forallb_forall in H. split; intro L; specialize (H l ltac:(apply in_nrange; lia));
      apply andb_prop in H; destruct H as [H1 H2]; apply N.leb_le in H1; [exact H1|].
    apply orb_prop in H2. destruct H2 as [H2|H2]; [apply N.ltb_lt in H2; lia|now apply N.leb_le].
  Qed.
  Lemma cost_cmd_read m page offset len : (forall p, args_page page = Ok p -> iface p = if pg_cmis page then Cmis else Sff8636) ->
    cost (cmd_read sp m (args_page page) offset len) (if pg_cmis page then 2 * ((len + 7) / 8) else 5 * ((len + 63) / 64)) 0.
  Proof.
    intro Hp. unfold cmd_read. destruct (len =? 0); [apply cost_zero|]. apply cost_pure. intros p Ep. specialize (Hp p Ep).
    apply cost_pure. intros rds Er. apply cost_pure. intros s _. apply cost_bind1; [|intro; apply cost_ret].
    pose proof (pieces_few _ _ _ _ Er) as F. apply short_pieces in Er.
    destruct p as [q|q]; cbn [split_read_size iface] in *; destruct (pg_cmis page); try discriminate.
    - apply (cost_more _ _ (N.of_nat (length rds) * (1 + 4)) 0); [apply cost_loop| |lia].
      + eapply Forall_impl; [|exact Er]. intros rd H. cbv beta in H. split; [lia|now apply (proj1 (rounds_small _))].
      + change (64 - 1) with 63 in F. lia.
    - apply (cost_more _ _ (N.of_nat (length rds) * (1 + 1)) 0); [apply cost_loop| |lia].
      + eapply Forall_impl; [|exact Er]. intros rd H. cbv beta in H. split; [lia|now apply (proj2 (rounds_small _))].
      + change (8 - 1) with 7 in F. lia.
  Qed.
  Lemma page_iface page p : args_page page = Ok p -> iface p = if pg_cmis page then Cmis else Sff8636.
  Proof.
    destruct page as [sff cmis upper]. unfold args_page. cbn [pg_sff pg_cmis pg_upper]. destruct upper as [[n b]|].
    - unfold upper_page. destruct sff, cmis; try discriminate.
      + destruct (sff_upper_new n); cbn; try discriminate. now intros [= <-].
      + destruct b; [destruct (cmis_new_banked n n0)|destruct (cmis_new_unbanked n)]; cbn; try discriminate; now intros [= <-].
    - unfold lower_page. destruct sff, cmis; try discriminate; now intros [= <-].
  Qed.
  Section Run.
    Context (ignore : bool).
    Lemma cost_acting c n p : cost c n p -> cost (acting show ignore c) n p.
    Proof. intro H. apply cost_bind1; [exact H|]. intro; apply cost_ret. Qed.
    Lemma cost_printing {P} (c : ctl (St := St) (Result P)) f n p : cost c n p -> cost (printing show ignore c f) n p.
    Proof. intro H. apply cost_bind1; [exact H|]. intro. apply cost_pure. intros. apply cost_ret. Qed.
    Lemma cost_query {P} reads (parse : Identifier -> list (list N) -> outcome DecodeError P) m n :
      In reads [vendor_reads; memory_reads; power_reads; monitor_reads; datapath_reads] -> n = 1 + total (reading reads) kinds ->
      cost (parse_modules_by_identifier sp reads parse m) n 0.
    Proof. intros H ->. apply cost_parse. pose proof short_all as S. rewrite Forall_forall in S. now apply S. Qed.
    Lemma cost_run m c : (forall a b d, c <> CWrite a b d) ->
      cost (run_call sp show_f32 show ignore m c) (fst (commanding c)) (snd (commanding c) + napping c * s0).
    Proof.
      intro Hw. destruct c; cbn [run_call commanding napping fst snd]; rewrite ?N.mul_0_l, ?N.add_0_r;
        try (apply cost_acting, cost_npr); try (apply cost_printing, cost_identifier); try (apply cost_printing, cost_leds);
        try (apply cost_printing, cost_power).
      - apply cost_pure. intros k _. apply cost_bind1; [apply cost_printing, cost_status_result|]. intro; apply cost_ret.
      - apply cost_acting, cost_reset.
      - destruct state; cbn [fst snd]; rewrite ?N.mul_0_l, ?N.add_0_r; apply cost_acting; try apply cost_set_power. cbn [set_power]. apply cost_off.
      - apply cost_printing. apply (cost_query vendor_reads); [now left|vm_compute; reflexivity].
      - apply cost_bind1; [apply cost_cmd_read; apply page_iface|]. intro; apply cost_ret.
      - now destruct (Hw page input offset).
      - apply cost_printing. apply (cost_query memory_reads); [right; now left|vm_compute; reflexivity].
      - apply cost_bind1; [apply cost_macs|]. intro. apply cost_pure. intros. apply cost_ret.
      - apply cost_printing. apply (cost_query monitor_reads); [do 3 right; now left|vm_compute; reflexivity].
      - apply cost_printing. apply (cost_query datapath_reads); [do 4 right; now left|vm_compute; reflexivity].
    Qed.
    Lemma cost_cmd m c w : exists ds, went sp w (fst (run_cmd sp show_f32 show ignore m c w)) ds /\
      ceiling s0 (fst (commanding c)) (snd (commanding c) + napping c * s0) ds.
    Proof.
      assert (K : (forall a b d, c <> CWrite a b d) \/ exists a b d, c = CWrite a b d) by (destruct c; (left; discriminate) || (right; eauto)).
      destruct K as [K|(a & b & d & ->)].
      - destruct (cost_run m c K w) as (ds & G & D). exists ds. split; [|exact D].
        assert (E : fst (run_cmd sp show_f32 show ignore m c w) = fst (run_call sp show_f32 show ignore m c w))
          by (destruct c; cbn [run_cmd]; try (destruct (run_call _ _ _ _ _ _ _); reflexivity); now destruct (K page input offset)).
        now rewrite E.
      - cbn [run_cmd commanding napping fst snd]. unfold cmd_write. destruct (args_data b) as [data|e|].
        + destruct (255 <? Nlen data).
          { exists []. split; [apply went_refl|]. intro; apply N.le_0_l. }
          match goal with |- context [cbind ?x ?f w] => assert (C : cost (cbind x f) 2 0) end.
          { apply cost_pure. intros. apply cost_pure. intros. apply cost_write. }
          destruct (C w) as (ds & G & D). exists ds. split; [|exact D].
          match goal with |- context [cbind ?x ?f w] => destruct (cbind x f w) as [w1 r] end. exact G.
        + exists []. split; [apply went_refl|]. intro; apply N.le_0_l.
        + exists []. split; [apply went_refl|]. intro; apply N.le_0_l.
    Qed.
  End Run.
  Lemma weigh_main a w : let t := match ar_transceivers a with Some t => t | None => TAll end in
    exists ds, went sp w (fst (main sp show_f32 show a w)) ds /\
      ceiling s0 (selecting t + fst (commanding (ar_cmd a))) (snd (commanding (ar_cmd a)) + napping (ar_cmd a) * s0) ds.
  Proof.
    intro t. destruct (cost_select t w) as (ds & G & D). unfold main. fold t.
    destruct (address_transceivers sp t w) as [w1 [m|e|]]; cbn [fst] in *.
    - destruct (cost_cmd (ar_ignore_errors a) m (ar_cmd a) w1) as (d2 & G2 & D2). exists (ds ++ d2).
      split; [eapply went_trans; eauto|]. intro d. rewrite weigh_app. specialize (D d). specialize (D2 d). lia.
    - exists ds. split; [exact G|]. intro d. specialize (D d). nia.
    - exists ds. split; [exact G|]. intro d. specialize (D d). nia.
  Qed.
End Tool.
Lemma cost_main St (sp : St -> Rpc -> St * reply) show_f32 show a d w : let t := match ar_transceivers a with Some t => t | None => TAll end in
  takes d (deeds_of (main sp show_f32 show a) w) <=
    (selecting t + fst (commanding (ar_cmd a))) * d + snd (commanding (ar_cmd a)).
Proof.
  intro t. destruct (weigh_main sp (s0 := 0) show_f32 show a w) as (ds & G & D). rewrite (deeds_of_went (sp := sp) _ w ds G), <- weigh_0.
  specialize (D d). fold t in D. lia.
Qed.
Lemma calls_cost St (sp : St -> Rpc -> St * reply) m :
  costs (leds sp m) 1 0 /\ costs (ctl_status sp m) 1 0 /\ costs (extended_status sp m) 1 0 /\
  costs (mac_addrs sp) 1 0 /\ (forall q, costs (no_payload_request sp q) 1 0) /\
  costs (identifier sp m) 1 0 /\
  (forall rd, rd_len rd <= 255 -> costs (ctl_read sp m rd) (1 + rounds (rd_len rd)) 0) /\
  (forall wr data, costs (ctl_write sp m wr data) 2 0) /\
  costs (reset sp m) 2 2000010 /\ costs (power sp m) 6 0 /\
  costs (set_power sp m PowerOff) 3 0 /\ (forall st, costs (set_power sp m st) 20 2000010) /\
  costs (vendor_info sp m) 27 0 /\ costs (memory_model sp m) 9 0 /\ costs (monitors sp m) 33 0 /\
  costs (datapath sp m) 41 0.
Proof.
  assert (X : forall A (c : ctl (St := St) A) n p, cost sp (s0 := 0) c n p -> costs c n p).
  { intros A c n p H d w. rewrite <- weigh_0. now apply (cost_weigh sp c n p H). }
  split; [apply X, cost_leds|]. split; [apply X, cost_status|]. split; [apply X, cost_ext|]. split; [apply X, cost_macs|].
  split; [intro; apply X, cost_npr|]. split; [apply X, cost_identifier|]. split; [intros; apply X; now apply cost_read|].
  split; [intros; apply X, cost_write|]. split; [apply X, cost_reset|]. split; [apply X, cost_power|].
  split; [apply X, cost_off|]. split; [intro; apply X, cost_set_power|].
  split; [apply X, (cost_query sp vendor_reads); [now left|vm_compute; reflexivity]|].
  split; [apply X, (cost_query sp memory_reads); [right; now left|vm_compute; reflexivity]|].
  split; [apply X, (cost_query sp monitor_reads); [do 3 right; now left|vm_compute; reflexivity]|].
  apply X, (cost_query sp datapath_reads); [do 4 right; now left|vm_compute; reflexivity].
Qed.
