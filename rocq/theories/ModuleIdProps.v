(** Bridges from the lemmas of ModuleIdProofs.v to the statements of PropsModuleId.v. *)
From Verif Require Import Tac Spec ModuleId ModuleIdProofs.

Lemma member_testbit i m : member i m <-> N.testbit m i = true.
Proof. unfold member. symmetry. apply N.testbit_true. Qed.

Lemma mask_ok_lt m : mask_ok m = true <-> m < 2 ^ 64.
Proof. unfold mask_ok. apply N.ltb_lt. Qed.

Lemma is_set_correct : forall m i,
  (i < 64 -> exists b, m_is_set m i = Ok b /\ (b = true <-> member i m)) /\
  (64 <= i -> m_is_set m i = Err (mkInvalidPort i)).
Proof.
  intros m i. unfold m_is_set, MAX_INDEX. split; intros H; destruct (N.leb_spec 64 i); try lia.
  - eexists; split; [reflexivity|]. fold (m_contains m i). now rewrite m_contains_testbit, member_testbit.
  - reflexivity.
Qed.

Lemma set_correct : forall m i,
  (i < 64 -> exists m', m_set m i = Ok m' /\ (forall j, member j m' <-> j = i \/ member j m)
                        /\ (m < 2 ^ 64 -> m' < 2 ^ 64)) /\
  (64 <= i -> m_set m i = Err (mkInvalidPort i)).
Proof.
  intros m i. split; intros H.
  - destruct (m_set m i) as [m'| |] eqn:E.
    + exists m'. split; [reflexivity|]. apply m_set_spec in E. destruct E as [Hi Hs]. split.
      * intros j. rewrite !member_testbit, Hs, orb_true_iff, N.eqb_eq. split; intuition congruence.
      * rewrite <- !mask_ok_lt, !mask_ok_testbit. intros Hm j. rewrite Hs, orb_true_iff, N.eqb_eq.
        intros [|<-]; auto.
    + unfold m_set, MAX_INDEX in E. destruct (N.leb_spec 64 i); [lia|discriminate].
    + unfold m_set, MAX_INDEX in E. destruct (N.leb_spec 64 i); [lia|discriminate].
  - unfold m_set, MAX_INDEX. destruct (N.leb_spec 64 i); [reflexivity|lia].
Qed.

Lemma clear_correct : forall m i, m < 2 ^ 64 ->
  (i < 64 -> exists m', m_clear m i = Ok m' /\ (forall j, member j m' <-> j <> i /\ member j m)
                        /\ m' < 2 ^ 64) /\
  (64 <= i -> m_clear m i = Err (mkInvalidPort i)).
Proof.
  intros m i Hm. apply mask_ok_lt in Hm. split; intros H.
  - destruct (m_clear m i) as [m'| |] eqn:E.
    + exists m'. split; [reflexivity|]. apply m_clear_spec in E; [|assumption]. destruct E as [Hi Hs]. split.
      * intros j. rewrite !member_testbit, Hs, andb_true_iff, negb_true_iff, N.eqb_neq. split; intuition congruence.
      * rewrite <- mask_ok_lt, mask_ok_testbit. intros j. rewrite Hs, andb_true_iff.
        intros [Hj _]. now apply (proj1 (mask_ok_testbit m) Hm).
    + unfold m_clear, MAX_INDEX in E. destruct (N.leb_spec 64 i); [lia|discriminate].
    + unfold m_clear, MAX_INDEX in E. destruct (N.leb_spec 64 i); [lia|discriminate].
  - unfold m_clear, MAX_INDEX. destruct (N.leb_spec 64 i); [reflexivity|lia].
Qed.

Lemma from_indices_correct : forall l,
  (Forall (fun i => i < 64) l ->
     exists m, from_indices l = Ok m /\ m < 2 ^ 64 /\ forall j, member j m <-> In j l) /\
  (forall a i b, l = a ++ i :: b -> Forall (fun i => i < 64) a -> 64 <= i ->
     from_indices l = Err (mkInvalidPort i)).
Proof.
  intros l. split.
  - intros Hl. destruct (from_index_iter_ok l 0 Hl) as (m & E & Hs).
    exists m. split; [exact E|]. apply from_indices_ok_iff in E. destruct E as [_ Hm]. split.
    + rewrite <- mask_ok_lt, mask_ok_testbit. intros i Hi. rewrite Forall_forall in Hl.
      apply Hl. now apply Hm.
    + intros j. rewrite member_testbit. apply Hm.
  - intros a i b -> Ha Hi. unfold from_indices. generalize 0 as out.
    induction Ha as [|x a Hx Ha IH]; intros out; cbn [app from_index_iter_loop]; unfold MAX_INDEX.
    + destruct (N.leb_spec 64 i); [reflexivity|lia].
    + destruct (N.leb_spec 64 x); [lia|apply IH].
Qed.

Lemma to_indices_correct : forall m, m < 2 ^ 64 ->
  enumerates (to_indices m) (fun i => member i m) /\
  from_indices (to_indices m) = Ok m /\
  m_count m = length (to_indices m) /\
  (m_is_empty m = true <-> forall i, ~ member i m).
Proof.
  intros m Hm. apply mask_ok_lt in Hm. split; [split|split; [|split]].
  - apply to_indices_sorted.
  - intros i. now rewrite member_testbit, in_to_indices_ok.
  - now apply from_to_indices.
  - now apply count_to_indices.
  - rewrite m_is_empty_spec by assumption. split.
    + intros -> i. rewrite member_testbit, N.bits_0. discriminate.
    + intros H. apply N.bits_inj_0. intros i. specialize (H i). rewrite member_testbit in H.
      now destruct (N.testbit m i).
Qed.

Lemma constants_correct :
  (forall i, member i m_all <-> i < 64) /\
  (forall i, member i m_all_sidecar <-> i < 32) /\
  (forall i, ~ member i m_empty) /\
  (forall i, i < 64 -> exists m, m_single i = Ok m /\ forall j, member j m <-> j = i) /\
  (forall i, 64 <= i -> m_single i = Err (mkInvalidPort i)) /\
  (forall m i, i < 64 -> exists b, m_contains_checked m i = Ok b /\ (b = true <-> member i m)).
Proof.
  assert (Hones : forall n i, member i (N.ones n) <-> i < n).
  { intros n i. rewrite member_testbit. destruct (N.lt_ge_cases i n) as [H|H].
    - rewrite N.ones_spec_low by assumption. tauto.
    - rewrite N.ones_spec_high by assumption. split; [discriminate|lia]. }
  split; [intros i; apply Hones|]. split.
  { intros i. change m_all_sidecar with (N.ones 32). apply Hones. }
  split; [intros i; rewrite member_testbit; unfold m_empty; rewrite N.bits_0; discriminate|].
  split; [|split].
  - intros i Hi. unfold m_single, MAX_INDEX. destruct (N.leb_spec 64 i); [lia|].
    eexists; split; [reflexivity|]. intros j. rewrite member_testbit, shiftl1, N.pow2_bits_eqb, N.eqb_eq. split; congruence.
  - intros i Hi. unfold m_single, MAX_INDEX. destruct (N.leb_spec 64 i); [reflexivity|lia].
  - intros m i Hi. unfold m_contains_checked, MAX_INDEX. destruct (N.leb_spec 64 i); [lia|].
    eexists; split; [reflexivity|]. now rewrite m_contains_testbit, member_testbit.
Qed.

Lemma contains_panics : exists m i, i < 256 /\ m_contains_checked m i = Panic.
Proof. exists 1, 64. split; [lia|reflexivity]. Qed.

Lemma set_algebra : forall a b, a < 2 ^ 64 -> b < 2 ^ 64 ->
  (forall i, member i (m_merge a b) <-> member i a \/ member i b) /\
  (forall i, member i (m_or a b) <-> member i a \/ member i b) /\
  (forall i, member i (m_and a b) <-> member i a /\ member i b) /\
  (forall i, member i (m_not a) <-> i < 64 /\ ~ member i a) /\
  (forall i, member i (m_remove a b) <-> member i a /\ ~ member i b) /\
  (m_is_subset a b = true <-> (forall i, member i b -> member i a)) /\
  (m_count (m_or a b) + m_count (m_and a b) = m_count a + m_count b)%nat /\
  m_merge a b < 2 ^ 64 /\ m_or a b < 2 ^ 64 /\ m_and a b < 2 ^ 64 /\ m_not a < 2 ^ 64 /\
  m_remove a b < 2 ^ 64.
Proof.
  intros a b Ha Hb. apply mask_ok_lt in Ha, Hb.
  split; [intros i; now rewrite !member_testbit, m_merge_spec, orb_true_iff|].
  split; [intros i; now rewrite !member_testbit; unfold m_or; rewrite N.lor_spec, orb_true_iff|].
  split; [intros i; now rewrite !member_testbit; unfold m_and; rewrite N.land_spec, andb_true_iff|].
  split; [intros i; rewrite !member_testbit; unfold m_not; rewrite not64_spec, andb_true_iff, negb_true_iff, N.ltb_lt, not_true_iff_false; reflexivity|].
  split; [intros i; rewrite !member_testbit, m_remove_spec, andb_true_iff, negb_true_iff, not_true_iff_false by assumption; reflexivity|].
  split.
  { rewrite m_is_subset_spec. split; intros H i; specialize (H i); rewrite !member_testbit in *; exact H. }
  split; [now apply count_union|].
  rewrite <- !mask_ok_lt. repeat split.
  - now apply mask_ok_merge.
  - now apply mask_ok_merge.
  - now apply mask_ok_land_l.
  - apply mask_ok_not64.
  - now apply mask_ok_remove.
Qed.

Lemma mask_extensional : forall a b, (forall i, member i a <-> member i b) -> a = b.
Proof.
  intros a b H. apply mask_eq_iff_subset. intros i. rewrite <- !member_testbit. apply H.
Qed.

Lemma aligned_of_len {A} m (d : list A) :
  m < 2 ^ 64 -> length d = length (to_indices m) -> aligned m d.
Proof.
  intros Hm Hl. apply mask_ok_lt in Hm. split; [assumption|]. rewrite Hl. symmetry. now apply count_to_indices.
Qed.

Lemma aligned_out {A} m (d : list A) : aligned m d -> m < 2 ^ 64 /\ length d = length (to_indices m).
Proof. intros H. split; [apply mask_ok_lt, H|]. symmetry. now apply aligned_length. Qed.

Lemma in_zip_get {A} m (d : list A) i x : In (i, x) (combine (to_indices m) d) <-> get m d i = Some x.
Proof.
  split.
  - intros H. apply in_lookup; [apply zip_nodup|exact H].
  - intros H. now apply lookup_in in H.
Qed.

Lemma filter_correct : forall A m (d : list A) f m' d', m < 2 ^ 64 ->
  filter_module_data m d f = (m', d') ->
  m' < 2 ^ 64 /\ length d' = length (to_indices m') /\
  combine (to_indices m') d' = filter (fun p => f (fst p) (snd p)) (combine (to_indices m) d).
Proof.
  intros A m d f m' d' Hm E. apply mask_ok_lt in Hm.
  generalize (filter_module_data_spec m d f Hm). rewrite E. intros (Ha & Hz).
  destruct (aligned_out _ _ Ha) as [H1 H2]. split; [assumption|]. split; [assumption|]. exact Hz.
Qed.

Lemma remove_correct : forall A m (d : list A) r m' d', m < 2 ^ 64 ->
  length d = length (to_indices m) ->
  remove_module_data m d r = (m', d') ->
  m' < 2 ^ 64 /\ length d' = length (to_indices m') /\
  (forall i, member i m' <-> member i m /\ ~ member i r) /\
  (forall i x, In (i, x) (combine (to_indices m') d') <->
               In (i, x) (combine (to_indices m) d) /\ ~ member i r).
Proof.
  intros A m d r m' d' Hm Hl E. assert (Ha := aligned_of_len m d Hm Hl). apply mask_ok_lt in Hm.
  assert (Hg := fun i => get_remove m d r i Ha). assert (Ha' := aligned_remove m d r Ha).
  generalize (remove_module_data_spec m d r Ha). rewrite E in *. cbn [fst snd] in *.
  intros (Hm' & _ & Hz). destruct (aligned_out _ _ Ha') as [H1 H2].
  split; [assumption|]. split; [assumption|]. split.
  - intros i. rewrite Hm', !member_testbit, m_remove_spec, andb_true_iff, negb_true_iff, not_true_iff_false by assumption. reflexivity.
  - intros i x. rewrite !in_zip_get, Hg, member_testbit. destruct (N.testbit r i); intuition congruence.
Qed.

Lemma keep_correct : forall A m (d : list A) k m' d', m < 2 ^ 64 -> k < 2 ^ 64 ->
  length d = length (to_indices m) ->
  keep_module_data m d k = (m', d') ->
  m' < 2 ^ 64 /\ length d' = length (to_indices m') /\
  (forall i, member i m' <-> member i m /\ member i k) /\
  (forall i x, In (i, x) (combine (to_indices m') d') <->
               In (i, x) (combine (to_indices m) d) /\ member i k).
Proof.
  intros A m d k m' d' Hm Hk Hl E. assert (Ha := aligned_of_len m d Hm Hl). apply mask_ok_lt in Hm.
  assert (Hg := fun i => get_keep m d k i Ha). assert (Ha' := aligned_keep m d k Ha).
  assert (Hf := keep_fst m d k Hm). rewrite E in *. cbn [fst snd] in *.
  destruct (aligned_out _ _ Ha') as [H1 H2].
  split; [assumption|]. split; [assumption|]. split.
  - intros i. rewrite Hf, !member_testbit, N.land_spec, andb_true_iff. reflexivity.
  - intros i x. rewrite !in_zip_get, Hg, member_testbit. destruct (N.testbit k i); intuition congruence.
Qed.

Lemma merge_correct : forall A a (da : list A) b db m' d', a < 2 ^ 64 -> b < 2 ^ 64 ->
  length da = length (to_indices a) -> length db = length (to_indices b) ->
  merge_module_data a da b db = (m', d') ->
  m' < 2 ^ 64 /\ length d' = length (to_indices m') /\
  (forall i, member i m' <-> member i a \/ member i b) /\
  (forall i x, In (i, x) (combine (to_indices m') d') <->
               In (i, x) (combine (to_indices b) db) \/
               (In (i, x) (combine (to_indices a) da) /\ ~ member i b)).
Proof.
  intros A a da b db m' d' Ha Hb Hla Hlb E.
  assert (HA := aligned_of_len a da Ha Hla). assert (HB := aligned_of_len b db Hb Hlb).
  generalize (merge_module_data_spec a da b db HA HB). rewrite E. intros (Hm & Hal & Hg).
  destruct (aligned_out _ _ Hal) as [H1 H2]. split; [assumption|]. split; [assumption|]. split.
  - intros i. rewrite Hm, !member_testbit, m_merge_spec, orb_true_iff. reflexivity.
  - intros i x. rewrite !in_zip_get, Hg, member_testbit.
    assert (Hn := get_none b db i HB). destruct (get b db i) as [y|] eqn:Eb.
    + destruct (N.testbit b i) eqn:Et; [intuition congruence|]. discriminate (proj2 Hn eq_refl).
    + rewrite (proj1 Hn eq_refl). intuition congruence.
Qed.
