(** Proofs about the accessors, constructors and equality of per-module results (C71). *)
From Verif Require Import Tac Spec SpecMessages SpecResults ModuleIdProofs ModuleIdProps ResultsProofs.

Lemma zip_in {A} m (d : list A) i x : In (i, x) (zip_data m d) <-> at_port m d i x.
Proof. reflexivity. Qed.
Lemma zip_ports {A} m (d : list A) : one_each m d -> map fst (zip_data m d) = to_indices m.
Proof.
  intros [_ H]. unfold zip_data. revert d H. generalize (to_indices m).
  induction l as [|i l IH]; intros [|x d] H; cbn in *; try discriminate; [reflexivity|]. f_equal. apply IH. congruence.
Qed.

Lemma result_asked {E P} (r : ModuleResult E P) i : wf_result r ->
  (forall x, result_nth r i = Some x <-> succeeds r i x) /\ (result_nth r i = None <-> ~ succeeded r i) /\
  (forall e, result_nth_err r i = Some e <-> fails r i e) /\ (result_nth_err r i = None <-> ~ failed r i).
Proof.
  intros (H1 & H2 & _). split; [|split; [|split]].
  - intros x. rewrite result_nth_get. symmetry. apply succeeds_get.
  - rewrite result_nth_get. unfold rget, succeeded. rewrite (member_get _ (mr_data r)) by now apply one_each_aligned.
    destruct (get _ _ i) as [x|].
    + split; [discriminate|]. intros K. destruct K. eauto.
    + split; [|reflexivity]. intros _ [y Hy]. discriminate.
  - intros e. exact (proj1 (failed_nth_correct (mr_failures r) i e H2)).
  - unfold result_nth_err. rewrite failed_nth_get. unfold fget, failed.
    rewrite (member_get _ (fm_errors (mr_failures r))) by now apply one_each_aligned.
    destruct (get _ _ i) as [x|].
    + split; [discriminate|]. intros K. destruct K. eauto.
    + split; [|reflexivity]. intros _ [y Hy]. discriminate.
Qed.

Lemma result_listed {E P} (r : ModuleResult E P) : wf_result r ->
  map fst (result_iter r) = to_indices (mr_modules r) /\
  (forall i x, In (i, x) (result_iter r) <-> succeeds r i x) /\
  map fst (result_error_iter r) = to_indices (fm_modules (mr_failures r)) /\
  (forall i e, In (i, e) (result_error_iter r) <-> fails r i e).
Proof.
  intros (H1 & H2 & _). split; [now apply zip_ports|]. split; [reflexivity|]. split; [now apply zip_ports|reflexivity].
Qed.

Lemma result_all_good {E P} (r : ModuleResult E P) :
  wf_result r -> result_is_success r = true <-> forall i, ~ failed r i.
Proof.
  intros (_ & [H _] & _). unfold result_is_success, failed. rewrite m_is_empty_spec by now apply mask_ok_lt. split.
  - intros -> i. rewrite member_testbit, N.bits_0. discriminate.
  - intros K. apply N.bits_inj_0. intros i. apply not_true_is_false. rewrite <- member_testbit. apply K.
Qed.

Lemma result_success_built {E P} m (d : list P) : m < 2 ^ 64 ->
  (length d <> length (to_indices m) -> result_success (E := E) m d = None) /\
  (length d = length (to_indices m) -> exists r, result_success (E := E) m d = Some r /\ wf_result r /\
     (forall i x, succeeds r i x <-> at_port m d i x) /\ forall i, ~ failed r i).
Proof.
  intros Hm. unfold result_success. rewrite <- count_to_indices by now apply mask_ok_lt. split.
  - intros K. destruct (Nat.eqb_spec (m_count m) (length d)) as [E1|]; congruence.
  - intros K. rewrite <- K, Nat.eqb_refl. eexists. split; [reflexivity|].
    assert (Z : forall i, ~ member i m_empty) by (intros i; rewrite member_testbit; cbn; rewrite N.bits_0; discriminate).
    split; [|split; [reflexivity|exact Z]]. split; [|split].
    + split; [exact Hm|]. cbn. rewrite <- count_to_indices by now apply mask_ok_lt. exact K.
    + split; reflexivity.
    + intros i [_ K2]. exact (Z i K2).
Qed.

Lemma result_ack_built {E} m (f : FailedModules E) : m < 2 ^ 64 -> wf_failed f ->
  (forall i, ~ (member i m /\ member i (fm_modules f))) ->
  wf_result (ack_new m f) /\ (forall i, succeeded (ack_new m f) i <-> member i m) /\
  (forall i e, fails (ack_new m f) i e <-> at_port (fm_modules f) (fm_errors f) i e).
Proof.
  intros Hm Hf Hd. split; [|split; reflexivity]. split; [|split; assumption].
  split; [exact Hm|]. cbn. rewrite repeat_length. apply count_to_indices. now apply mask_ok_lt.
Qed.

Lemma list_eq_spec {A} (eqb : A -> A -> bool) : decides eqb -> decides (list_eq eqb).
Proof.
  intros H. intros a. induction a as [|x a IH]; intros [|y b]; cbn; try (split; [discriminate|discriminate]).
  - split; reflexivity.
  - rewrite andb_true_iff, (H x y), (IH b). split; [intros [-> ->]; reflexivity|intros [= -> ->]; now split].
Qed.

Lemma result_eq_same {E P} (eqE : E -> E -> bool) (eqP : P -> P -> bool) (a b : ModuleResult E P) :
  decides eqE -> decides eqP -> result_eq eqE eqP a b = true <-> a = b.
Proof.
  intros HE HP. unfold result_eq, failed_eq.
  destruct a as [m d [fm fe]], b as [m' d' [fm' fe']]. cbn.
  destruct (N.eqb_spec m m') as [->|]; cbn; [|split; congruence].
  destruct (list_eq eqP d d') eqn:Ed; cbn.
  - apply (list_eq_spec eqP HP) in Ed. subst d'. rewrite andb_true_iff, N.eqb_eq, (list_eq_spec eqE HE fe fe').
    split; [intros [-> ->]; reflexivity|intros [= -> ->]; now split].
  - split; [discriminate|]. intros [= -> _ _]. rewrite (proj2 (list_eq_spec eqP HP d' d') eq_refl) in Ed. discriminate.
Qed.

Lemma get_same {A} m (d : list A) m' d' : one_each m d -> one_each m' d' ->
  (forall i x, at_port m d i x <-> at_port m' d' i x) -> m = m' /\ d = d'.
Proof.
  intros H1 H2 K. apply one_each_aligned in H1, H2. apply aligned_ext; try assumption.
  intros i. destruct (get m' d' i) as [x|] eqn:E1.
  - now apply at_port_get, K, at_port_get.
  - destruct (get m d i) as [x|] eqn:E2; [|reflexivity]. apply at_port_get, K, at_port_get in E2. congruence.
Qed.

Lemma result_eq_extensional {E P} (eqE : E -> E -> bool) (eqP : P -> P -> bool) (a b : ModuleResult E P) :
  decides eqE -> decides eqP -> wf_result a -> wf_result b ->
  (result_eq eqE eqP a b = true <->
   (forall i x, succeeds a i x <-> succeeds b i x) /\ (forall i e, fails a i e <-> fails b i e)).
Proof.
  intros HE HP (A1 & A2 & _) (B1 & B2 & _). rewrite (result_eq_same _ _ a b HE HP). split.
  - intros ->. split; reflexivity.
  - intros [K1 K2]. destruct (get_same _ _ _ _ A1 B1 K1) as [E1 E2]. destruct (get_same _ _ _ _ A2 B2 K2) as [E3 E4].
    destruct a as [m d [fm fe]], b as [m' d' [fm' fe']]. cbn in *. now subst.
Qed.
