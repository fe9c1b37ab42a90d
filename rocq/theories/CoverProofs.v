(** Every module asked about is told of: as done or, with an error, as failed (C98). *)
From Verif Require Export LiveProofs3.
From Verif Require Import Tac Spec ModuleIdProofs ModuleIdProps ResultsProofs ControllerProofs ControllerProofs3
  ControllerProofs4 ControllerProofs5 ControllerProofs6 ControllerProofs7 ScopeProofs ScopeProofs2.

(** Each module of [m] is in [good] or has an error in [f]. *)
Definition told_of {E} (m good : N) (f : FailedModules E) : Prop :=
  faligned f /\ forall i, N.testbit m i = true -> N.testbit good i = true \/ N.testbit (fm_modules f) i = true.

Lemma count_set m i : mask_ok m = true -> i < 64 -> N.testbit m i = false -> m_count (N.lor m (N.shiftl 1 i)) = S (m_count m).
Proof.
  intros Hm Hi Hb. assert (Ho : mask_ok (N.shiftl 1 i) = true).
  { apply mask_ok_testbit. intros j. rewrite shiftl_bit. intros H. apply N.eqb_eq in H. lia. }
  pose proof (count_union m (N.shiftl 1 i) Hm Ho) as K. unfold m_or, m_and in K.
  assert (Z : N.land m (N.shiftl 1 i) = 0).
  { apply mask_ext. intros j. rewrite N.land_spec, shiftl_bit, N.bits_0, (N.eqb_sym i j). destruct (N.eqb_spec j i) as [->|]; [now rewrite Hb|apply andb_false_r]. }
  rewrite Z in K. assert (C1 : m_count (N.shiftl 1 i) = 1%nat).
  { rewrite count_to_indices by exact Ho. assert (E : to_indices (N.shiftl 1 i) = [i]); [|now rewrite E].
    apply sorted_lt_ext; [apply to_indices_sorted|repeat constructor|]. intros j. rewrite in_to_indices_ok by exact Ho.
    rewrite shiftl_bit, N.eqb_eq. cbn [In]. intuition congruence. }
  rewrite C1 in K. change (m_count 0) with 0%nat in K. lia.
Qed.
Lemma failed_merge_ok {E} (x y : FailedModules E) : faligned x -> faligned y -> faligned (failed_merge x y).
Proof.
  intros Hx Hy. unfold faligned, failed_merge. destruct (merge_module_data _ _ _ _) as [m d] eqn:E0. cbn [fm_modules fm_errors].
  exact (proj1 (merge_eq _ _ _ _ _ _ Hx Hy E0)).
Qed.

Section Cover.
  Context {P : Type} (reads : Identifier -> outcome DecodeError (list MemoryRead))
          (parse : Identifier -> list (list N) -> outcome DecodeError P) (m : N).
  Record kept (pend : list N) (s : parsing P) : Prop := {
    kt_ok : mask_ok (ps_modules s) = true;
    kt_al : aligned (ps_failed s) (ps_errors s);
    kt_apart : forall i, N.testbit (ps_modules s) i = true -> N.testbit (ps_failed s) i = false;
    kt_cover : forall i, N.testbit m i = true -> N.testbit (ps_modules s) i = true \/ N.testbit (ps_failed s) i = true;
    kt_pend : forall i, In i pend -> N.testbit (ps_modules s) i = true;
    kt_nodup : NoDup pend }.
  Lemma kept_fail s i e pend s' : kept (i :: pend) s -> parse_fail s i e = Ok s' -> kept pend s'.
  Proof.
    intros [H1 H2 H3 H4 H5 H6]. unfold parse_fail, m_clear, m_set, MAX_INDEX. destruct (N.leb_spec 64 i) as [|Hi]; [discriminate|].
    cbn [ounwrap obind]. intros [= <-]. inversion H6 as [|? ? N1 N2]; subst.
    assert (R : forall j, N.testbit (N.land (ps_modules s) (not64 (N.shiftl 1 i))) j = N.testbit (ps_modules s) j && negb (j =? i)).
    { intros j. change (N.land (ps_modules s) (not64 (N.shiftl 1 i))) with (m_remove (ps_modules s) (N.shiftl 1 i)).
      now rewrite m_remove_spec, shiftl_bit, (N.eqb_sym i j) by exact H1. }
    assert (Fi : N.testbit (ps_failed s) i = false) by (apply H3, H5; now left).
    constructor; cbn [ps_modules ps_failed ps_errors ps_data].
    - now apply (mask_ok_remove _ (N.shiftl 1 i)).
    - destruct H2 as [M L]. split.
      + rewrite mask_ok_lor, M. cbn. apply mask_ok_testbit. intros j. rewrite shiftl_bit. intros H. apply N.eqb_eq in H. lia.
      + rewrite app_length, count_set by assumption. cbn. lia.
    - intros j. rewrite R, N.lor_spec, shiftl_bit, (N.eqb_sym i j), andb_true_iff, negb_true_iff. intros [K1 K2]. now rewrite (H3 j K1), K2.
    - intros j Hj. rewrite R, N.lor_spec, shiftl_bit, (N.eqb_sym i j). destruct (j =? i); [right; apply orb_true_r|].
      destruct (H4 j Hj) as [K|K]; rewrite K; auto.
    - intros j Hj. rewrite R, H5 by (now right). apply negb_true_iff, N.eqb_neq. congruence.
    - exact N2.
  Qed.
  Lemma kept_one id rs s i pend s' : kept (i :: pend) s -> parse_one parse id rs s i = Ok s' -> kept pend s'.
  Proof.
    intros K. unfold parse_one. destruct (first_err rs i) as [e|]; [now apply kept_fail|].
    match goal with |- context [omapM ?g rs] => destruct (omapM g rs) as [ds| |] end; cbn [obind]; try discriminate.
    destruct (parse id ds) as [x|e|]; [|now apply kept_fail|discriminate]. intros [= <-].
    destruct K as [H1 H2 H3 H4 H5 H6]. inversion H6; subst. constructor; cbn; auto. intros j Hj. apply H5. now right.
  Qed.
  Lemma kept_each id rs l : forall pend s s', kept (l ++ pend) s -> parse_each parse id rs l s = Ok s' -> kept pend s'.
  Proof.
    induction l as [|i l IH]; intros pend s s' K E; cbn [parse_each app] in *; [now injection E as <-|].
    destruct (parse_one parse id rs s i) as [s1| |] eqn:E1; cbn [obind] in E; try discriminate.
    exact (IH pend s1 s' (kept_one _ _ _ _ _ _ K E1) E).
  Qed.
  Lemma kept_groups {St} (sp : St -> Rpc -> St * reply) gs : forall w w' s s', kept (concat (map (fun g : Identifier * ModuleId => to_indices (snd g)) gs)) s ->
    parse_groups sp reads parse gs s w = (w', Ok s') -> kept [] s'.
  Proof.
    induction gs as [|[id mk] gs IH]; intros w w' s s' K E; cbn [parse_groups] in E; [now injection E as _ <-|].
    apply cbind_inv in E. destruct E as (w1 & rds & _ & E). apply cbind_inv in E. destruct E as (w2 & rs & _ & E).
    apply cbind_inv in E. destruct E as (w3 & s1 & E1 & E). injection E1 as _ E1. cbn [map concat snd] in K.
    exact (IH _ _ _ _ (kept_each _ _ _ _ _ _ K E1) E).
  Qed.
End Cover.

Section Told.
  Context {St : Type} (a : honest St) (view : St -> N -> slot) (Hok : honest_ok a) (Hd : drives a view).
  Implicit Type w : world St.
  Local Notation sp := (honest_sp a).

  Lemma rrep_told_of {P} m f (r : Result P) : rrep m f r -> told_of m (mr_modules r) (mr_failures r).
  Proof.
    intros R. split; [apply R|]. intros i Hi. rewrite (rrep_modules _ _ _ i R), (rrep_failed _ _ _ i R), Hi. destruct (f i); auto.
  Qed.
  Lemma query_told_of {P} reads (parse : Identifier -> list (list N) -> outcome DecodeError P) m w w' r : mask_ok m = true ->
    parse_modules_by_identifier sp reads parse m w = (w', Ok r) -> told_of m (mr_modules r) (mr_failures r).
  Proof.
    intros Hm E. unfold parse_modules_by_identifier in E. apply cbind_inv in E. destruct E as (w1 & ri & E1 & E).
    destruct (live_identifier a view Hok Hd w m (fun i => view (w_sp w) i) (fun i => eq_refl) Hm) as (ri' & w1' & f & E1' & R & _).
    rewrite E1 in E1'. injection E1' as <- <-. pose proof R as [[Ai Af] _].
    apply cbind_inv in E. destruct E as (w1' & gs & Eg & E). injection Eg as <- Eg.
    destruct (split_groups _ _ Ai) as (gs' & Eg' & Hgs). rewrite Eg in Eg'. injection Eg' as <-.
    apply cbind_inv in E. destruct E as (w2 & s & E2 & E). injection E as <- <-.
    assert (H64 : Forall (fun p : N * Identifier => fst p < 64) (zip_data (mr_modules ri) (mr_data ri))).
    { apply Forall_forall. intros [i x] H. apply in_zip_get in H. cbn [fst]. apply (proj1 (mask_ok_testbit _) (proj1 Ai)). now rewrite (testbit_get _ _ i Ai), H. }
    destruct (groups_nodup reads parse (fun _ _ => inr 0) _ gs Hgs (zip_nodup _ _) H64) as (Gd & Gi & _).
    apply (kept_groups reads parse m) in E2.
    - destruct E2 as [K1 K2 K3 K4 K5 K6]. split; [exact K2|exact K4].
    - constructor; cbn [ps_modules ps_failed ps_errors]; auto.
      + apply Ai.
      + intros i. rewrite (rrep_modules _ _ _ i R), (rrep_failed _ _ _ i R). now destruct (N.testbit m i), (f i).
      + apply (rrep_told_of _ _ _ R).
      + intros i. rewrite Gi, in_map_iff. intros ([j x] & <- & Hx). apply in_zip_get in Hx. cbn [fst]. rewrite (testbit_get _ _ j Ai). now rewrite Hx.
  Qed.
  Lemma power_told_of m w w' r : mask_ok m = true -> power sp m w = (w', Ok r) -> told_of m (mr_modules r) (mr_failures r).
  Proof.
    intros Hm E. unfold power in E. apply cbind_inv in E. destruct E as (w1 & s & E1 & E).
    destruct (honest_status a Hok w m Hm) as (r' & E' & _ & R). rewrite E1 in E'. injection E' as -> ->. pose proof R as [[As Fs] _].
    destruct (filter_module_data (mr_modules r') (mr_data r') _) as [powered pst] eqn:EP.
    destruct (filter_eq _ _ _ _ _ (proj1 As) EP) as [Ap Gp].
    destruct (filter_module_data powered pst _) as [in_reset irst] eqn:ER.
    destruct (filter_eq _ _ _ _ _ (proj1 Ap) ER) as [Ar Gr].
    destruct (remove_module_data powered pst in_reset) as [rdb rst] eqn:ED.
    destruct (remove_eq _ _ _ _ _ Ap ED) as [Ad Gd].
    apply cbind_inv in E. destruct E as (w2 & r2 & E2 & E).
    assert (T2 : told_of rdb (mr_modules r2) (mr_failures r2)).
    { destruct (Nat.eqb (m_count rdb) 0) eqn:Z.
      - injection E2 as _ <-. split; [split; reflexivity|]. apply Nat.eqb_eq in Z. apply count0 in Z; [|apply Ad]. subst rdb. intros i. now rewrite N.bits_0.
      - apply cbind_inv in E2. destruct E2 as (w3 & rc & E3 & E2). apply query_told_of in E3; [|apply Ad].
        destruct (filter_module_data rdb rst _) as [mm rs']. injection E2 as _ <-. exact E3. }
    unfold merge_module_data in E. injection E as _ <-. cbn [mr_modules mr_failures]. split; [apply failed_merge_ok; [apply T2|exact Fs]|].
    intros i Hi. destruct (proj2 (rrep_told_of _ _ _ R) i Hi) as [K|K]; [|right; now rewrite failed_merge_bit, K, orb_true_r].
    rewrite failed_merge_bit. rewrite !m_merge_spec, m_remove_spec by apply As. rewrite K.
    destruct (N.testbit powered i) eqn:Kp; [|left; reflexivity]. destruct (N.testbit in_reset i) eqn:Kr; [left; reflexivity|].
    assert (Kd : N.testbit rdb i = true).
    { rewrite (testbit_get _ _ i Ad), Gd, Kr. rewrite (testbit_get _ _ i Ap) in Kp. exact Kp. }
    destruct (proj2 T2 i Kd) as [X|X]; rewrite X; [left|right]; now rewrite ?orb_true_r.
  Qed.
End Told.
