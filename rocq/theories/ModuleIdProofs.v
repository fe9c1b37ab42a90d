(** Proofs about ModuleId.v. *)
From Verif Require Import Tac ModuleId.

(** The datum stored for port [i] in a (mask, list) pair. *)
Definition get {A} (m : ModuleId) (d : list A) (i : N) : option A := lookup i (zip_data m d).

(** A mask with exactly one datum per member. *)
Definition aligned {A} (m : ModuleId) (d : list A) : Prop :=
  mask_ok m = true /\ length d = m_count m.

Lemma shiftl1 i : N.shiftl 1 i = 2 ^ i.
Proof. rewrite N.shiftl_1_l. reflexivity. Qed.

Lemma m_contains_testbit m i : m_contains m i = N.testbit m i.
Proof.
  unfold m_contains. rewrite shiftl1.
  destruct (N.testbit m i) eqn:Hb.
  - destruct (N.eqb_spec (N.land m (2 ^ i)) 0) as [He|]; [|reflexivity].
    assert (H : N.testbit (N.land m (2 ^ i)) i = true).
    { rewrite N.land_spec, Hb, N.pow2_bits_true. reflexivity. }
    rewrite He, N.bits_0 in H. discriminate.
  - replace (N.land m (2 ^ i)) with 0; [reflexivity|].
    symmetry. apply N.bits_inj_0. intros k.
    rewrite N.land_spec, N.pow2_bits_eqb.
    destruct (N.eqb_spec i k) as [->|]; [now rewrite Hb | apply andb_false_r].
Qed.

Lemma mask_ok_testbit m : mask_ok m = true <-> (forall i, N.testbit m i = true -> i < 64).
Proof.
  unfold mask_ok. rewrite N.ltb_lt. split.
  - intros Hm i Hi. destruct (N.lt_ge_cases i 64) as [|Hge]; [assumption|].
    exfalso. destruct (N.eq_dec m 0) as [->|Hz]; [now rewrite N.bits_0 in Hi|].
    rewrite N.bits_above_log2 in Hi; [discriminate|].
    apply N.lt_le_trans with 64; [|assumption].
    apply N.log2_lt_pow2; [lia|assumption].
  - intros H. destruct (N.eq_dec m 0) as [->|Hz]; [reflexivity|].
    apply N.log2_lt_pow2; [lia|]. apply H. now apply N.bit_log2.
Qed.

Lemma testbit_mod64 m i : mask_ok m = true -> 64 <= i -> N.testbit m i = false.
Proof.
  intros Hm Hi. destruct (N.testbit m i) eqn:E; [|reflexivity].
  apply (proj1 (mask_ok_testbit m) Hm) in E. lia.
Qed.

Lemma not64_spec m i : N.testbit (not64 m) i = (i <? 64) && negb (N.testbit m i).
Proof.
  unfold not64. rewrite N.ldiff_spec.
  destruct (N.ltb_spec i 64).
  - now rewrite N.ones_spec_low.
  - rewrite N.ones_spec_high; [reflexivity|assumption].
Qed.

Lemma mask_ok_not64 m : mask_ok (not64 m) = true.
Proof.
  apply mask_ok_testbit. intros i. rewrite not64_spec. rewrite andb_true_iff. lia.
Qed.

Lemma mask_ok_lor a b : mask_ok (N.lor a b) = mask_ok a && mask_ok b.
Proof.
  apply eq_true_iff_eq. rewrite andb_true_iff, !mask_ok_testbit. split.
  - intros H. split; intros i Hi; apply H; rewrite N.lor_spec, Hi; auto with bool.
  - intros [Ha Hb] i. rewrite N.lor_spec, orb_true_iff. intros [|]; auto.
Qed.

Lemma mask_ok_land_l a b : mask_ok a = true -> mask_ok (N.land a b) = true.
Proof.
  rewrite !mask_ok_testbit. intros H i. rewrite N.land_spec, andb_true_iff. intros [? _]; auto.
Qed.

Lemma mask_ok_remove a b : mask_ok a = true -> mask_ok (m_remove a b) = true.
Proof. apply mask_ok_land_l. Qed.

Lemma m_remove_spec a b i : mask_ok a = true ->
  N.testbit (m_remove a b) i = N.testbit a i && negb (N.testbit b i).
Proof.
  intros Ha. unfold m_remove. rewrite N.land_spec, not64_spec.
  destruct (N.testbit a i) eqn:E; [|reflexivity].
  apply (proj1 (mask_ok_testbit a) Ha) in E. apply N.ltb_lt in E. now rewrite E.
Qed.

Lemma m_merge_spec a b i : N.testbit (m_merge a b) i = N.testbit a i || N.testbit b i.
Proof. apply N.lor_spec. Qed.

Lemma mask_ok_merge a b : mask_ok a = true -> mask_ok b = true -> mask_ok (m_merge a b) = true.
Proof. intros Ha Hb. unfold m_merge. rewrite mask_ok_lor, Ha, Hb. reflexivity. Qed.

Lemma mask_ext a b : (forall i, N.testbit a i = N.testbit b i) -> a = b.
Proof. apply N.bits_inj. Qed.

(** to_indices *)
Lemma in_to_indices m i : In i (to_indices m) <-> i < 64 /\ N.testbit m i = true.
Proof.
  unfold to_indices. rewrite filter_In, in_nrange, m_contains_testbit.
  change (N.of_nat 64) with 64. intuition lia.
Qed.

Lemma in_to_indices_ok m i : mask_ok m = true -> In i (to_indices m) <-> N.testbit m i = true.
Proof.
  intros Hm. rewrite in_to_indices. split; [tauto|]. intros H. split; [|assumption].
  now apply (proj1 (mask_ok_testbit m) Hm).
Qed.

Lemma to_indices_sorted m : StronglySorted N.lt (to_indices m).
Proof. apply sorted_filter, nrange_sorted. Qed.

Lemma to_indices_filter m : to_indices m = filter (m_contains m) (nrange 0 64).
Proof. reflexivity. Qed.

#[global] Opaque to_indices.

Lemma to_indices_nodup m : NoDup (to_indices m).
Proof. apply sorted_lt_nodup, to_indices_sorted. Qed.

Lemma popcount_div2 m : popcount m = ((if N.odd m then 1 else 0) + popcount (N.div2 m))%nat.
Proof. destruct m as [|[p|p|]]; reflexivity. Qed.

Lemma popcount_filter (k : nat) m :
  m < 2 ^ N.of_nat k -> popcount m = length (filter (N.testbit m) (nrange 0 k)).
Proof.
  revert m; induction k as [|k IH]; intros m Hm.
  - change (2 ^ N.of_nat 0) with 1 in Hm. assert (m = 0) as -> by lia. reflexivity.
  - assert (Hd : N.div2 m < 2 ^ N.of_nat k).
    { rewrite N.div2_div. apply N.div_lt_upper_bound; [lia|].
      rewrite <- N.pow_succ_r'. rewrite Nat2N.inj_succ in Hm. exact Hm. }
    rewrite popcount_div2, (IH _ Hd). cbn [nrange filter].
    rewrite nrange_map_succ, filter_map_comm.
    rewrite N.bit0_odd.
    replace (filter (fun x => N.testbit m (N.succ x)) (nrange 0 k))
      with (filter (N.testbit (N.div2 m)) (nrange 0 k)).
    + destruct (N.odd m); cbn [length]; rewrite map_length; reflexivity.
    + apply filter_ext_in. intros a _. symmetry. apply N.testbit_succ_r_div2. lia.
Qed.

Lemma count_to_indices m : mask_ok m = true -> m_count m = length (to_indices m).
Proof.
  intros Hm. unfold m_count. rewrite (popcount_filter 64).
  - rewrite to_indices_filter. f_equal. apply filter_ext. intros i. now rewrite m_contains_testbit.
  - apply N.ltb_lt. exact Hm.
Qed.

Lemma to_indices_ext a b : mask_ok a = true -> mask_ok b = true ->
  to_indices a = to_indices b -> a = b.
Proof.
  intros Ha Hb He. apply mask_ext. intros i. apply eq_true_iff_eq.
  rewrite <- !in_to_indices_ok by assumption. now rewrite He.
Qed.

Lemma m_is_empty_spec m : mask_ok m = true -> (m_is_empty m = true <-> m = 0).
Proof.
  intros Hm. unfold m_is_empty. rewrite Nat.eqb_eq. split; [|intros ->; reflexivity].
  unfold m_count. destruct m as [|p]; [reflexivity|]. cbn. intros H. exfalso.
  clear Hm. induction p as [p IH|p IH|]; cbn in H; [discriminate|auto|discriminate].
Qed.

(** set / clear / from_indices *)
Lemma m_set_spec m i m' : m_set m i = Ok m' ->
  i < 64 /\ forall j, N.testbit m' j = N.testbit m j || (i =? j).
Proof.
  unfold m_set, MAX_INDEX. destruct (N.leb_spec 64 i); [discriminate|].
  intros E. injection E as <-. split; [assumption|]. intros j.
  now rewrite shiftl1, N.lor_spec, N.pow2_bits_eqb.
Qed.

Lemma m_clear_spec m i m' : mask_ok m = true -> m_clear m i = Ok m' ->
  i < 64 /\ forall j, N.testbit m' j = N.testbit m j && negb (i =? j).
Proof.
  intros Hm. unfold m_clear, MAX_INDEX. destruct (N.leb_spec 64 i); [discriminate|].
  intros E. injection E as <-. split; [assumption|]. intros j.
  rewrite shiftl1. change (N.land m (not64 (2 ^ i))) with (m_remove m (2 ^ i)).
  now rewrite m_remove_spec, N.pow2_bits_eqb.
Qed.

Lemma from_index_iter_ok l out : Forall (fun i => i < 64) l ->
  exists m, from_index_iter_loop out l = Ok m /\
    forall j, N.testbit m j = N.testbit out j || existsb (N.eqb j) l.
Proof.
  revert out; induction l as [|i l IH]; intros out Hl; cbn [from_index_iter_loop].
  - exists out. split; [reflexivity|]. intros j. cbn. now rewrite orb_false_r.
  - inversion Hl as [|? ? Hi Hl']; subst. unfold MAX_INDEX.
    destruct (N.leb_spec 64 i); [lia|].
    destruct (IH (N.lor out (N.shiftl 1 i)) Hl') as (m & Hm & Hs).
    exists m. split; [exact Hm|]. intros j. rewrite Hs, N.lor_spec, shiftl1, N.pow2_bits_eqb.
    cbn. rewrite (N.eqb_sym j i). now rewrite orb_assoc.
Qed.

Lemma from_index_iter_err l out i : from_index_iter_loop out l = Err (mkInvalidPort i) ->
  exists a b, l = a ++ i :: b /\ 64 <= i /\ Forall (fun x => x < 64) a.
Proof.
  revert out; induction l as [|k l IH]; intros out; cbn [from_index_iter_loop]; [discriminate|].
  unfold MAX_INDEX. destruct (N.leb_spec 64 k).
  - intros E. injection E as ->. exists [], l. auto.
  - intros E. destruct (IH _ E) as (a & b & -> & Hi & Ha).
    exists (k :: a), b. repeat split; [assumption|]. constructor; assumption.
Qed.

Lemma from_index_iter_cases l out :
  (exists m, from_index_iter_loop out l = Ok m) \/
  (exists i, from_index_iter_loop out l = Err (mkInvalidPort i)).
Proof.
  revert out; induction l as [|k l IH]; intros out; cbn [from_index_iter_loop]; [left; eauto|].
  destruct (MAX_INDEX <=? k); [right; eauto | apply IH].
Qed.

Lemma existsb_eqb_in j l : existsb (N.eqb j) l = true <-> In j l.
Proof.
  rewrite existsb_exists. split.
  - intros (x & Hx & E). apply N.eqb_eq in E. now subst.
  - intros H. exists j. split; [assumption|apply N.eqb_refl].
Qed.

Lemma from_indices_ok_iff l m :
  from_indices l = Ok m <->
  (Forall (fun i => i < 64) l /\ forall j, N.testbit m j = true <-> In j l).
Proof.
  unfold from_indices. split.
  - intros E. assert (Hl : Forall (fun i => i < 64) l).
    { clear -E. revert E. generalize 0 as o. induction l as [|k l IH]; intros o; [constructor|].
      cbn [from_index_iter_loop]. unfold MAX_INDEX at 1. destruct (N.leb_spec 64 k); [discriminate|].
      intros E. constructor; [assumption|]. eapply IH; exact E. }
    split; [exact Hl|]. destruct (from_index_iter_ok l 0 Hl) as (m' & E' & Hs).
    rewrite E in E'. injection E' as <-. intros j. rewrite Hs, N.bits_0. cbn [orb].
    apply existsb_eqb_in.
  - intros (Hl & Hs). destruct (from_index_iter_ok l 0 Hl) as (m' & E' & Hs').
    rewrite E'. f_equal. apply mask_ext. intros j. apply eq_true_iff_eq.
    rewrite Hs, Hs', N.bits_0. cbn [orb]. apply existsb_eqb_in.
Qed.

Lemma from_to_indices m : mask_ok m = true -> from_indices (to_indices m) = Ok m.
Proof.
  intros Hm. apply from_indices_ok_iff. split.
  - apply Forall_forall. intros i. rewrite in_to_indices. tauto.
  - intros j. now rewrite in_to_indices_ok.
Qed.

(** Aligned data: [get] determines everything. *)
Lemma aligned_length {A} m (d : list A) : aligned m d -> length (to_indices m) = length d.
Proof. intros [Hm Hl]. rewrite Hl. symmetry. now apply count_to_indices. Qed.

Lemma map_fst_combine {A B} (a : list A) (b : list B) :
  length a = length b -> map fst (combine a b) = a.
Proof.
  revert b; induction a as [|x a IH]; intros [|y b] H; cbn in *; try discriminate; [reflexivity|].
  f_equal. apply IH. now injection H.
Qed.

Lemma map_snd_combine {A B} (a : list A) (b : list B) :
  length a = length b -> map snd (combine a b) = b.
Proof.
  revert b; induction a as [|x a IH]; intros [|y b] H; cbn in *; try discriminate; [reflexivity|].
  f_equal. apply IH. now injection H.
Qed.

Lemma zip_fst {A} m (d : list A) : aligned m d -> map fst (zip_data m d) = to_indices m.
Proof. intros H. apply map_fst_combine. now apply aligned_length. Qed.

Lemma zip_snd {A} m (d : list A) : aligned m d -> map snd (zip_data m d) = d.
Proof. intros H. apply map_snd_combine. now apply aligned_length. Qed.

Lemma get_none {A} m (d : list A) i : aligned m d -> (get m d i = None <-> N.testbit m i = false).
Proof.
  intros H. unfold get. rewrite lookup_none, zip_fst by assumption.
  rewrite in_to_indices_ok by apply H. rewrite not_true_iff_false. reflexivity.
Qed.

Lemma get_some {A} m (d : list A) i : aligned m d ->
  ((exists x, get m d i = Some x) <-> N.testbit m i = true).
Proof.
  intros H. generalize (get_none m d i H). destruct (get m d i) as [x|]; intros Hn.
  - split; [|eauto]. intros _. destruct (N.testbit m i); [reflexivity|].
    now discriminate (proj2 Hn eq_refl).
  - split; [intros [x Hx]; discriminate|]. rewrite (proj1 Hn eq_refl). discriminate.
Qed.

(** Strictly key-sorted association lists are determined by their lookups. *)
Lemma assoc_ext {A} (l l' : list (N * A)) :
  StronglySorted N.lt (map fst l) -> StronglySorted N.lt (map fst l') ->
  (forall i, lookup i l = lookup i l') -> l = l'.
Proof.
  intros Hs Hs' He.
  assert (Hk : map fst l = map fst l').
  { apply sorted_lt_ext; [assumption|assumption|]. intros x.
    assert (H1 := lookup_none x l). assert (H2 := lookup_none x l'). rewrite He in H1.
    rewrite H1 in H2. destruct (in_dec N.eq_dec x (map fst l)); destruct (in_dec N.eq_dec x (map fst l')); tauto. }
  revert l' Hs' He Hk. induction l as [|[i x] l IH]; intros [|[j y] l'] Hs' He Hk; cbn in Hk; try discriminate; [reflexivity|].
  injection Hk as -> Hk. cbn in Hs, Hs'.
  inversion Hs as [|? ? Hs1 Hf1]; subst. inversion Hs' as [|? ? Hs2 Hf2]; subst.
  f_equal.
  - specialize (He j). cbn in He. rewrite N.eqb_refl in He. injection He as ->. reflexivity.
  - apply IH; try assumption. intros k. assert (He' := He k). cbn in He'.
    destruct (N.eqb_spec k j) as [E|E]; [|assumption]. rewrite E.
    rewrite Forall_forall in Hf1, Hf2.
    rewrite (proj2 (lookup_none j l)), (proj2 (lookup_none j l')); [reflexivity| |].
    + intros H. specialize (Hf2 _ H). lia.
    + intros H. specialize (Hf1 _ H). lia.
Qed.

Lemma zip_sorted {A} m (d : list A) : StronglySorted N.lt (map fst (zip_data m d)).
Proof.
  unfold zip_data. generalize (to_indices_sorted m). generalize (to_indices m) as l.
  intros l; revert d; induction l as [|i l IH]; intros d Hs; cbn; [constructor|].
  destruct d as [|x d]; cbn; [constructor|].
  inversion Hs as [|? ? Hs' Hf]; subst. constructor; [now apply IH|].
  rewrite Forall_forall in *. intros k Hk. apply Hf. apply in_map_iff in Hk.
  destruct Hk as ([k' z] & <- & Hin). apply in_combine_l in Hin. exact Hin.
Qed.

Lemma aligned_ext {A} m (d : list A) m' d' :
  aligned m d -> aligned m' d' -> (forall i, get m d i = get m' d' i) -> m = m' /\ d = d'.
Proof.
  intros H H' He.
  assert (Hz : zip_data m d = zip_data m' d').
  { unfold get in He. apply assoc_ext; [apply zip_sorted|apply zip_sorted|exact He]. }
  split.
  - apply to_indices_ext; [apply H|apply H'|]. rewrite <- (zip_fst m d H), <- (zip_fst m' d' H'). now rewrite Hz.
  - rewrite <- (zip_snd m d H), <- (zip_snd m' d' H'). now rewrite Hz.
Qed.

(** A key-sorted list whose keys are exactly the members of a mask is an aligned pair. *)
Lemma aligned_of_assoc {A} m (l : list (N * A)) :
  mask_ok m = true -> map fst l = to_indices m ->
  aligned m (map snd l) /\ zip_data m (map snd l) = l.
Proof.
  intros Hm Hk. split.
  - split; [assumption|]. rewrite map_length, count_to_indices by assumption.
    rewrite <- Hk. now rewrite map_length.
  - unfold zip_data. rewrite <- Hk. clear. induction l as [|[i x] l IH]; cbn; [reflexivity|].
    now rewrite IH.
Qed.

Lemma lookup_filter {A} (f : N * A -> bool) (l : list (N * A)) i :
  NoDup (map fst l) ->
  lookup i (filter f l) = match lookup i l with
                          | Some x => if f (i, x) then Some x else None
                          | None => None
                          end.
Proof.
  induction l as [|[j y] l IH]; intros Hnd; cbn; [reflexivity|].
  cbn in Hnd. inversion Hnd as [|? ? Hn Hnd']; subst.
  destruct (f (j, y)) eqn:Ef; cbn; destruct (N.eqb_spec i j) as [->|]; auto.
  - now rewrite Ef.
  - rewrite Ef, IH by assumption. now rewrite (proj2 (lookup_none j l) Hn).
Qed.

Lemma zip_nodup {A} m (d : list A) : NoDup (map fst (zip_data m d)).
Proof. apply sorted_lt_nodup, zip_sorted. Qed.

Lemma sorted_map_fst_filter {A} (f : N * A -> bool) l :
  StronglySorted N.lt (map fst l) -> StronglySorted N.lt (map fst (filter f l)).
Proof.
  induction l as [|[i x] l IH]; cbn; [constructor|]. intros Hs.
  inversion Hs as [|? ? Hs' Hf]; subst. destruct (f (i, x)); cbn; [|auto].
  constructor; [auto|]. rewrite Forall_forall in *. intros k Hk. apply Hf.
  apply in_map_iff in Hk. destruct Hk as (p & <- & Hp). apply filter_In in Hp.
  apply in_map. tauto.
Qed.

(** remove_module_data *)
Lemma remove_module_data_spec {A} m (d : list A) r : aligned m d ->
  let '(m', d') := remove_module_data m d r in
  m' = m_remove m r /\ aligned m' d' /\
  zip_data m' d' = filter (fun p => negb (N.testbit r (fst p))) (zip_data m d).
Proof.
  intros H. unfold remove_module_data.
  set (l := filter _ (zip_data m d)).
  assert (Hl : l = filter (fun p => negb (N.testbit r (fst p))) (zip_data m d)).
  { apply filter_ext. intros [i x]. now rewrite m_contains_testbit. }
  assert (Hk : map fst l = to_indices (m_remove m r)).
  { apply sorted_lt_ext; [apply sorted_map_fst_filter, zip_sorted | apply to_indices_sorted |].
    intros i. rewrite in_to_indices_ok by (apply mask_ok_remove, H).
    rewrite m_remove_spec by apply H. rewrite andb_true_iff, negb_true_iff.
    rewrite <- (in_to_indices_ok m i) by apply H. rewrite <- (zip_fst m d H).
    rewrite Hl. rewrite !in_map_iff. split.
    - intros ([k x] & <- & Hin). apply filter_In in Hin. cbn in *. rewrite negb_true_iff in Hin.
      split; [|tauto]. exists (k, x). tauto.
    - intros (([k x] & <- & Hin) & Hr). exists (k, x). split; [reflexivity|].
      apply filter_In. cbn in *. now rewrite Hr. }
  split; [reflexivity|].
  destruct (aligned_of_assoc (m_remove m r) l) as (Ha & Hz); [apply mask_ok_remove, H|exact Hk|].
  split; [exact Ha|]. now rewrite Hz.
Qed.

Lemma get_remove {A} m (d : list A) r i : aligned m d ->
  get (fst (remove_module_data m d r)) (snd (remove_module_data m d r)) i =
  if N.testbit r i then None else get m d i.
Proof.
  intros H. generalize (remove_module_data_spec m d r H).
  destruct (remove_module_data m d r) as [m' d']. intros (_ & _ & Hz). cbn [fst snd].
  unfold get. rewrite Hz, lookup_filter by apply zip_nodup. cbn [fst].
  destruct (lookup i (zip_data m d)); destruct (N.testbit r i); reflexivity.
Qed.

Lemma aligned_remove {A} m (d : list A) r : aligned m d ->
  aligned (fst (remove_module_data m d r)) (snd (remove_module_data m d r)).
Proof.
  intros H. generalize (remove_module_data_spec m d r H).
  destruct (remove_module_data m d r) as [m' d']. tauto.
Qed.

(** keep_module_data *)
Lemma get_keep {A} m (d : list A) k i : aligned m d ->
  get (fst (keep_module_data m d k)) (snd (keep_module_data m d k)) i =
  if N.testbit k i then get m d i else None.
Proof.
  intros H. unfold keep_module_data. rewrite get_remove by assumption. rewrite not64_spec.
  destruct (N.testbit k i); [now rewrite andb_false_r|]. rewrite andb_true_r.
  destruct (N.ltb_spec i 64); [reflexivity|].
  apply (get_none m d i H). apply testbit_mod64; [apply H|assumption].
Qed.

Lemma aligned_keep {A} m (d : list A) k : aligned m d ->
  aligned (fst (keep_module_data m d k)) (snd (keep_module_data m d k)).
Proof. apply aligned_remove. Qed.

Lemma keep_fst {A} m (d : list A) k : mask_ok m = true ->
  fst (keep_module_data m d k) = N.land m k.
Proof.
  intros Hm. cbn. apply mask_ext. intros i. rewrite m_remove_spec, N.land_spec, not64_spec by assumption.
  destruct (N.testbit m i) eqn:E; [|reflexivity].
  apply (proj1 (mask_ok_testbit m) Hm) in E. apply N.ltb_lt in E. rewrite E.
  cbn. now rewrite negb_involutive.
Qed.

(** filter_module_data *)
Lemma fold_lor_spec {A} (l : list (N * A)) m0 i :
  N.testbit (fold_left (fun m p => N.lor m (N.shiftl 1 (fst p))) l m0) i =
  N.testbit m0 i || existsb (N.eqb i) (map fst l).
Proof.
  revert m0; induction l as [|[k x] l IH]; intros m0; cbn [fold_left map fst existsb].
  - now rewrite orb_false_r.
  - rewrite IH, N.lor_spec, shiftl1, N.pow2_bits_eqb, (N.eqb_sym i k). now rewrite orb_assoc.
Qed.

Lemma filter_module_data_spec {A} m (d : list A) f : mask_ok m = true ->
  let '(m', d') := filter_module_data m d f in
  aligned m' d' /\
  zip_data m' d' = filter (fun p => f (fst p) (snd p)) (zip_data m d).
Proof.
  intros Hm. unfold filter_module_data. cbv zeta.
  set (l := filter _ (zip_data m d)). set (m' := fold_left (fun (m : N) (p : N * A) => N.lor m (N.shiftl 1 (fst p))) l m_empty).
  change (let '(m', d') := (m', map snd l) in aligned m' d' /\ zip_data m' d' = l).
  assert (Hb : forall i, N.testbit m' i = existsb (N.eqb i) (map fst l)).
  { intros i. unfold m', m_empty. rewrite fold_lor_spec, N.bits_0. reflexivity. }
  assert (Hin : forall i, In i (map fst l) -> i < 64).
  { intros i Hi. apply in_map_iff in Hi. destruct Hi as ([k x] & <- & Hp).
    apply filter_In in Hp. destruct Hp as [Hp _]. apply in_combine_l in Hp.
    apply in_to_indices in Hp. cbn. tauto. }
  assert (Hm' : mask_ok m' = true).
  { apply mask_ok_testbit. intros i. rewrite Hb, existsb_eqb_in. apply Hin. }
  apply aligned_of_assoc; [exact Hm'|].
  apply sorted_lt_ext; [apply sorted_map_fst_filter, zip_sorted | apply to_indices_sorted |].
  intros i. rewrite in_to_indices_ok by exact Hm'. now rewrite Hb, existsb_eqb_in.
Qed.

Lemma aligned_filter {A} m (d : list A) f : mask_ok m = true ->
  aligned (fst (filter_module_data m d f)) (snd (filter_module_data m d f)).
Proof.
  intros H. generalize (filter_module_data_spec m d f H).
  destruct (filter_module_data m d f). tauto.
Qed.

Lemma get_filter {A} m (d : list A) f i : mask_ok m = true ->
  get (fst (filter_module_data m d f)) (snd (filter_module_data m d f)) i =
  match get m d i with
  | Some x => if f i x then Some x else None
  | None => None
  end.
Proof.
  intros H. generalize (filter_module_data_spec m d f H).
  destruct (filter_module_data m d f) as [m' d']. intros (_ & Hz). cbn [fst snd].
  unfold get. rewrite Hz, lookup_filter by apply zip_nodup. reflexivity.
Qed.

(** merge_module_data *)
Fixpoint merge_pairs {A} (f : list (N * A)) : list (N * A) -> list (N * A) :=
  fix go (s : list (N * A)) : list (N * A) :=
    match f, s with
    | [], _ => s
    | _, [] => f
    | (i, x) :: f', (j, y) :: s' =>
        match N.compare i j with
        | Lt => (i, x) :: merge_pairs f' s
        | Gt => (j, y) :: go s'
        | Eq => (j, y) :: merge_pairs f' s'
        end
    end.

Lemma merge_loop_pairs {A} (f s : list (N * A)) : merge_loop f s = map snd (merge_pairs f s).
Proof.
  revert s; induction f as [|[i x] f IHf]; intros s.
  - destruct s; reflexivity.
  - induction s as [|[j y] s IHs]; [reflexivity|].
    cbn [merge_loop merge_pairs]. destruct (N.compare i j); cbn [map snd].
    + now rewrite IHf.
    + now rewrite IHf.
    + f_equal. exact IHs.
Qed.

Lemma merge_pairs_spec {A} (f s : list (N * A)) :
  StronglySorted N.lt (map fst f) -> StronglySorted N.lt (map fst s) ->
  StronglySorted N.lt (map fst (merge_pairs f s)) /\
  (forall k, In k (map fst (merge_pairs f s)) <-> In k (map fst f) \/ In k (map fst s)) /\
  (forall k, lookup k (merge_pairs f s) =
             match lookup k s with Some y => Some y | None => lookup k f end).
Proof.
  revert s; induction f as [|[i x] f IHf]; intros s Hf Hs.
  - replace (merge_pairs [] s) with s by (destruct s; reflexivity).
    split; [assumption|]. split; [cbn; tauto|]. intros k. cbn. now destruct (lookup k s).
  - induction s as [|[j y] s IHs].
    + cbn [merge_pairs]. split; [assumption|]. split; [cbn; tauto|]. reflexivity.
    + cbn [map fst] in Hf, Hs.
      inversion Hf as [|? ? Hf1 Hff]; subst. inversion Hs as [|? ? Hs1 Hsf]; subst.
      assert (Hf0 := Forall_forall). rewrite Forall_forall in Hff, Hsf.
      cbn [merge_pairs]. destruct (N.compare_spec i j) as [Heq|Hlt|Hgt].
      * subst j. destruct (IHf s Hf1 Hs1) as (H1 & H2 & H3).
        split; [|split].
        -- cbn [map fst]. constructor; [assumption|]. apply Forall_forall. intros k Hk.
           apply H2 in Hk. destruct Hk; auto.
        -- intros k. cbn [map fst In]. rewrite H2. tauto.
        -- intros k. cbn [lookup]. destruct (N.eqb_spec k i) as [->|]; [reflexivity|]. apply H3.
      * destruct (IHf ((j, y) :: s) Hf1) as (H1 & H2 & H3); [assumption|].
        split; [|split].
        -- cbn [map fst]. constructor; [assumption|]. apply Forall_forall. intros k Hk.
           apply H2 in Hk. cbn [map fst In] in Hk. destruct Hk as [|[<-|Hk]]; auto.
           specialize (Hsf _ Hk). lia.
        -- intros k. cbn [map fst In]. rewrite H2. cbn [map fst In]. tauto.
        -- intros k. change (lookup k ((i, x) :: merge_pairs f ((j, y) :: s))) with
             (if k =? i then Some x else lookup k (merge_pairs f ((j, y) :: s))).
           rewrite H3. change (lookup k ((i, x) :: f)) with (if k =? i then Some x else lookup k f).
           destruct (N.eqb_spec k i) as [->|]; [|reflexivity].
           rewrite (proj2 (lookup_none i ((j, y) :: s))); [reflexivity|].
           cbn [map fst In]. intros [->|Hk]; [lia|]. specialize (Hsf _ Hk). lia.
      * destruct (IHs Hs1) as (H1 & H2 & H3).
        change ((fix go (s0 : list (N * A)) : list (N * A) :=
             match s0 with
             | [] => (i, x) :: f
             | (j0, y0) :: s' =>
                 match i ?= j0 with
                 | Eq => (j0, y0) :: merge_pairs f s'
                 | Lt => (i, x) :: merge_pairs f s0
                 | Gt => (j0, y0) :: go s'
                 end
             end) s) with (merge_pairs ((i, x) :: f) s).
        split; [|split].
        -- cbn [map fst]. constructor; [assumption|]. apply Forall_forall. intros k Hk.
           apply H2 in Hk. cbn [map fst In] in Hk. destruct Hk as [[<-|Hk]|]; auto.
           specialize (Hff _ Hk). lia.
        -- intros k. cbn [map fst In]. rewrite H2. cbn [map fst In]. tauto.
        -- intros k. change (lookup k ((j, y) :: merge_pairs ((i, x) :: f) s)) with
             (if k =? j then Some y else lookup k (merge_pairs ((i, x) :: f) s)).
           rewrite H3. change (lookup k ((j, y) :: s)) with (if k =? j then Some y else lookup k s).
           destruct (N.eqb_spec k j); reflexivity.
Qed.

Lemma merge_module_data_spec {A} m (d : list A) m2 d2 : aligned m d -> aligned m2 d2 ->
  let '(m', d') := merge_module_data m d m2 d2 in
  m' = m_merge m m2 /\ aligned m' d' /\
  (forall i, get m' d' i = match get m2 d2 i with Some x => Some x | None => get m d i end).
Proof.
  intros H H2. unfold merge_module_data. rewrite merge_loop_pairs.
  destruct (merge_pairs_spec (zip_data m d) (zip_data m2 d2)) as (Hs & Hk & Hl);
    [apply zip_sorted|apply zip_sorted|].
  assert (Hm : mask_ok (m_merge m m2) = true) by (apply mask_ok_merge; [apply H|apply H2]).
  destruct (aligned_of_assoc (m_merge m m2) (merge_pairs (zip_data m d) (zip_data m2 d2)) Hm) as (Ha & Hz).
  { apply sorted_lt_ext; [assumption|apply to_indices_sorted|]. intros i.
    rewrite Hk, !zip_fst by assumption. rewrite !in_to_indices_ok; try assumption; [|apply H2|apply H].
    rewrite m_merge_spec, orb_true_iff. tauto. }
  split; [reflexivity|]. split; [exact Ha|]. intros i. unfold get. rewrite Hz. apply Hl.
Qed.

Lemma aligned_merge {A} m (d : list A) m2 d2 : aligned m d -> aligned m2 d2 ->
  aligned (fst (merge_module_data m d m2 d2)) (snd (merge_module_data m d m2 d2)).
Proof.
  intros H H2. generalize (merge_module_data_spec m d m2 d2 H H2).
  destruct (merge_module_data m d m2 d2). tauto.
Qed.

Lemma get_merge {A} m (d : list A) m2 d2 i : aligned m d -> aligned m2 d2 ->
  get (fst (merge_module_data m d m2 d2)) (snd (merge_module_data m d m2 d2)) i =
  match get m2 d2 i with Some x => Some x | None => get m d i end.
Proof.
  intros H H2. generalize (merge_module_data_spec m d m2 d2 H H2).
  destruct (merge_module_data m d m2 d2). cbn [fst snd]. intros (_ & _ & Hg). apply Hg.
Qed.

(** Counting *)
Lemma count_union a b : mask_ok a = true -> mask_ok b = true ->
  (m_count (m_or a b) + m_count (m_and a b) = m_count a + m_count b)%nat.
Proof.
  intros Ha Hb. unfold m_or, m_and.
  rewrite !count_to_indices; try assumption;
    [|now apply mask_ok_land_l | rewrite mask_ok_lor, Ha, Hb; reflexivity].
  rewrite !to_indices_filter. generalize (nrange 0 64) as l. intros l.
  induction l as [|i l IH]; [reflexivity|]. cbn [filter].
  rewrite !m_contains_testbit, N.lor_spec, N.land_spec.
  destruct (N.testbit a i), (N.testbit b i); cbn [orb andb length]; lia.
Qed.

Lemma m_is_subset_spec a b :
  m_is_subset a b = true <-> (forall i, N.testbit b i = true -> N.testbit a i = true).
Proof.
  unfold m_is_subset. rewrite N.eqb_eq. split.
  - intros H i Hi. rewrite H, N.lor_spec, Hi. apply orb_true_r.
  - intros H. apply mask_ext. intros i. rewrite N.lor_spec.
    specialize (H i). destruct (N.testbit a i), (N.testbit b i); intuition congruence.
Qed.

Lemma mask_eq_iff_subset a b : (forall i, N.testbit a i = true <-> N.testbit b i = true) -> a = b.
Proof. intros H. apply mask_ext. intros i. apply eq_true_iff_eq, H. Qed.
