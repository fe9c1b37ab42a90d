(** Proofs about per-module results and split accesses. *)
From Verif Require Import Tac Spec SpecMessages SpecResults ModuleIdProofs ModuleIdProps MessageProofs
  LargeAccess.

(** ** Bridges *)
Lemma one_each_aligned {A} m (d : list A) : one_each m d <-> aligned m d.
Proof.
  unfold one_each, aligned. rewrite mask_ok_lt. split; intros [H1 H2]; split; try assumption.
  - rewrite count_to_indices by now apply mask_ok_lt. assumption.
  - rewrite count_to_indices in H2 by now apply mask_ok_lt. assumption.
Qed.

Lemma at_port_get {A} m (d : list A) i x : at_port m d i x <-> get m d i = Some x.
Proof.
  unfold at_port, get. split.
  - intros H. apply in_lookup; [apply zip_nodup|exact H].
  - intros H. now apply lookup_in in H.
Qed.

Lemma member_get {A} m (d : list A) i : aligned m d -> (member i m <-> exists x, get m d i = Some x).
Proof. intros H. rewrite (get_some m d i H). apply member_testbit. Qed.

Lemma find_lookup {A} i (l : list (N * A)) :
  match find (fun p => fst p =? i) l with Some (_, x) => Some x | None => None end = lookup i l.
Proof.
  induction l as [|[j x] l IH]; cbn; [reflexivity|]. rewrite (N.eqb_sym i j).
  destruct (j =? i); [reflexivity|exact IH].
Qed.

(** ** FailedModules *)
Definition faligned {E} (f : FailedModules E) : Prop := aligned (fm_modules f) (fm_errors f).
Definition fget {E} (f : FailedModules E) i := get (fm_modules f) (fm_errors f) i.

Lemma failed_nth_get {E} (f : FailedModules E) i : failed_nth f i = fget f i.
Proof. unfold failed_nth, failed_iter. apply find_lookup. Qed.

Lemma failed_merge_spec {E} (a b : FailedModules E) : faligned a -> faligned b ->
  faligned (failed_merge a b) /\
  fm_modules (failed_merge a b) = m_merge (fm_modules a) (fm_modules b) /\
  forall i, fget (failed_merge a b) i = match fget b i with Some e => Some e | None => fget a i end.
Proof.
  intros Ha Hb. unfold failed_merge, fget, faligned.
  generalize (merge_module_data_spec _ _ _ _ Ha Hb).
  destruct (merge_module_data _ _ _ _) as [m e]. cbn. tauto.
Qed.

Lemma faligned_success {E} : faligned (@failed_success E).
Proof. split; reflexivity. Qed.

Lemma failed_merge_correct {E} (a b : FailedModules E) : wf_failed a -> wf_failed b ->
  wf_failed (failed_merge a b) /\
  (forall i, member i (fm_modules (failed_merge a b)) <->
             member i (fm_modules a) \/ member i (fm_modules b)) /\
  (forall i e, at_port (fm_modules (failed_merge a b)) (fm_errors (failed_merge a b)) i e <->
     at_port (fm_modules b) (fm_errors b) i e \/
     (~ member i (fm_modules b) /\ at_port (fm_modules a) (fm_errors a) i e)).
Proof.
  unfold wf_failed. rewrite !one_each_aligned. intros Ha Hb.
  destruct (failed_merge_spec a b Ha Hb) as (Hm & Em & Hg). split; [exact Hm|]. split.
  - intros i. rewrite Em, !member_testbit, m_merge_spec, orb_true_iff. reflexivity.
  - intros i e. rewrite !at_port_get. fold (fget (failed_merge a b) i). rewrite Hg.
    rewrite (member_get _ _ i Hb). fold (fget b i) (fget a i).
    destruct (fget b i) as [x|]; split; intros H.
    + left. exact H.
    + destruct H as [H|[H _]]; [exact H|]. exfalso. eauto.
    + right. split; [intros [x Hx]; discriminate|exact H].
    + destruct H as [H|[_ H]]; [discriminate|exact H].
Qed.

Lemma failed_nth_correct {E} (f : FailedModules E) i e : wf_failed f ->
  (failed_nth f i = Some e <-> at_port (fm_modules f) (fm_errors f) i e) /\
  (failed_nth f i = None <-> ~ member i (fm_modules f)).
Proof.
  unfold wf_failed. rewrite one_each_aligned. intros H. rewrite failed_nth_get, at_port_get.
  split; [reflexivity|]. rewrite (member_get _ _ i H). unfold fget.
  destruct (get _ _ i) as [x|]; split; intros K; try reflexivity; try discriminate.
  - exfalso. apply K. eauto.
  - intros [y Hy]. discriminate.
Qed.

Lemma failed_success_correct {E} : wf_failed (@failed_success E) /\
  forall i, ~ member i (fm_modules (@failed_success E)) /\ failed_nth (@failed_success E) i = None.
Proof.
  split; [apply one_each_aligned, (@faligned_success E)|]. intros i. split.
  - rewrite member_testbit. cbn. rewrite N.bits_0. discriminate.
  - rewrite failed_nth_get. reflexivity.
Qed.

(** ** ModuleResult *)
Definition raligned {E P} (r : ModuleResult E P) : Prop :=
  aligned (mr_modules r) (mr_data r) /\ faligned (mr_failures r).
Definition rget {E P} (r : ModuleResult E P) i := get (mr_modules r) (mr_data r) i.
Definition rerr {E P} (r : ModuleResult E P) i := fget (mr_failures r) i.

Definition rdisj {E P} (r : ModuleResult E P) : Prop :=
  forall i x e, ~ (rget r i = Some x /\ rerr r i = Some e).

Lemma wf_result_spec {E P} (r : ModuleResult E P) : wf_result r <-> raligned r /\ rdisj r.
Proof.
  unfold wf_result, raligned, wf_failed, faligned, rdisj. rewrite !one_each_aligned.
  split.
  - intros (H1 & H2 & H3). split; [now split|]. intros i x e [Hx He]. apply (H3 i).
    rewrite (member_get _ _ i H1), (member_get _ _ i H2). eauto.
  - intros [[H1 H2] H3]. split; [exact H1|]. split; [exact H2|]. intros i [Hx He].
    rewrite (member_get _ _ i H1) in Hx. rewrite (member_get _ _ i H2) in He.
    destruct Hx as [x Hx], He as [e He]. apply (H3 i x e). now split.
Qed.

Lemma result_nth_get {E P} (r : ModuleResult E P) i : result_nth r i = rget r i.
Proof. unfold result_nth, result_iter. apply find_lookup. Qed.
Lemma succeeds_get {E P} (r : ModuleResult E P) i x : succeeds r i x <-> rget r i = Some x.
Proof. apply at_port_get. Qed.
Lemma fails_get {E P} (r : ModuleResult E P) i x : fails r i x <-> rerr r i = Some x.
Proof. apply at_port_get. Qed.
Lemma succeeded_get {E P} (r : ModuleResult E P) i : raligned r ->
  (succeeded r i <-> exists x, rget r i = Some x).
Proof. intros [H _]. unfold succeeded, rget. apply member_get, H. Qed.
Lemma failed_get {E P} (r : ModuleResult E P) i : raligned r ->
  (failed r i <-> exists x, rerr r i = Some x).
Proof. intros [_ H]. unfold failed, rerr, fget. apply member_get, H. Qed.

Lemma land_empty a b : mask_ok a = true ->
  (m_is_empty (m_and a b) = true <-> forall i, ~ (member i a /\ member i b)).
Proof.
  intros Ha. rewrite m_is_empty_spec by now apply mask_ok_land_l. split.
  - intros E i [Hi Hj]. rewrite member_testbit in *.
    assert (N.testbit (N.land a b) i = true) by now rewrite N.land_spec, Hi, Hj.
    unfold m_and in E. rewrite E, N.bits_0 in H. discriminate.
  - intros H. apply mask_ext. intros i. rewrite N.bits_0. unfold m_and. rewrite N.land_spec.
    specialize (H i). rewrite !member_testbit in H.
    destruct (N.testbit a i), (N.testbit b i); try reflexivity. exfalso. now apply H.
Qed.

Lemma result_merge_none {E P} (a b : ModuleResult E P) : raligned a ->
  (result_merge a b = None <->
   (exists i, succeeded a i /\ succeeded b i) \/ (exists i, failed a i /\ failed b i)).
Proof.
  intros [[Ha _] [Hf _]]. unfold result_merge, succeeded, failed.
  pose proof (land_empty (mr_modules a) (mr_modules b) Ha) as H1.
  pose proof (land_empty (fm_modules (mr_failures a)) (fm_modules (mr_failures b)) Hf) as H2.
  assert (D : forall x y, mask_ok x = true -> m_is_empty (m_and x y) = false ->
                     exists i, member i x /\ member i y).
  { intros x y Hx Hxy.
    assert (Hn : N.land x y <> 0).
    { intros E0. apply (m_is_empty_spec (N.land x y)) in E0; [|now apply mask_ok_land_l].
      unfold m_and in Hxy. congruence. }
    exists (N.log2 (N.land x y)). rewrite !member_testbit.
    apply andb_prop. rewrite <- N.land_spec. now apply N.bit_log2. }
  destruct (m_is_empty (m_and (mr_modules a) (mr_modules b))) eqn:E1; cbn [negb].
  - destruct (m_is_empty (m_and (fm_modules (mr_failures a)) (fm_modules (mr_failures b)))) eqn:E2;
      cbn [negb].
    + destruct (without_failures_from a b). destruct (without_failures_from b a).
      destruct (merge_module_data _ _ _ _). split; [discriminate|].
      intros [[i Hi]|[i Hi]]; exfalso; [eapply (proj1 H1)|eapply (proj1 H2)]; eauto.
    + split; [|reflexivity]. intros _. right. now apply D.
  - split; [|reflexivity]. intros _. left. now apply D.
Qed.

Lemma result_merge_spec {E P} (a b r : ModuleResult E P) : raligned a -> raligned b ->
  result_merge a b = Some r ->
  raligned r /\
  (forall i, rerr r i = match rerr b i with Some e => Some e | None => rerr a i end) /\
  (forall i, rget r i =
     match rerr a i, rget b i with
     | None, Some y => Some y
     | _, _ => match rerr b i with None => rget a i | Some _ => None end
     end) /\
  fm_modules (mr_failures r) = m_merge (fm_modules (mr_failures a)) (fm_modules (mr_failures b)).
Proof.
  intros [Ha Hfa] [Hb Hfb]. unfold result_merge.
  destruct (negb (m_is_empty (m_and (mr_modules a) (mr_modules b)))); [discriminate|].
  destruct (negb (m_is_empty (m_and (fm_modules (mr_failures a)) (fm_modules (mr_failures b)))));
    [discriminate|].
  unfold without_failures_from.
  pose proof (get_remove (mr_modules a) (mr_data a) (fm_modules (mr_failures b))) as Ga.
  pose proof (get_remove (mr_modules b) (mr_data b) (fm_modules (mr_failures a))) as Gb.
  pose proof (aligned_remove (mr_modules a) (mr_data a) (fm_modules (mr_failures b)) Ha) as Aa.
  pose proof (aligned_remove (mr_modules b) (mr_data b) (fm_modules (mr_failures a)) Hb) as Ab.
  destruct (remove_module_data (mr_modules a) _ _) as [rm rd].
  destruct (remove_module_data (mr_modules b) _ _) as [nm nd]. cbn [fst snd] in *.
  pose proof (merge_module_data_spec rm rd nm nd Aa Ab) as M.
  destruct (merge_module_data rm rd nm nd) as [m d]. destruct M as (_ & Am & Gm).
  intros Er. injection Er as <-.
  destruct (failed_merge_spec _ _ Hfa Hfb) as (Af & Em & Gf).
  unfold raligned, rerr, rget. cbn [mr_modules mr_data mr_failures].
  split; [now split|]. split; [exact Gf|]. split; [|exact Em]. intros i. rewrite Gm, Ga, Gb by assumption.
  assert (Na : N.testbit (fm_modules (mr_failures a)) i = match fget (mr_failures a) i with Some _ => true | None => false end).
  { pose proof (get_none _ _ i Hfa) as K. unfold fget.
    destruct (get (fm_modules (mr_failures a)) (fm_errors (mr_failures a)) i) eqn:E1.
    - apply (get_some _ _ i Hfa). eauto.
    - now apply K. }
  assert (Nb : N.testbit (fm_modules (mr_failures b)) i = match fget (mr_failures b) i with Some _ => true | None => false end).
  { pose proof (get_none _ _ i Hfb) as K. unfold fget.
    destruct (get (fm_modules (mr_failures b)) (fm_errors (mr_failures b)) i) eqn:E1.
    - apply (get_some _ _ i Hfb). eauto.
    - now apply K. }
  rewrite Na, Nb.
  destruct (fget (mr_failures a) i), (fget (mr_failures b) i),
    (get (mr_modules b) (mr_data b) i); reflexivity.
Qed.

Lemma result_merge_correct {E P} (a b : ModuleResult E P) : wf_result a -> wf_result b ->
  (result_merge a b = None <->
     (exists i, succeeded a i /\ succeeded b i) \/ (exists i, failed a i /\ failed b i)) /\
  (forall r, result_merge a b = Some r ->
     wf_result r /\
     (forall i x, succeeds r i x <->
        (succeeds a i x \/ succeeds b i x) /\ ~ failed a i /\ ~ failed b i) /\
     (forall i e, fails r i e <-> fails a i e \/ fails b i e)).
Proof.
  rewrite !wf_result_spec. intros [Ha Da] [Hb Db]. split; [now apply result_merge_none|].
  intros r Hr. assert (Hn : result_merge a b <> None) by congruence.
  rewrite (result_merge_none a b Ha) in Hn.
  destruct (result_merge_spec a b r Ha Hb Hr) as (Ar & Ge & Gs & _).
  assert (Ns : forall i x y, rget a i = Some x -> rget b i = Some y -> False).
  { intros i x y Hx Hy. apply Hn. left. exists i. rewrite !succeeded_get by assumption. eauto. }
  assert (Nf : forall i x y, rerr a i = Some x -> rerr b i = Some y -> False).
  { intros i x y Hx Hy. apply Hn. right. exists i. rewrite !failed_get by assumption. eauto. }
  split; [|split].
  - apply wf_result_spec. split; [exact Ar|]. intros i x e [Hx He]. rewrite Gs in Hx.
    rewrite Ge in He. specialize (Da i). specialize (Db i).
    destruct (rerr a i) as [ea|] eqn:E1, (rerr b i) as [eb|] eqn:E2, (rget a i) as [xa|] eqn:E3,
      (rget b i) as [xb|] eqn:E4; try discriminate;
      first [now apply (Da xa ea)|now apply (Db xb eb)].
  - intros i x. rewrite !succeeds_get, !failed_get, Gs by assumption.
    specialize (Da i). specialize (Db i). specialize (Ns i).
    assert (Dn : forall T (y : T), ~ ~ exists z, Some y = Some z) by (intros T y K; apply K; eauto).
    assert (Nn : forall T, ~ exists z : T, None = Some z) by (intros T [z Hz]; discriminate).
    destruct (rerr a i) as [ea|] eqn:E1, (rerr b i) as [eb|] eqn:E2, (rget a i) as [xa|] eqn:E3,
      (rget b i) as [xb|] eqn:E4;
      try (exfalso; now apply (Ns xa xb)); try (exfalso; now apply (Da xa ea));
      try (exfalso; now apply (Db xb eb)); split; intros H; try discriminate;
      try (destruct H as (H & K1 & K2); first [now apply Dn in K1|now apply Dn in K2|idtac]);
      try (destruct H as [H|H]; [assumption || discriminate|assumption || discriminate]);
      repeat split; auto.
  - intros i e. rewrite !fails_get, Ge. specialize (Nf i).
    destruct (rerr a i) as [ea|] eqn:E1, (rerr b i) as [eb|] eqn:E2;
      try (exfalso; now apply (Nf ea eb)); split; intros H; auto;
      destruct H as [H|H]; assumption || discriminate.
Qed.

(** ** append *)
Lemma lookup_append_at {P} (out : list (N * list P)) ix d i :
  lookup i (append_at out ix d) =
  match lookup i out with
  | Some x => Some (if i =? ix then x ++ d else x)
  | None => None
  end.
Proof.
  induction out as [|[j x] l IH]; [reflexivity|]. unfold append_at in *. cbn [map fst snd].
  destruct (j =? ix) eqn:Ej; cbn [lookup]; destruct (i =? j) eqn:Ei; try exact IH.
  - assert (i = ix) by lia. subst. now rewrite N.eqb_refl.
  - replace (i =? ix) with false by lia. reflexivity.
Qed.
Lemma append_at_fst {P} (out : list (N * list P)) ix d : map fst (append_at out ix d) = map fst out.
Proof.
  unfold append_at. rewrite map_map. apply map_ext. intros [j x]. cbn. now destruct (j =? ix).
Qed.
Lemma append_fold_spec {P} (l : list (N * list P)) : forall out, NoDup (map fst l) ->
  let out' := fold_left (fun o p => append_at o (fst p) (snd p)) l out in
  map fst out' = map fst out /\
  forall i, lookup i out' =
    match lookup i out with
    | Some x => Some (match lookup i l with Some y => x ++ y | None => x end)
    | None => None
    end.
Proof.
  induction l as [|[j y] l IH]; intros out Hn; cbv zeta.
  - split; [reflexivity|]. intros i. cbn. now destruct (lookup i out).
  - cbn [fold_left fst snd]. inversion Hn as [|? ? Hni Hn']; subst.
    destruct (IH (append_at out j y) Hn') as [Hf Hl]. split; [now rewrite Hf, append_at_fst|].
    intros i. rewrite Hl, lookup_append_at. cbn [lookup].
    destruct (lookup i out) as [x|]; [|reflexivity]. destruct (i =? j) eqn:Ei; [|reflexivity].
    assert (i = j) by lia. subst. replace (lookup j l) with (@None (list P)); [reflexivity|].
    symmetry. now apply lookup_none.
Qed.

Lemma subset_iff a b : m_is_subset a b = true <-> forall i, member i b -> member i a.
Proof. rewrite m_is_subset_spec. split; intros H i; specialize (H i); rewrite !member_testbit in *; exact H. Qed.

Lemma result_append_correct {E P} (a b : ModuleResult E (list P)) : wf_result a -> wf_result b ->
  (result_append a b = None <->
     exists i, (succeeded b i \/ failed b i) /\ ~ succeeded a i) /\
  (forall r, result_append a b = Some r ->
     wf_result r /\
     (forall i x, succeeds r i x <->
        exists xa, succeeds a i xa /\ ~ failed b i /\
          ((exists xb, succeeds b i xb /\ x = xa ++ xb) \/ (~ succeeded b i /\ x = xa))) /\
     (forall i e, fails r i e <-> fails a i e \/ fails b i e)).
Proof.
  rewrite !wf_result_spec. intros [Ha Da] [Hb Db].
  pose proof Ha as [Aa Afa]. pose proof Hb as [Ab Afb].
  unfold result_append.
  assert (Hor : forall i, member i (m_or (mr_modules b) (fm_modules (mr_failures b))) <->
                     succeeded b i \/ failed b i).
  { intros i. unfold succeeded, failed. rewrite !member_testbit. unfold m_or.
    rewrite N.lor_spec. apply orb_true_iff. }
  assert (Hdec : forall i, succeeded a i \/ ~ succeeded a i).
  { intros i. unfold succeeded. rewrite member_testbit. destruct (N.testbit _ i); auto. }
  destruct (m_is_empty (m_and (fm_modules (mr_failures a)) (fm_modules (mr_failures b)))) eqn:E1;
    cbn [negb].
  2:{ split; [|discriminate]. split; [|reflexivity]. intros _.
      assert (Hx : exists i, failed a i /\ failed b i).
      { unfold failed.
        assert (Hn : N.land (fm_modules (mr_failures a)) (fm_modules (mr_failures b)) <> 0).
        { intros E0. apply (m_is_empty_spec (N.land _ _)) in E0;
            [|now apply mask_ok_land_l, Afa]. unfold m_and in E1. congruence. }
        exists (N.log2 (N.land (fm_modules (mr_failures a)) (fm_modules (mr_failures b)))).
        rewrite !member_testbit. apply andb_prop. rewrite <- N.land_spec. now apply N.bit_log2. }
      destruct Hx as (i & Hi & Hj). exists i. split; [now right|]. intros Hs.
      rewrite failed_get in Hi by assumption. rewrite succeeded_get in Hs by assumption.
      destruct Hi as [e He], Hs as [x Hx]. now apply (Da i x e). }
  rewrite (land_empty _ _ (proj1 Afa)) in E1.
  destruct (m_is_subset (mr_modules a) (m_or (mr_modules b) (fm_modules (mr_failures b)))) eqn:E2;
    cbn [negb].
  2:{ split; [|discriminate]. split; [|reflexivity]. intros _.
      assert (Hn : ~ forall i, i < 64 -> succeeded b i \/ failed b i -> succeeded a i).
      { intros K. apply Bool.not_true_iff_false in E2. apply E2. apply subset_iff. intros i Hi.
        apply Hor in Hi. apply K; [|exact Hi].
        destruct Hi as [Hi|Hi]; unfold succeeded, failed in Hi; rewrite member_testbit in Hi.
        - now apply (proj1 (mask_ok_testbit _) (proj1 Ab)).
        - now apply (proj1 (mask_ok_testbit _) (proj1 Afb)). }
      destruct (existsb (fun i => m_contains (m_or (mr_modules b) (fm_modules (mr_failures b))) i
                               && negb (m_contains (mr_modules a) i)) (nrange 0 64)) eqn:Ex.
      - apply existsb_exists in Ex. destruct Ex as (i & _ & Hi). exists i.
        rewrite !m_contains_testbit in Hi. apply andb_prop in Hi. destruct Hi as [H1 H2].
        split; [apply Hor; now rewrite member_testbit|]. unfold succeeded.
        rewrite member_testbit. now destruct (N.testbit (mr_modules a) i).
      - exfalso. apply Hn. intros i Hi Hs. destruct (Hdec i) as [H|H]; [exact H|].
        exfalso. apply Bool.not_true_iff_false in Ex. apply Ex. apply existsb_exists. exists i.
        split; [apply in_nrange; lia|]. rewrite !m_contains_testbit. apply Hor in Hs.
        rewrite member_testbit in Hs. rewrite Hs. unfold succeeded in H.
        rewrite member_testbit in H. now destruct (N.testbit (mr_modules a) i). }
  rewrite subset_iff in E2.
  pose proof (aligned_remove (mr_modules a) (mr_data a) (fm_modules (mr_failures b)) Aa) as Ar.
  pose proof (fun i => get_remove (mr_modules a) (mr_data a) (fm_modules (mr_failures b)) i Aa) as Gr.
  destruct (remove_module_data (mr_modules a) (mr_data a) (fm_modules (mr_failures b))) as [m d].
  cbn [fst snd] in *.
  pose proof (append_fold_spec (zip_data (mr_modules b) (mr_data b)) (zip_data m d) (zip_nodup _ _))
    as [Hf Hl].
  set (out := fold_left _ _ _) in *. rewrite zip_fst in Hf by assumption.
  assert (Ho : map fst out = to_indices m) by exact Hf. rewrite Ho, from_to_indices by apply Ar.
  split.
  { split; [discriminate|]. intros (i & Hi & Hn). exfalso. apply Hn, E2, Hor, Hi. }
  intros r Er. injection Er as <-.
  destruct (failed_merge_spec _ _ Afa Afb) as (Af & Em & Gf).
  assert (Am : aligned m (map snd out)).
  { split; [apply Ar|]. rewrite map_length, <- (map_length fst out), Ho. symmetry.
    apply count_to_indices, Ar. }
  assert (Gm : forall i, get m (map snd out) i =
     match get m d i with
     | Some x => Some (match get (mr_modules b) (mr_data b) i with Some y => x ++ y | None => x end)
     | None => None
     end).
  { intros i. unfold get. rewrite <- Hl. f_equal. unfold zip_data. rewrite <- Ho.
    clear. induction out as [|[j x] l IH]; cbn; [reflexivity|]. now f_equal. }
  set (r := mkResult m (map snd out) (failed_merge (mr_failures a) (mr_failures b))).
  assert (Rr : raligned r) by (split; assumption).
  assert (Gs : forall i, rget r i =
     match rerr b i with
     | Some _ => None
     | None => match rget a i with
               | Some x => Some (match rget b i with Some y => x ++ y | None => x end)
               | None => None
               end
     end).
  { intros i. unfold rget at 1. cbn [mr_modules mr_data]. rewrite Gm, Gr. unfold rerr, rget, fget.
    pose proof (get_none _ _ i Afb) as K. pose proof (get_some _ _ i Afb) as K2.
    destruct (get (fm_modules (mr_failures b)) (fm_errors (mr_failures b)) i) as [e|] eqn:E3.
    - rewrite (proj1 K2) by eauto. reflexivity.
    - rewrite (proj1 K) by reflexivity. reflexivity. }
  assert (Ge : forall i, rerr r i = match rerr b i with Some e => Some e | None => rerr a i end)
    by exact Gf.
  assert (Nf : forall i x y, rerr a i = Some x -> rerr b i = Some y -> False).
  { intros i x y Hx Hy. apply (E1 i). split;
      [apply (failed_get a i Ha)|apply (failed_get b i Hb)]; eauto. }
  assert (Dn : forall T (y : T), ~ ~ exists z, Some y = Some z) by (intros T y K; apply K; eauto).
  assert (Nn : forall T, ~ exists z : T, None = Some z) by (intros T [z Hz]; discriminate).
  split; [|split].
  - apply wf_result_spec. split; [exact Rr|]. intros i x e [Hx He]. rewrite Gs in Hx.
    rewrite Ge in He. specialize (Da i).
    destruct (rerr b i) as [eb|]; [discriminate|]. destruct (rget a i) as [xa|]; [|discriminate].
    now apply (Da xa e).
  - intros i x. rewrite succeeds_get, Gs. setoid_rewrite succeeds_get.
    setoid_rewrite (failed_get b i Hb). setoid_rewrite (succeeded_get b i Hb). specialize (Db i).
    destruct (rerr b i) as [eb|] eqn:E3, (rget a i) as [xa|] eqn:E4, (rget b i) as [xb|] eqn:E5;
      split; intros H; try discriminate;
      try (destruct H as (z & H1 & H2 & [(y & H3 & H4)|[H3 H4]]); try discriminate;
           first [now apply Dn in H2|now apply Dn in H3|congruence]).
    + injection H as <-. exists xa. split; [reflexivity|]. split; [apply Nn|]. left. eauto.
    + injection H as <-. exists xa. split; [reflexivity|]. split; [apply Nn|]. right.
      split; [apply Nn|reflexivity].
  - intros i e. rewrite !fails_get, Ge. specialize (Nf i).
    destruct (rerr a i) as [ea|] eqn:E3, (rerr b i) as [eb|] eqn:E4;
      try (exfalso; now apply (Nf ea eb)); split; intros H; auto;
      destruct H as [H|H]; assumption || discriminate.
Qed.
