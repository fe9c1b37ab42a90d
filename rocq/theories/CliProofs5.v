(** Proofs about addressing, status and printing on the command line (C53, C56, C57). *)
From Coq Require Import String.
From Verif Require Import Tac SpecCmd ModuleIdProofs ModuleIdProps ResultsProofs AccessProofs MessageProofs ConfigProofs
  ControllerProofs ControllerProofs2 ControllerProofs3 ControllerProofs4 ControllerProofs6 ControllerProofs9.
From Coq Require Import Lia.
Import ListNotations.
Open Scope N_scope.

(** ** Iteration *)
Section Pick.
  Context {A : Type} (h : N -> option A).
  Definition pick (l : list N) : list (N * A) :=
    flat_map (fun i => match h i with Some x => [(i, x)] | None => [] end) l.
  Lemma pick_keys l i : In i (map fst (pick l)) -> In i l.
  Proof.
    intros H. apply in_map_iff in H. destruct H as ((j & x) & <- & H). apply in_flat_map in H.
    destruct H as (k & Hk & Hj). destruct (h k); [|destruct Hj]. destruct Hj as [[= -> ->]|[]]. exact Hk.
  Qed.
  Lemma pick_sorted l : StronglySorted N.lt l -> StronglySorted N.lt (map fst (pick l)).
  Proof.
    induction 1 as [|i l Hs IH Hf]; [constructor|]. cbn [pick flat_map]. destruct (h i); [|exact IH].
    cbn [app map fst]. constructor; [exact IH|]. apply Forall_forall. intros j Hj. apply pick_keys in Hj.
    rewrite Forall_forall in Hf. now apply Hf.
  Qed.
  Lemma pick_lookup l i : lookup i (pick l) = if existsb (N.eqb i) l then h i else None.
  Proof.
    induction l as [|j l IH]; cbn [pick flat_map existsb]; [reflexivity|]. destruct (N.eqb_spec i j) as [<-|Hn].
    - cbn [orb]. destruct (h i) eqn:E; [cbn; now rewrite N.eqb_refl|]. cbn [app]. fold (pick l). rewrite IH.
      destruct (existsb (N.eqb i) l); congruence.
    - cbn [orb]. rewrite <- IH. destruct (h j); [|reflexivity]. cbn. destruct (N.eqb_spec i j); [contradiction|reflexivity].
  Qed.
End Pick.
Lemma zip_pick {A} m m' (d : list A) h : mask_ok m = true ->
  (forall i, get m' d i = if N.testbit m i then h i else None) -> zip_data m' d = pick h (to_indices m).
Proof.
  intros Hm H. apply assoc_ext; [apply zip_sorted|apply pick_sorted, to_indices_sorted|].
  intros i. rewrite pick_lookup. specialize (H i). unfold get in H. rewrite H.
  assert (X : existsb (N.eqb i) (to_indices m) = N.testbit m i); [|now rewrite X].
  apply eq_true_iff_eq. now rewrite existsb_eqb_in, in_to_indices_ok.
Qed.
Lemma iter_told {P} m (f : N -> P + TransceiverError) r : mask_ok m = true -> rrep m f r -> result_iter r = told_ports m f.
Proof.
  intros Hm [_ R]. unfold result_iter.
  rewrite (zip_pick m _ _ (fun i => match f i with inl x => Some x | inr _ => None end) Hm (fun i => proj1 (R i))).
  unfold pick, told_ports. apply flat_map_ext. intros i. now destruct (f i).
Qed.
Lemma iter_failed {P} m (f : N -> P + TransceiverError) r : mask_ok m = true -> rrep m f r ->
  failed_iter (mr_failures r) = failed_ports m f.
Proof.
  intros Hm [_ R]. unfold failed_iter.
  rewrite (zip_pick m _ _ (fun i => match f i with inl x => None | inr e => Some e end) Hm (fun i => proj2 (R i))).
  unfold pick, failed_ports. apply flat_map_ext. intros i. now destruct (f i).
Qed.

(** ** Numbers *)
Lemma text_sweep (f g : N -> text) : forallb (fun n => text_eqb (f n) (g n)) (nrange 0 256) = true ->
  forall n, n < 256 -> f n = g n.
Proof. intros H n Hn. apply text_eqb_eq. exact (forallb_sweep _ 256 H n Hn). Qed.
Lemma show_u8_digits n : n < 256 -> show_u8 n = digits_of 8 10 n.
Proof. apply text_sweep. vm_compute. reflexivity. Qed.
Lemma port_shown_ok n : n < 256 -> align_right 4 (show_u8 n) = port_shown n.
Proof. intros H. unfold align_right, port_shown. now rewrite show_u8_digits. Qed.
Lemma fmt_byte_ok binary b : b < 256 -> fmt_byte binary b = byte_shown binary b.
Proof. destruct binary; revert b; apply text_sweep; vm_compute; reflexivity. Qed.
Lemma fmt_bytes_ok binary d : bytes d = true -> fmt_bytes binary d = join (T ",") (map (byte_shown binary) d).
Proof.
  intros H. unfold fmt_bytes. f_equal. apply map_ext_in. intros b Hb. apply fmt_byte_ok.
  unfold bytes in H. rewrite forallb_forall in H. apply H in Hb. unfold u8 in Hb. now apply N.ltb_lt in Hb.
Qed.
Lemma told_ports_in {P} m (f : N -> P + TransceiverError) i x : In (i, x) (told_ports m f) -> i < 64 /\ member i m /\ f i = inl x.
Proof.
  unfold told_ports. intros H. apply in_flat_map in H. destruct H as (j & Hj & H). destruct (f j) eqn:E; [|destruct H].
  destruct H as [[= -> ->]|[]]. apply in_to_indices in Hj. rewrite member_testbit. tauto.
Qed.
Lemma failed_ports_in {P} m (f : N -> P + TransceiverError) i e : In (i, e) (failed_ports m f) -> i < 64.
Proof.
  unfold failed_ports. intros H. apply in_flat_map in H. destruct H as (j & Hj & H). destruct (f j) eqn:E; [destruct H|].
  destruct H as [[= -> ->]|[]]. apply in_to_indices in Hj. tauto.
Qed.

(** ** Printing *)
Lemma print_read m f r binary : m < 2 ^ 64 -> reports m f r ->
  (forall i d, member i m -> f i = inl d -> bytes d = true) ->
  print_read_data r binary (OutDefault false) = map (fun p => read_line binary (fst p) (snd p)) (told_ports m f) /\
  print_read_data r binary (OutDefault true) =
    T "Port Data" :: map (fun p => read_line binary (fst p) (snd p)) (told_ports m f).
Proof.
  intros Hm R Hb. rewrite <- mask_ok_lt in Hm. apply rrep_reports in R. unfold print_read_data, table.
  cbn [display_header]. rewrite (iter_told m f r Hm R).
  assert (X : map (fun p => align_right 4 (show_u8 (fst p)) ++ T " [" ++ fmt_bytes binary (snd p) ++ T "]") (told_ports m f) =
              map (fun p => read_line binary (fst p) (snd p)) (told_ports m f)).
  { apply map_ext_in. intros (i & d) Hi. apply told_ports_in in Hi. destruct Hi as (Hi & Hmi & Hf). cbn [fst snd].
    unfold read_line. rewrite port_shown_ok by lia. rewrite fmt_bytes_ok; [reflexivity|]. exact (Hb i d Hmi Hf). }
  split; [exact X|]. cbn [app]. f_equal. exact X.
Qed.
Lemma print_fails {P} m (f : N -> P + TransceiverError) r show : m < 2 ^ 64 -> reports m f r ->
  print_failures show (mr_failures r) =
  match failed_ports m f with
  | [] => []
  | l => T "Some operations failed, errors below" :: T "Port Error" ::
         map (fun p => port_shown (fst p) ++ [32] ++ show (snd p)) l
  end.
Proof.
  intros Hm R. rewrite <- mask_ok_lt in Hm. apply rrep_reports in R. pose proof (iter_failed m f r Hm R) as E.
  unfold print_failures. rewrite E. destruct R as [[_ F] _].
  assert (Hl : List.length (failed_iter (mr_failures r)) = m_count (fm_modules (mr_failures r))).
  { unfold failed_iter, zip_data. rewrite combine_length. destruct F as [F1 F2]. rewrite F2, count_to_indices by exact F1. lia. }
  rewrite E in Hl. rewrite <- Hl. destruct (failed_ports m f) as [|p l] eqn:El; [reflexivity|].
  cbn [List.length Nat.eqb]. rewrite <- El. cbn [app]. do 2 f_equal. apply map_ext_in. intros (i & e) Hi. cbn [fst snd].
  rewrite port_shown_ok; [reflexivity|]. apply failed_ports_in in Hi. lia.
Qed.

(** ** Flags *)
Lemma contains_has s f : st_contains s f = true <-> has_all s f.
Proof.
  unfold st_contains, has_all. rewrite N.eqb_eq. split.
  - intros H i. rewrite !member_testbit. intros Hi. rewrite <- H, N.land_spec in Hi. now apply andb_true_iff in Hi.
  - intros H. apply mask_ext. intros i. rewrite N.land_spec. destruct (N.testbit f i) eqn:E; [|apply andb_false_r].
    rewrite andb_true_r. apply member_testbit, H, member_testbit, E.
Qed.
Lemma limited_exact w x s : (w <> 0 \/ x <> 0) ->
  (limited_test w x s = true <-> has_all s w /\ (x <> 0 -> ~ has_all s x)).
Proof.
  intros H. unfold limited_test. rewrite <- !contains_has.
  assert (Z : st_contains s 0 = true) by (unfold st_contains; now rewrite N.land_0_r).
  destruct (N.eqb_spec w 0) as [->|Hw], (N.eqb_spec x 0) as [->|Hx].
  - destruct H; contradiction.
  - rewrite negb_true_iff, Z, <- not_true_iff_false. tauto.
  - tauto.
  - rewrite andb_true_iff, negb_true_iff, <- (not_true_iff_false (st_contains s x)). tauto.
Qed.
Lemma none_or_all s x k : x = 2 ^ k -> (has_none s x <-> ~ has_all s x).
Proof.
  intros ->. unfold has_none, has_all. setoid_rewrite member_testbit. split.
  - intros H G. exact (H k (N.pow2_bits_true k) (G k (N.pow2_bits_true k))).
  - intros H i Hi Hs. apply H. intros j Hj. rewrite N.pow2_bits_eqb in *. apply N.eqb_eq in Hi, Hj. now subst.
Qed.
Lemma limited_ok w x s : (w <> 0 \/ x <> 0) -> (x = 0 \/ exists k, x = 2 ^ k) ->
  (limited_test w x s = true <-> has_all s w /\ has_none s x).
Proof.
  intros H [->|(k & Hk)]; rewrite limited_exact by exact H.
  - split; [intros (A & _); split; [exact A|intros i Hi; rewrite member_testbit, N.bits_0 in Hi; discriminate]|].
    intros (A & _). split; [exact A|congruence].
  - rewrite (none_or_all s x k Hk). assert (x <> 0) by (subst; apply N.pow_nonzero; lia). tauto.
Qed.

(** ** Status *)
Definition lines_of (r : outcome unit (list text)) : list text := match r with Ok l => l | _ => [] end.
Section Print.
  Context (m : N) (f : N -> N + TransceiverError) (r : Result N) (Hm : m < 2 ^ 64) (R : reports m f r).
  Let It : result_iter r = told_ports m f.
  Proof. apply iter_told; [now apply mask_ok_lt|now apply rrep_reports]. Qed.
  Lemma port_map (g : N -> N -> text) :
    map (fun p => align_right 4 (show_u8 (fst p)) ++ g (fst p) (snd p)) (result_iter r) =
    map (fun p => port_shown (fst p) ++ g (fst p) (snd p)) (told_ports m f).
  Proof.
    rewrite It. apply map_ext_in. intros (i & s) Hi. apply told_ports_in in Hi. cbn [fst snd]. rewrite port_shown_ok by lia. reflexivity.
  Qed.
  Lemma print_normal output :
    print_module_status r true SkNormal output =
      Ok (map (fun p => port_shown (fst p) ++ [32] ++ ext_status_display (snd p)) (told_ports m f)) /\
    print_module_status r false SkNormal output =
      Ok (T "Port Status" :: map (fun p => port_shown (fst p) ++ [32] ++ ext_status_display (snd p)) (told_ports m f)).
  Proof.
    pose proof (port_map (fun _ s => [32] ++ ext_status_display s)) as X.
    split; [exact (f_equal Ok X)|exact (f_equal (fun l => Ok (T "Port Status" :: l)) X)].
  Qed.
  Lemma print_limited w x omit output : (w <> 0 \/ x <> 0) ->
    exists title, print_module_status r omit (SkLimited w x) output =
      Ok ((T "Port " ++ title) ::
          map (fun p => port_shown (fst p) ++ [32; if limited_test w x (snd p) then 49 else 48]) (told_ports m f)).
  Proof.
    intros H. cbn [print_module_status].
    pose proof (port_map (fun _ s => [32; if limited_test w x s then 49 else 48])) as X.
    unfold limited_title. destruct (N.eqb_spec w 0) as [->|Hw], (N.eqb_spec x 0) as [->|Hx];
      [destruct H; contradiction| | |]; eexists; exact (f_equal (fun l => Ok (_ :: l)) X).
  Qed.
  Lemma print_all omit output :
    exists l, print_module_status r omit SkAll output = Ok (all_head ++ l) /\
      Forall2 (fun line p =>
        line = align_right 2 (show_u8 (fst p)) ++ T "   " ++
               List.concat (map (fun k => (if N.testbit (snd p) k then 49 else 48) :: T "   ") (nrange 0 9)))
        l (told_ports m f).
  Proof.
    eexists. split; [reflexivity|]. rewrite It. clear. induction (told_ports m f) as [|p l IH]; [constructor|].
    cbn [map]. constructor; [|exact IH]. unfold all_line. do 2 f_equal. 
    change ext_status_flags with (map (fun p => (fst p, 2 ^ snd p))
      (combine (map fst ext_status_flags) (nrange 0 9))). rewrite map_map. cbn [snd].
    f_equal. 
    change (nrange 0 9) with (map snd (combine (map fst ext_status_flags) (nrange 0 9))) at 2. rewrite map_map.
    apply map_ext. intros q. rewrite contains_pow2. now destruct (N.testbit (snd p) (snd q)).
  Qed.
End Print.
Lemma show_short n : n < 100 -> List.length (align_right 2 (show_u8 n)) = 2%nat.
Proof.
  intros H. unfold align_right, show_u8. destruct (N.ltb_spec n 10); [reflexivity|].
  destruct (N.ltb_spec n 100); [reflexivity|lia].
Qed.
Lemma nth_blocks (g : N -> N) n k : (k < n)%nat -> forall o,
  nth_error (List.concat (map (fun j => g j :: T "   ") (nrange o n))) (4 * k) = Some (g (o + N.of_nat k)).
Proof.
  revert k. induction n as [|n IH]; intros k Hk o; [lia|]. cbn [nrange map List.concat].
  destruct k as [|k]; [replace (o + N.of_nat 0) with o by lia; reflexivity|].
  replace (4 * S k)%nat with (4 + 4 * k)%nat by lia.
  change (nth_error (List.concat (map (fun j => g j :: T "   ") (nrange (o + 1) n))) (4 * k) = Some (g (o + N.of_nat (S k)))).
  rewrite IH by lia. do 2 f_equal. lia.
Qed.
Lemma print_columns m f r : m < 2 ^ 64 -> reports m f r -> forall omit output,
  exists l, print_module_status r omit SkAll output = Ok (all_head ++ l) /\
    Forall2 (fun line p => forall k, k < 9 ->
      nth_error line (5 + 4 * N.to_nat k) = Some (if N.testbit (snd p) k then 49 else 48)) l (told_ports m f).
Proof.
  intros Hm R omit output. destruct (print_all m f r Hm R omit output) as (l & E & F). exists l. split; [exact E|].
  assert (B : Forall (fun p => fst p < 64) (told_ports m f)).
  { apply Forall_forall. intros (i & x) Hi. apply told_ports_in in Hi. cbn. tauto. }
  clear E. induction F as [|line p l ps H F IH]; [constructor|]. constructor; [|apply IH; now apply Forall_inv_tail in B].
  intros k Hk. rewrite H. apply Forall_inv in B. rewrite nth_error_app2 by (rewrite show_short by lia; lia).
  rewrite show_short by lia. replace (5 + 4 * N.to_nat k - 2)%nat with (3 + 4 * N.to_nat k)%nat by lia.
  rewrite nth_error_app2 by (cbn; lia). replace (3 + 4 * N.to_nat k - List.length (T "   "))%nat with (4 * N.to_nat k)%nat by (cbn; lia).
  rewrite (nth_blocks (fun k => if N.testbit (snd p) k then 49 else 48)) by lia. replace (0 + N.of_nat (N.to_nat k)) with k by lia. reflexivity.
Qed.
Lemma head_columns k : k < 9 -> exists line before,
  nth_error all_head (1 + N.to_nat k) = Some line /\ nth_error line (5 + 4 * N.to_nat k) = Some 43 /\
  line = before ++ ext_status_display (2 ^ k) /\ List.length before = 40%nat.
Proof.
  intros H. exists (nth (1 + N.to_nat k) all_head []), (firstn 40 (nth (1 + N.to_nat k) all_head [])).
  assert (X : k = 0 \/ k = 1 \/ k = 2 \/ k = 3 \/ k = 4 \/ k = 5 \/ k = 6 \/ k = 7 \/ k = 8) by lia.
  repeat (destruct X as [-> |X]; [vm_compute; repeat split; reflexivity|]). rewrite X. vm_compute. repeat split; reflexivity.
Qed.
