(** Proofs about the controller, part 3: an SP with a verdict on each module; splitting, reading,
    writing, resetting (C28-C31, C34, C36). *)
From Verif Require Export ControllerProofs2.

(** ** Logs *)
(** From [w] to [w'] the log grew by entries that amount to [ds]. *)
Definition grew {St} (w w' : world St) (ds : list done) : Prop :=
  exists l, w_log w' = w_log w ++ l /\ flat_map deed l = ds.
Lemma grew_refl {St} (w : world St) : grew w w [].
Proof. exists []. now rewrite app_nil_r. Qed.
Lemma grew_trans {St} (w1 w2 w3 : world St) a b : grew w1 w2 a -> grew w2 w3 b -> grew w1 w3 (a ++ b).
Proof.
  intros (l1 & E1 & F1) (l2 & E2 & F2). exists (l1 ++ l2).
  rewrite E2, E1, app_assoc, flat_map_app, F1, F2. auto.
Qed.
Lemma grew_stepped {St} (w : world St) q d s : grew w (stepped w q d s) [DRequest q d].
Proof. eexists. split; reflexivity. Qed.
Lemma grew_sleep {St} (w : world St) t :
  grew w (mkWorld (w_sp w) (w_counter w) (w_log w ++ [ASleep t])) [DSleep t].
Proof. eexists. split; reflexivity. Qed.
Lemma deeds_grew {St A} (c : ctl (St := St) A) w w' o ds : c w = (w', o) -> grew w w' ds -> deeds c w = ds.
Proof.
  intros E (l & El & Ef). unfold deeds. rewrite E. cbn [fst]. rewrite El, skipn_app, skipn_all, Nat.sub_diag.
  exact Ef.
Qed.

(** ** The honest SP's replies *)
Section Honest.
  Context {St : Type} (a : honest St) (Hok : honest_ok a).
  Implicit Type w : world St.
  Local Notation sp := (honest_sp a).

  Definition next w q d : world St := stepped w q d (hs_next a (w_sp w) q d).
  Definition vd w q d := hs_verdict a (w_sp w) q d.

  Lemma next_sp w q d : w_sp (next w q d) = hs_next a (w_sp w) q d.
  Proof. reflexivity. Qed.
  Lemma grew_next w q d : grew w (next w q d) [DRequest q d].
  Proof. apply grew_stepped. Qed.

  Lemma state_next w q d : sp_state sp w q d = hs_next a (w_sp w) q d.
  Proof. reflexivity. Qed.

  Lemma honest_documented w q d :
    documented_reply (answer sp w q d)
      (response_to q (port_mask (good_ports (request_modules q) (vd w q d)))
                     (port_mask (bad_ports (request_modules q) (vd w q d))))
      (map (fun i => good_data (vd w q d i)) (good_ports (request_modules q) (vd w q d)))
      (map (fun i => bad_code (vd w q d i)) (bad_ports (request_modules q) (vd w q d))).
  Proof.
    set (good := good_ports _ _). set (bad := bad_ports _ _).
    assert (Gs : StronglySorted N.lt good) by apply filter_ports_sorted.
    assert (Gl : Forall (fun i => i < 64) good) by apply filter_ports_lt.
    assert (Bs : StronglySorted N.lt bad) by apply filter_ports_sorted.
    assert (Bl : Forall (fun i => i < 64) bad) by apply filter_ports_lt.
    assert (Em : resp_modules (response_to q (port_mask good) (port_mask bad)) = port_mask good)
      by (destruct q; reflexivity).
    assert (Ef : resp_failed (response_to q (port_mask good) (port_mask bad)) = port_mask bad)
      by (destruct q; reflexivity).
    assert (Eu : unit_size (response_to q (port_mask good) (port_mask bad)) = request_unit q)
      by (destruct q; reflexivity).
    eexists _, _. split; [reflexivity|]. split; [reflexivity|].
    unfold documented. rewrite Em, Ef, Eu.
    split; [apply mask_ok_lt, port_mask_ok, Gl|]. split; [apply mask_ok_lt, port_mask_ok, Bl|].
    assert (En : forall m, m < 2 ^ 64 -> enumerates (to_indices m) (fun i => member i m)).
    { intros m Hm. rewrite <- mask_ok_lt in Hm. split; [apply to_indices_sorted|].
      intros i. rewrite in_to_indices_ok by exact Hm. symmetry. apply member_testbit. }
    split; [apply En, mask_ok_lt, port_mask_ok, Gl|]. split; [apply En, mask_ok_lt, port_mask_ok, Bl|].
    rewrite !map_length, !port_mask_indices by assumption.
    split; [reflexivity|]. split; [|reflexivity].
    apply Forall_forall. intros x Hx. apply in_map_iff in Hx. destruct Hx as (i & <- & Hi).
    unfold good, good_ports in Hi. apply filter_In in Hi. destruct Hi as [_ Hi].
    pose proof (Hok (w_sp w) q d i) as K. unfold vd in *. destruct (hs_verdict _ _ _ _ i) as [y|]; [|discriminate].
    apply K.
  Qed.

  Lemma rrep_told {P} m (dec : list N -> P) f : mask_ok m = true ->
    rrep m (told dec f)
      (mkResult (port_mask (good_ports m f)) (map dec (map (fun i => good_data (f i)) (good_ports m f)))
                (faults (port_mask (bad_ports m f)) (map (fun i => bad_code (f i)) (bad_ports m f)))).
  Proof.
    intros Hm. set (good := good_ports m f). set (bad := bad_ports m f).
    assert (Gs : StronglySorted N.lt good) by apply filter_ports_sorted.
    assert (Gl : Forall (fun i => i < 64) good) by apply filter_ports_lt.
    assert (Bs : StronglySorted N.lt bad) by apply filter_ports_sorted.
    assert (Bl : Forall (fun i => i < 64) bad) by apply filter_ports_lt.
    split.
    - split; cbn [mr_modules mr_data mr_failures].
      + rewrite map_map. now apply aligned_port_mask.
      + apply faligned_faults; [now apply port_mask_ok|]. now rewrite map_length, port_mask_indices.
    - intros i. unfold rget, rerr. cbn [mr_modules mr_data mr_failures].
      rewrite map_map, fget_faults, !get_port_mask by assumption.
      unfold good, bad, good_ports, bad_ports. rewrite !existsb_filter_ports. unfold told.
      destruct (N.testbit m i) eqn:E; [|rewrite !andb_false_r; auto].
      assert (Hi : i <? 64 = true) by (apply N.ltb_lt; now apply (proj1 (mask_ok_testbit m) Hm)).
      rewrite Hi. destruct (f i); cbn; auto.
  Qed.

  Lemma good_mask_spec m f i : mask_ok m = true ->
    N.testbit (good_mask m f) i = N.testbit m i && is_good (f i).
  Proof.
    intros Hm. unfold good_mask, good_ports. rewrite port_mask_spec, existsb_filter_ports.
    destruct (N.testbit m i) eqn:E; [|now rewrite andb_false_r].
    assert (Hi : i <? 64 = true) by (apply N.ltb_lt; now apply (proj1 (mask_ok_testbit m) Hm)).
    now rewrite Hi.
  Qed.
  Lemma good_mask_ok m f : mask_ok (good_mask m f) = true.
  Proof. apply port_mask_ok, filter_ports_lt. Qed.

  (** *** Each kind of request *)
  Lemma honest_ack w q (m := request_modules q) : request_unit q = 0%nat ->
    (forall x y, response_to q x y = SAck x y) -> mask_ok m = true ->
    exists r, no_payload_request sp q w = (next w q None, Ok r) /\
      mr_modules r = good_mask m (vd w q None) /\ rrep m (told (fun _ => tt) (vd w q None)) r.
  Proof.
    intros Hu Hr Hm. pose proof (honest_documented w q None) as D. rewrite Hr in D. fold m in D.
    set (good := good_ports m (vd w q None)) in *.
    assert (E : map (fun i => good_data (vd w q None i)) good =
                repeat [] (length (to_indices (port_mask good)))).
    { unfold good. rewrite port_mask_indices by (apply filter_ports_sorted || apply filter_ports_lt).
      fold good. assert (Hg : forall i, In i good -> good_data (vd w q None i) = []).
      { intros i Hi. unfold good, good_ports in Hi. apply filter_In in Hi. destruct Hi as [_ Hi].
        pose proof (Hok (w_sp w) q None i) as K. unfold vd in *.
        destruct (hs_verdict _ _ _ _ i) as [y|]; [|discriminate]. cbn. destruct K as [K _].
        rewrite Hu in K. now destruct y. }
      clear -Hg. induction good as [|i good IH]; cbn; [reflexivity|]. rewrite Hg by now left.
      f_equal. apply IH. intros j Hj. apply Hg. now right. }
    pose proof D as D'. rewrite E in D'. apply raw_ack in D'. rewrite state_next in D'.
    eexists. split; [exact D'|]. split; [reflexivity|].
    pose proof (rrep_told m (fun _ => tt) (vd w q None) Hm) as R.
    rewrite ack_eq in R; [exact R|]. fold good. rewrite !map_length, count_to_indices by apply port_mask_ok, filter_ports_lt.
    unfold good. now rewrite port_mask_indices by (apply filter_ports_sorted || apply filter_ports_lt).
  Qed.

  Lemma honest_write w m wr data (q := HWrite m wr) : wr_len wr = Nlen data -> mask_ok m = true ->
    exists r, write_impl sp m wr data w = (next w q (Some data), Ok r) /\
      mr_modules r = good_mask m (vd w q (Some data)) /\
      rrep m (told (fun _ => tt) (vd w q (Some data))) r.
  Proof.
    intros Hl Hm. pose proof (honest_documented w q (Some data)) as D. cbn [response_to q request_modules] in D.
    set (good := good_ports m (vd w q (Some data))) in *.
    assert (E : map (fun i => good_data (vd w q (Some data) i)) good =
                repeat [] (length (to_indices (port_mask good)))).
    { unfold good. rewrite port_mask_indices by (apply filter_ports_sorted || apply filter_ports_lt).
      fold good. assert (Hg : forall i, In i good -> good_data (vd w q (Some data) i) = []).
      { intros i Hi. unfold good, good_ports in Hi. apply filter_In in Hi. destruct Hi as [_ Hi].
        pose proof (Hok (w_sp w) q (Some data) i) as K. unfold vd in *.
        destruct (hs_verdict _ _ _ _ i) as [y|]; [|discriminate]. cbn. destruct K as [K _].
        cbn [request_unit q] in K. now destruct y. }
      clear -Hg. induction good as [|i good IH]; cbn; [reflexivity|]. rewrite Hg by now left.
      f_equal. apply IH. intros j Hj. apply Hg. now right. }
    pose proof D as D'. unfold q in D'. fold q in D'. fold good in D'. rewrite E in D'.
    apply (raw_write _ _ _ _ _ _ _ _ _ Hl) in D'. rewrite state_next in D'.
    eexists. split; [exact D'|]. split; [reflexivity|].
    pose proof (rrep_told m (fun _ => tt) (vd w q (Some data)) Hm) as R.
    rewrite ack_eq in R; [exact R|]. fold good. rewrite !map_length, count_to_indices by apply port_mask_ok, filter_ports_lt.
    unfold good. now rewrite port_mask_indices by (apply filter_ports_sorted || apply filter_ports_lt).
  Qed.

  Lemma good_bytes w q d m : Forall (fun x => bytes x = true)
    (map (fun i => good_data (vd w q d i)) (good_ports m (vd w q d))).
  Proof.
    apply Forall_forall. intros x Hx. apply in_map_iff in Hx. destruct Hx as (i & <- & Hi).
    unfold good_ports in Hi. apply filter_In in Hi. destruct Hi as [_ Hi].
    pose proof (Hok (w_sp w) q d i) as K. unfold vd in *. destruct (hs_verdict _ _ _ _ i) as [y|]; [|discriminate].
    apply K.
  Qed.

  Lemma honest_status w m : mask_ok m = true ->
    exists r, ctl_status sp m w = (next w (HStatus m) None, Ok r) /\
      mr_modules r = good_mask m (vd w (HStatus m) None) /\
      rrep m (told (hd 0) (vd w (HStatus m) None)) r.
  Proof.
    intros Hm. pose proof (honest_documented w (HStatus m) None) as D. cbn [response_to request_modules] in D.
    apply raw_status in D; [|apply good_bytes]. rewrite state_next in D.
    eexists. split; [exact D|]. split; [reflexivity|]. now apply rrep_told.
  Qed.

  Lemma honest_read_one w m rd : rd_len rd <> 0 -> fits_in_one_message m rd = true -> mask_ok m = true ->
    exists r, read_impl_one_message sp m rd w = (next w (HRead m rd) None, Ok r) /\
      rrep m (told (fun x => x) (vd w (HRead m rd) None)) r.
  Proof.
    intros Hl Hf Hm. pose proof (honest_documented w (HRead m rd) None) as D. cbn [response_to request_modules] in D.
    apply raw_read in D; [|assumption|assumption|reflexivity]. rewrite state_next in D.
    eexists. split; [exact D|].
    pose proof (rrep_told m (fun x => x) (vd w (HRead m rd) None) Hm) as R. now rewrite map_id in R.
  Qed.

  (** *** Merging groups *)
  Lemma rrep_merge {P} m1 m2 (f : N -> P + TransceiverError) r1 r2 :
    rrep m1 f r1 -> rrep m2 f r2 -> N.land m1 m2 = 0 ->
    exists r, result_merge r1 r2 = Some r /\ rrep (N.lor m1 m2) f r.
  Proof.
    intros H1 H2 Hd.
    assert (D : forall i, N.testbit m1 i = true -> N.testbit m2 i = true -> False).
    { intros i A B. assert (N.testbit (N.land m1 m2) i = true) by now rewrite N.land_spec, A, B.
      rewrite Hd, N.bits_0 in H. discriminate. }
    destruct (result_merge r1 r2) as [r|] eqn:E.
    - exists r. split; [reflexivity|]. destruct H1 as [A1 R1], H2 as [A2 R2].
      destruct (result_merge_spec r1 r2 r A1 A2 E) as (A & He & Hg & _).
      split; [exact A|]. intros i. rewrite He, Hg, N.lor_spec.
      destruct (R1 i) as [-> ->]. destruct (R2 i) as [-> ->]. specialize (D i).
      destruct (N.testbit m1 i), (N.testbit m2 i); cbn; try (exfalso; auto; fail); destruct (f i); auto.
    - exfalso. apply result_merge_none in E; [|apply H1].
      assert (S : forall i, succeeded r1 i -> succeeded r2 i -> False).
      { intros i. unfold succeeded. rewrite !member_testbit, (rrep_modules _ _ _ _ H1), (rrep_modules _ _ _ _ H2).
        rewrite !andb_true_iff. intros [A _] [B _]. eauto. }
      assert (F : forall i, failed r1 i -> failed r2 i -> False).
      { intros i. unfold failed. rewrite !member_testbit, (rrep_failed _ _ _ _ H1), (rrep_failed _ _ _ _ H2).
        rewrite !andb_true_iff. intros [A _] [B _]. eauto. }
      destruct E as [(i & X & Y)|(i & X & Y)]; [eapply S|eapply F]; eassumption.
  Qed.
End Honest.

(** ** Splitting *)
Lemma concat_chunks {A} k (l : list A) fuel : (0 < k)%nat -> (length l <= fuel)%nat ->
  concat (chunks_fuel fuel k l) = l /\
  Forall (fun c => c <> [] /\ (length c <= k)%nat) (chunks_fuel fuel k l).
Proof.
  intros Hk. revert l. induction fuel as [|fuel IH]; intros l Hf.
  - destruct l; [cbn; auto|cbn in Hf; lia].
  - destruct l as [|x l]; [cbn; auto|].
    cbn [chunks_fuel]. destruct (IH (skipn k (x :: l))) as [E F].
    { rewrite skipn_length. cbn [length] in *. lia. }
    split.
    + cbn [concat]. rewrite E. apply firstn_skipn.
    + constructor; [|exact F]. split.
      * destruct k; [lia|]. cbn. discriminate.
      * rewrite firstn_length. lia.
Qed.

Lemma chunks_full {A} k (l : list A) fuel : (0 < k)%nat -> (length l <= fuel)%nat ->
  Forall (fun c => length c = k) (removelast (chunks_fuel fuel k l)).
Proof.
  intros Hk. revert l. induction fuel as [|fuel IH]; intros l Hf; [constructor|].
  destruct l as [|x l]; [constructor|].
  assert (Hs : (length (skipn k (x :: l)) <= fuel)%nat).
  { rewrite skipn_length. cbn [length] in *. lia. }
  cbn [chunks_fuel]. specialize (IH _ Hs). destruct (concat_chunks k _ fuel Hk Hs) as [E _].
  destruct (chunks_fuel fuel k (skipn k (x :: l))) as [|c cs] eqn:Ec; [constructor|].
  cbn [removelast] in *. constructor; [|exact IH].
  rewrite firstn_length. apply Nat.min_l. destruct (Nat.le_gt_cases k (length (x :: l))) as [|Hl]; [assumption|].
  rewrite skipn_all2 in Ec by lia. destruct fuel; discriminate.
Qed.

Lemma map_removelast {A B} (f : A -> B) l : removelast (map f l) = map f (removelast l).
Proof. induction l as [|x [|y l] IH]; [reflexivity..|]. cbn [map removelast] in *. now rewrite <- IH. Qed.

Lemma in_removelast {A} (x : A) l : In x (removelast l) -> In x l.
Proof. induction l as [|y [|z l] IH]; [auto|cbn; tauto|]. cbn [removelast]. intros [->|H]; [now left|right; auto]. Qed.

Lemma sorted_app_inv (x y : list N) : StronglySorted N.lt (x ++ y) ->
  StronglySorted N.lt x /\ StronglySorted N.lt y /\ (forall i j, In i x -> In j y -> i < j).
Proof.
  induction x as [|z x IH]; cbn; intros H.
  - split; [constructor|]. split; [exact H|]. tauto.
  - inversion H as [|? ? H1 H2]; subst. destruct (IH H1) as (A & B & C). rewrite Forall_forall in H2.
    split; [constructor; [exact A|]; apply Forall_forall; intros i Hi; apply H2, in_or_app; auto|].
    split; [exact B|]. intros i j [->|Hi] Hj; [apply H2, in_or_app; auto|auto].
Qed.

(** Groups: sorted pieces. *)
Lemma split_spec m rd : mask_ok m = true -> 1 <= rd_len rd <= 255 ->
  exists gs, split_large_reads m rd = Ok gs /\
    concat (map to_indices gs) = to_indices m /\
    Forall (fun g => g <> 0 /\ mask_ok g = true /\ fits_in_one_message g rd = true) gs /\
    Forall (fun g => length (to_indices g) = (MAX_PAYLOAD_SIZE / N.to_nat (rd_len rd))%nat) (removelast gs).
Proof.
  intros Hm Hl. unfold split_large_reads. destruct (N.eqb_spec (rd_len rd) 0) as [|_]; [lia|].
  set (k := Nat.div MAX_PAYLOAD_SIZE (N.to_nat (rd_len rd))).
  assert (Hk : (0 < k)%nat /\ (k * N.to_nat (rd_len rd) <= MAX_PAYLOAD_SIZE)%nat).
  { unfold k. assert (Hn : (1 <= N.to_nat (rd_len rd) <= 255)%nat) by lia.
    generalize dependent (N.to_nat (rd_len rd)). intros n Hn. unfold MAX_PAYLOAD_SIZE. split.
    - apply Nat.div_str_pos. lia.
    - pose proof (Nat.mul_div_le 1024 n). lia. }
  destruct (concat_chunks k (to_indices m) (length (to_indices m)) (proj1 Hk) (le_n _)) as [Ec Fc].
  fold (chunks k (to_indices m)) in Ec, Fc.
  exists (map port_mask (chunks k (to_indices m))).
  assert (Hg : forall c, In c (chunks k (to_indices m)) ->
            StronglySorted N.lt c /\ Forall (fun i => i < 64) c).
  { intros c Hc. assert (Hin : exists p q, to_indices m = p ++ c ++ q).
    { rewrite <- Ec. apply in_split in Hc. destruct Hc as (l1 & l2 & ->).
      exists (concat l1), (concat l2). now rewrite concat_app. }
    destruct Hin as (p & q & E). pose proof (to_indices_sorted m) as Hs. rewrite E in Hs.
    apply sorted_app_inv in Hs. destruct Hs as (_ & Hs & _). apply sorted_app_inv in Hs.
    split; [tauto|]. pose proof (to_indices_lt m) as Ht. rewrite E in Ht.
    apply Forall_app in Ht. destruct Ht as [_ Ht]. apply Forall_app in Ht. tauto. }
  split; [|split; [|split]].
  - apply omapM_ok. intros c Hc. destruct (Hg c Hc) as [Hs Hlt].
    replace (from_indices c) with (@Ok InvalidPort _ (port_mask c)); [reflexivity|]. symmetry.
    apply from_indices_ok_iff. split; [exact Hlt|]. apply port_mask_in.
  - rewrite map_map. rewrite (map_ext_in _ (fun c => c)); [now rewrite map_id|].
    intros c Hc. destruct (Hg c Hc). now apply port_mask_indices.
  - apply Forall_forall. intros g Hin. apply in_map_iff in Hin. destruct Hin as (c & <- & Hc).
    destruct (Hg c Hc) as [Hs Hlt]. rewrite Forall_forall in Fc. destruct (Fc c Hc) as [Hne Hle].
    assert (Hmk : mask_ok (port_mask c) = true) by now apply port_mask_ok.
    split; [|split; [exact Hmk|]].
    + intros E. pose proof (port_mask_indices c Hs Hlt) as I. rewrite E in I. apply Hne. rewrite <- I. reflexivity.
    + unfold fits_in_one_message. rewrite count_to_indices, port_mask_indices by assumption.
      apply Nat.leb_le. nia.
  - fold k. rewrite map_removelast. apply Forall_map.
    pose proof (chunks_full k (to_indices m) (length (to_indices m)) (proj1 Hk) (le_n _)) as Hu.
    fold (chunks k (to_indices m)) in Hu. rewrite Forall_forall in Hu |- *. intros c Hc.
    destruct (Hg c (in_removelast _ _ Hc)) as [Hs Hlt]. rewrite port_mask_indices by assumption. now apply Hu.
Qed.
