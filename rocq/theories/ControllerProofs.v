(** Proofs about the controller, part 1: one request and its response. *)
From Verif Require Export Tac ModuleIdProofs ModuleIdProps ResultsProofs MessageProofs SpecController.

(** ** The monad *)
Lemma cbind_ok {St A B} (c : ctl (St := St) A) (f : A -> ctl B) w w' a :
  c w = (w', Ok a) -> cbind c f w = f a w'.
Proof. intros H. unfold cbind. now rewrite H. Qed.
Lemma cbind_err {St A B} (c : ctl (St := St) A) (f : A -> ctl B) w w' e :
  c w = (w', Err e) -> cbind c f w = (w', Err e).
Proof. intros H. unfold cbind. now rewrite H. Qed.
Lemma cbind_panic {St A B} (c : ctl (St := St) A) (f : A -> ctl B) w w' :
  c w = (w', Panic) -> cbind c f w = (w', Panic).
Proof. intros H. unfold cbind. now rewrite H. Qed.

(** The request made from [w], and the world after it. *)
Definition req {St} (w : world St) (q : HostRequest) (d : option (list N)) : Rpc :=
  mkRpc (header_new (w_counter w) KHostRequest) (message_new (BHostRequest q)) d.
Definition stepped {St} (w : world St) (q : HostRequest) (d : option (list N)) (s : St) : world St :=
  mkWorld s ((w_counter w + 1) mod 2 ^ 64) (w_log w ++ [ASend (req w q d)]).

Lemma rpc_eq {St} (sp : St -> Rpc -> St * reply) q d w :
  rpc sp q d w = (stepped w q d (fst (sp (w_sp w) (req w q d))), snd (sp (w_sp w) (req w q d))).
Proof. unfold rpc, stepped, next_header, req. now destruct (sp _ _). Qed.

(** ** Masks of port lists *)
Lemma port_mask_spec l j : N.testbit (port_mask l) j = existsb (N.eqb j) l.
Proof.
  induction l as [|i l IH]; cbn [port_mask fold_right existsb].
  - apply N.bits_0.
  - change (fold_right (fun i m => N.setbit m i) 0 l) with (port_mask l).
    rewrite N.setbit_eqb, IH, (N.eqb_sym i j). reflexivity.
Qed.
Lemma port_mask_in l j : N.testbit (port_mask l) j = true <-> In j l.
Proof. rewrite port_mask_spec. apply existsb_eqb_in. Qed.
Lemma port_mask_ok l : Forall (fun i => i < 64) l -> mask_ok (port_mask l) = true.
Proof.
  intros H. apply mask_ok_testbit. intros i. rewrite port_mask_in.
  rewrite Forall_forall in H. apply H.
Qed.
Lemma port_mask_indices l : StronglySorted N.lt l -> Forall (fun i => i < 64) l ->
  to_indices (port_mask l) = l.
Proof.
  intros Hs Hl. apply sorted_lt_ext; [apply to_indices_sorted|exact Hs|]. intros x.
  rewrite in_to_indices_ok by now apply port_mask_ok. apply port_mask_in.
Qed.
Lemma to_indices_lt m : Forall (fun i => i < 64) (to_indices m).
Proof. apply Forall_forall. intros i. rewrite in_to_indices. tauto. Qed.
Lemma filter_ports_sorted p m : StronglySorted N.lt (filter p (to_indices m)).
Proof. apply sorted_filter, to_indices_sorted. Qed.
Lemma filter_ports_lt p m : Forall (fun i => i < 64) (filter p (to_indices m)).
Proof.
  apply Forall_forall. intros i Hi. apply filter_In in Hi. destruct Hi as [Hi _].
  apply in_to_indices in Hi. tauto.
Qed.
Lemma port_mask_to_indices m : mask_ok m = true -> port_mask (to_indices m) = m.
Proof.
  intros Hm. apply mask_eq_iff_subset. intros i. rewrite port_mask_in. now apply in_to_indices_ok.
Qed.

Lemma get_port_mask {A} l (g : N -> A) i : StronglySorted N.lt l -> Forall (fun i => i < 64) l ->
  get (port_mask l) (map g l) i = if existsb (N.eqb i) l then Some (g i) else None.
Proof.
  intros Hs Hl. unfold get, zip_data. rewrite port_mask_indices by assumption. clear Hs Hl.
  induction l as [|j l IH]; cbn; [reflexivity|]. rewrite IH. destruct (N.eqb_spec i j) as [->|]; reflexivity.
Qed.
Lemma aligned_port_mask {A} l (g : N -> A) : StronglySorted N.lt l -> Forall (fun i => i < 64) l ->
  aligned (port_mask l) (map g l).
Proof.
  intros Hs Hl. split; [now apply port_mask_ok|].
  rewrite map_length, count_to_indices by now apply port_mask_ok. now rewrite port_mask_indices.
Qed.

Lemma existsb_filter_ports p m i :
  existsb (N.eqb i) (filter p (to_indices m)) = (i <? 64) && N.testbit m i && p i.
Proof.
  apply eq_true_iff_eq. rewrite existsb_eqb_in, filter_In, in_to_indices, !andb_true_iff, N.ltb_lt.
  tauto.
Qed.

(** ** Reports as lookups *)
Definition rrep {P} (m : N) (f : N -> P + TransceiverError) (r : Result P) : Prop :=
  raligned r /\
  forall i,
    rget r i = (if N.testbit m i then match f i with inl x => Some x | inr _ => None end else None) /\
    rerr r i = (if N.testbit m i then match f i with inl _ => None | inr e => Some e end else None).

Lemma rrep_reports {P} m (f : N -> P + TransceiverError) r : rrep m f r <-> reports m f r.
Proof.
  unfold rrep, reports. rewrite wf_result_spec. split.
  - intros [Ha H]. split; [split; [exact Ha|]|split].
    + intros i x e. destruct (H i) as [-> ->]. destruct (N.testbit m i), (f i); intuition discriminate.
    + intros i x. rewrite succeeds_get, member_testbit. destruct (H i) as [-> _].
      destruct (N.testbit m i), (f i); intuition congruence.
    + intros i x. rewrite fails_get, member_testbit. destruct (H i) as [_ ->].
      destruct (N.testbit m i), (f i); intuition congruence.
  - intros ([Ha Hd] & Hs & Hf). split; [exact Ha|]. intros i. specialize (Hs i). specialize (Hf i).
    setoid_rewrite succeeds_get in Hs. setoid_rewrite fails_get in Hf.
    setoid_rewrite member_testbit in Hs. setoid_rewrite member_testbit in Hf.
    split.
    + destruct (rget r i) as [x|] eqn:E.
      * destruct (proj1 (Hs x) eq_refl) as [-> ->]. reflexivity.
      * destruct (N.testbit m i); [|reflexivity]. destruct (f i) as [x|]; [|reflexivity].
        now discriminate (proj2 (Hs x) (conj eq_refl eq_refl)).
    + destruct (rerr r i) as [x|] eqn:E.
      * destruct (proj1 (Hf x) eq_refl) as [-> ->]. reflexivity.
      * destruct (N.testbit m i); [|reflexivity]. destruct (f i) as [|x]; [reflexivity|].
        now discriminate (proj2 (Hf x) (conj eq_refl eq_refl)).
Qed.

Lemma rrep_ext {P} m (f g : N -> P + TransceiverError) r :
  (forall i, N.testbit m i = true -> f i = g i) -> rrep m f r -> rrep m g r.
Proof.
  intros H [Ha Hr]. split; [exact Ha|]. intros i. destruct (Hr i) as [-> ->].
  destruct (N.testbit m i) eqn:E; [|auto]. now rewrite (H i E).
Qed.

Lemma rrep_modules {P} m (f : N -> P + TransceiverError) r i : rrep m f r ->
  N.testbit (mr_modules r) i = N.testbit m i && match f i with inl _ => true | inr _ => false end.
Proof.
  intros [[Ha _] H]. destruct (H i) as [Hg _]. apply eq_true_iff_eq.
  rewrite <- (get_some _ _ i Ha). unfold rget in Hg. rewrite Hg. rewrite andb_true_iff.
  destruct (N.testbit m i), (f i); split; intros K; try destruct K; try split; try discriminate; eauto.
Qed.
Lemma rrep_failed {P} m (f : N -> P + TransceiverError) r i : rrep m f r ->
  N.testbit (fm_modules (mr_failures r)) i =
  N.testbit m i && match f i with inl _ => false | inr _ => true end.
Proof.
  intros [[_ Ha] H]. destruct (H i) as [_ Hg]. apply eq_true_iff_eq.
  rewrite <- (get_some _ _ i Ha). unfold rerr, fget in Hg. rewrite Hg. rewrite andb_true_iff.
  destruct (N.testbit m i), (f i); split; intros K; try destruct K; try split; try discriminate; eauto.
Qed.
Lemma rrep_data {P} m (f : N -> P + TransceiverError) r : rrep m f r -> aligned (mr_modules r) (mr_data r).
Proof. now intros [[Ha _] _]. Qed.
Lemma rrep_mask_ok {P} m (f : N -> P + TransceiverError) r : rrep m f r -> mask_ok (mr_modules r) = true.
Proof. now intros [[[Ha _] _] _]. Qed.

(** A later step on the modules that passed an earlier one. *)
Lemma rrep_chain {P Q} m (g1 : N -> P + TransceiverError) (g2 : N -> Q + TransceiverError) a d :
  rrep m g1 a -> rrep (mr_modules a) g2 d ->
  rrep m (and_then g1 g2)
       (mkResult (mr_modules d) (mr_data d) (failed_merge (mr_failures a) (mr_failures d))).
Proof.
  intros Ha Hd. pose proof Ha as [[_ Fa] Ra]. pose proof Hd as [[Ad Fd] Rd].
  destruct (failed_merge_spec _ _ Fa Fd) as (Ff & _ & Hf).
  split; [now split|]. intros i. destruct (Ra i) as [_ Ei]. destruct (Rd i) as [Gd Ed].
  rewrite (rrep_modules _ _ _ i Ha) in Gd, Ed. unfold rget, rerr in *. cbn [mr_modules mr_data mr_failures].
  rewrite Hf, Gd, Ed, Ei. unfold and_then.
  destruct (N.testbit m i), (g1 i), (g2 i); cbn; auto.
Qed.

(** Failures carry over to the final report. *)
Lemma ack_eq {E} m (f : FailedModules E) d : length d = m_count m -> mkResult m d f = ack_new m f.
Proof.
  intros H. unfold ack_new. f_equal. rewrite <- H. clear.
  induction d as [|[] d IH]; cbn; [reflexivity|]. now f_equal.
Qed.

(** ** Raw responses *)
Lemma hw_errors_ok f errs : mask_ok f = true -> length errs = length (to_indices f) ->
  ctl_hw_errors f errs =
  Ok (mkFailed f (map (fun p => hw_fault (fst p) (snd p)) (combine (to_indices f) errs))).
Proof.
  intros Hf Hl. unfold ctl_hw_errors, deserialize_hw_errors.
  rewrite count_to_indices by assumption. rewrite <- Hl. unfold deserialized_errors_new.
  destruct errs as [|b errs].
  - cbn. destruct (to_indices f); [reflexivity|discriminate].
  - cbn [length]. rewrite Nat.ltb_irrefl. cbn [omap_err obind]. f_equal. f_equal. unfold hw_fault.
    generalize (to_indices f) as ports. generalize (b :: errs) as es. clear.
    induction es as [|e es IH]; intros [|p ports]; cbn; try reflexivity. now rewrite IH.
Qed.

Lemma split_at_app {E} a b n : length a = n -> @split_at E n (a ++ b) = Ok (a, b).
Proof.
  intros H. unfold split_at. rewrite app_length, H.
  replace (Nat.leb n (n + length b)) with true by (symmetry; apply Nat.leb_le; lia).
  destruct (firstn_skipn_app_len a b n H) as [-> ->]. reflexivity.
Qed.

Lemma omapM_ok {E A B} (f : A -> outcome E B) (g : A -> B) l :
  (forall x, In x l -> f x = Ok (g x)) -> omapM f l = Ok (map g l).
Proof.
  induction l as [|x l IH]; intros H; cbn; [reflexivity|].
  rewrite H by now left. cbn. rewrite IH by (intros y Hy; apply H; now right). reflexivity.
Qed.

Lemma chunks_fuel_concat {A} k (items : list (list A)) fuel :
  (0 < k)%nat -> Forall (fun x => length x = k) items -> (length (concat items) <= fuel)%nat ->
  chunks_fuel fuel k (concat items) = items.
Proof.
  intros Hk H. revert fuel. induction H as [|x items Hx _ IH]; intros fuel Hf; cbn [concat].
  - now destruct fuel.
  - cbn [concat] in Hf. rewrite app_length in Hf. destruct fuel as [|fuel]; [lia|].
    cbn [chunks_fuel]. destruct (firstn_skipn_app_len x (concat items) k Hx) as [E1 E2].
    destruct (x ++ concat items) as [|y t] eqn:Et.
    { destruct x; [cbn in Hx; lia|discriminate]. }
    rewrite E1, E2, IH by lia. reflexivity.
Qed.
Lemma chunks_concat {A} k (items : list (list A)) : (0 < k)%nat ->
  Forall (fun x => length x = k) items -> chunks k (concat items) = items.
Proof. intros Hk H. apply chunks_fuel_concat; auto. Qed.
Lemma filter_all {A} (p : A -> bool) l : Forall (fun x => p x = true) l -> filter p l = l.
Proof. induction 1 as [|x l Hx _ IH]; cbn; [reflexivity|]. now rewrite Hx, IH. Qed.
Lemma chunks_exact_concat {A} k (items : list (list A)) : (0 < k)%nat ->
  Forall (fun x => length x = k) items -> chunks_exact k (concat items) = items.
Proof.
  intros Hk H. unfold chunks_exact. rewrite chunks_concat by assumption. apply filter_all.
  eapply Forall_impl; [|exact H]. intros x ->. apply Nat.eqb_refl.
Qed.
