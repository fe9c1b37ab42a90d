(** Proofs about the controller, part 6: power queries (C35). *)
From Verif Require Export ControllerProofs5.

Lemma testbit_get {A} m (d : list A) i : aligned m d ->
  N.testbit m i = match get m d i with Some _ => true | None => false end.
Proof.
  intros H. destruct (get m d i) as [x|] eqn:E.
  - apply (proj1 (get_some m d i H)). eauto.
  - now apply (get_none m d i H).
Qed.

Lemma filter_eq {A} m (d : list A) f m' d' : mask_ok m = true -> filter_module_data m d f = (m', d') ->
  aligned m' d' /\
  forall i, get m' d' i = match get m d i with Some x => if f i x then Some x else None | None => None end.
Proof.
  intros H E. pose proof (aligned_filter m d f H) as A0. pose proof (fun i => get_filter m d f i H) as G.
  rewrite E in A0, G. auto.
Qed.
Lemma remove_eq {A} m (d : list A) r m' d' : aligned m d -> remove_module_data m d r = (m', d') ->
  aligned m' d' /\ forall i, get m' d' i = if N.testbit r i then None else get m d i.
Proof.
  intros H E. pose proof (aligned_remove m d r H) as A0. pose proof (fun i => get_remove m d r i H) as G.
  rewrite E in A0, G. auto.
Qed.
Lemma keep_eq {A} m (d : list A) r m' d' : aligned m d -> keep_module_data m d r = (m', d') ->
  aligned m' d' /\ forall i, get m' d' i = if N.testbit r i then get m d i else None.
Proof.
  intros H E. pose proof (aligned_keep m d r H) as A0. pose proof (fun i => get_keep m d r i H) as G.
  rewrite E in A0, G. auto.
Qed.
Lemma merge_eq {A} m (d : list A) m2 d2 m' d' : aligned m d -> aligned m2 d2 ->
  merge_module_data m d m2 d2 = (m', d') ->
  aligned m' d' /\ forall i, get m' d' i = match get m2 d2 i with Some x => Some x | None => get m d i end.
Proof.
  intros H H2 E. pose proof (aligned_merge m d m2 d2 H H2) as A0. pose proof (fun i => get_merge m d m2 d2 i H H2) as G.
  rewrite E in A0, G. auto.
Qed.

Lemma combine_repeat {A B} (l : list A) (x : B) n : (length l <= n)%nat ->
  combine l (repeat x n) = combine l (repeat x (length l)).
Proof.
  revert n. induction l as [|y l IH]; intros n Hn; [reflexivity|].
  destruct n; cbn in Hn; [lia|]. cbn. f_equal. apply IH. lia.
Qed.
Lemma zip_repeat64 {A} m (x : A) : mask_ok m = true ->
  zip_data m (repeat x 64) = zip_data m (repeat x (m_count m)).
Proof.
  intros H. unfold zip_data. rewrite combine_repeat by apply to_indices_le64.
  now rewrite (count_to_indices m H).
Qed.
Lemma aligned_repeat {A} m (x : A) : mask_ok m = true -> aligned m (repeat x (m_count m)).
Proof. intros H. split; [exact H|]. apply repeat_length. Qed.
Lemma get_repeat {A} m (x : A) i : mask_ok m = true ->
  get m (repeat x (m_count m)) i = if N.testbit m i then Some x else None.
Proof.
  intros H. pose proof (aligned_repeat m x H) as A0. destruct (get m (repeat x (m_count m)) i) as [y|] eqn:E.
  - assert (N.testbit m i = true) as -> by (apply (proj1 (get_some _ _ i A0)); eauto).
    unfold get in E. apply lookup_in in E. unfold zip_data in E. apply in_combine_r in E.
    apply repeat_spec in E. now subst.
  - now rewrite (proj1 (get_none _ _ i A0) E).
Qed.

Lemma get_map_combine {A B C} (f : A * B -> C) m (a : list A) (b : list B) i : aligned m a -> aligned m b ->
  aligned m (map f (combine a b)) /\
  get m (map f (combine a b)) i =
  match get m a i, get m b i with Some x, Some y => Some (f (x, y)) | _, _ => None end.
Proof.
  intros [Hm Ha] [_ Hb]. split.
  - split; [exact Hm|]. rewrite map_length, combine_length, Ha, Hb. apply Nat.min_id.
  - unfold get, zip_data. assert (L : length a = length b) by congruence. clear Ha Hb Hm.
    revert a b L. induction (to_indices m) as [|j l IH]; intros [|x a] [|y b] L; try discriminate; try reflexivity.
    cbn. destruct (i =? j); [reflexivity|]. apply IH. now injection L.
Qed.

Lemma land_pow2 b k : (N.land b (2 ^ k) =? 0) = negb (N.testbit b k).
Proof.
  apply eq_true_iff_eq. rewrite N.eqb_eq, negb_true_iff. split.
  - intros H. assert (T : N.testbit (N.land b (2 ^ k)) k = false) by (rewrite H; apply N.bits_0).
    rewrite N.land_spec, N.pow2_bits_true, andb_true_r in T. exact T.
  - intros H. apply N.bits_inj. intros i. rewrite N.land_spec, N.pow2_bits_eqb, N.bits_0.
    destruct (N.eqb_spec k i) as [<-|]; [now rewrite H|apply andb_false_r].
Qed.
Lemma contains_pow2 s k : st_contains s (2 ^ k) = N.testbit s k.
Proof.
  unfold st_contains. apply eq_true_iff_eq. rewrite N.eqb_eq. split.
  - intros H. assert (T : N.testbit (N.land s (2 ^ k)) k = true) by (rewrite H; apply N.pow2_bits_true).
    rewrite N.land_spec, N.pow2_bits_true, andb_true_r in T. exact T.
  - intros H. apply N.bits_inj. intros i. rewrite N.land_spec, N.pow2_bits_eqb.
    destruct (N.eqb_spec k i) as [<-|]; [now rewrite H|apply andb_false_r].
Qed.
Lemma contains_supplied s : st_contains s (N.lor ST_POWER_GOOD ST_ENABLED) = supplied s.
Proof.
  unfold st_contains, supplied. change (N.lor ST_POWER_GOOD ST_ENABLED) with (N.lor (2 ^ 5) (2 ^ 1)).
  apply eq_true_iff_eq. rewrite N.eqb_eq, andb_true_iff. split.
  - intros H.
    assert (T : forall k, N.testbit (N.lor (2 ^ 5) (2 ^ 1)) k = true -> N.testbit s k = true).
    { intros k Hk. assert (T : N.testbit (N.land s (N.lor (2 ^ 5) (2 ^ 1))) k = true) by now rewrite H.
      rewrite N.land_spec, Hk, andb_true_r in T. exact T. }
    split; apply T; reflexivity.
  - intros [H1 H5]. apply N.bits_inj. intros i. rewrite N.land_spec, N.lor_spec, !N.pow2_bits_eqb.
    destruct (N.eqb_spec 5 i) as [<-|]; [now rewrite H5|].
    destruct (N.eqb_spec 1 i) as [<-|]; [now rewrite H1|]. apply andb_false_r.
Qed.

Lemma contains_reset s : st_contains s ST_RESET = held_in_reset s.
Proof. exact (contains_pow2 s 2). Qed.
Lemma contains_lpmode s : st_contains s ST_LOW_POWER_MODE = lpmode_pin s.
Proof. exact (contains_pow2 s 3). Qed.

Section PowerQuery.
  Context {St : Type} (a : honest St) (Hok : honest_ok a).
  Implicit Type w : world St.
  Local Notation sp := (honest_sp a).

  (** The query result as a report: some assignment of the errors to the failed ports. *)
  Lemma query_rrep {P} (reads : Identifier -> outcome DecodeError (list MemoryRead))
      (parse : Identifier -> list (list N) -> outcome DecodeError P) mem w m :
    mask_ok m = true -> reads_as a (w_sp w) mem -> queryable reads parse mem m ->
    exists r w' F, parse_modules_by_identifier sp reads parse m w = (w', Ok r) /\
      reads_as a (w_sp w') mem /\ (exists ds, grew w w' ds /\ only_reads ds) /\ rrep m F r /\
      (forall i x, N.testbit m i = true -> (F i = inl x <-> says reads parse mem i = inl x)) /\
      (fails_in_order reads parse mem m -> forall i, N.testbit m i = true -> F i = says reads parse mem i) /\
      handed_out mem m (says reads parse mem) F.
  Proof.
    intros Hm Hr Hq. apply mask_ok_lt in Hm.
    destruct (query_reports a Hok reads parse mem w m Hm Hr Hq)
      as (r & w' & E & A & D & Suc & One & Fai & Fm & Fl & _ & Rep & order & Os & Oi & Of).
    assert (Al : raligned r).
    { split; [now apply one_each_aligned|]. split; [now apply mask_ok_lt|].
      rewrite Fl. symmetry. apply count_to_indices. now apply mask_ok_lt. }
    exists r, w', (fun i => match rget r i with
                            | Some x => inl x
                            | None => inr match rerr r i with Some e => e | None => TeDecode DeParseFailed end
                            end).
    split; [exact E|]. split; [exact A|]. split; [exact D|].
    assert (G : forall i, rget r i = if N.testbit m i then match says reads parse mem i with inl x => Some x | _ => None end else None).
    { intros i. destruct (rget r i) as [x|] eqn:X.
      - apply succeeds_get, Suc in X. destruct X as [X ->]. apply member_testbit in X. now rewrite X.
      - destruct (N.testbit m i) eqn:Em; [|reflexivity]. destruct (says reads parse mem i) as [x|e] eqn:S; [|reflexivity].
        assert (K : succeeds r i x) by (apply Suc; split; [now apply member_testbit|exact S]).
        apply succeeds_get in K. congruence. }
    assert (Er : forall i, match rerr r i with Some _ => true | None => false end =
                   N.testbit m i && match says reads parse mem i with inl _ => false | inr _ => true end).
    { intros i. unfold rerr, fget. destruct Al as [_ Af]. rewrite <- (testbit_get _ _ i Af).
      apply eq_true_iff_eq. specialize (Fai i). unfold failed in Fai. rewrite !member_testbit in Fai.
      rewrite Fai, andb_true_iff. destruct (says reads parse mem i) as [|e]; split; intros [X Y]; split; auto; try discriminate.
      - destruct Y; discriminate.
      - eauto. }
    split; [|split; [|split; [|split]]].
    - split; [exact Al|]. intros i. specialize (G i). specialize (Er i). rewrite G.
      destruct (N.testbit m i); cbn [andb] in Er.
      + destruct (says reads parse mem i); destruct (rerr r i); try discriminate; auto.
      + destruct (rerr r i); [discriminate|auto].
    - intros i x Hi. rewrite G, Hi. destruct (says reads parse mem i); split; congruence.
    - intros Hf i Hi. specialize (Rep Hf). apply rrep_reports in Rep. destruct Rep as [_ Rep].
      destruct (Rep i) as [R1 R2]. rewrite Hi in R1, R2. rewrite R1, R2. destruct (says reads parse mem i); reflexivity.
    - intros i x Hi. apply member_testbit in Hi. rewrite G, Hi. destruct (says reads parse mem i); split; congruence.
    - exists order. split; [exact Os|]. split; [exact Oi|].
      assert (Ep : filter (fun i => match says reads parse mem i with inl _ => false | inr _ => true end) (to_indices m) =
                   to_indices (fm_modules (mr_failures r))).
      { apply sorted_lt_ext; [apply filter_ports_sorted|apply to_indices_sorted|]. intros i.
        rewrite filter_In, !in_to_indices_ok by (now apply mask_ok_lt).
        specialize (Er i). unfold rerr, fget in Er. destruct Al as [_ Af]. rewrite <- (testbit_get _ _ i Af) in Er. rewrite Er, andb_true_iff.
        reflexivity. }
      rewrite Ep.
      assert (Fp : Forall2 (fun i e => rerr r i = Some e) (to_indices (fm_modules (mr_failures r))) (fm_errors (mr_failures r))).
      { unfold rerr, fget, get, zip_data. pose proof (to_indices_nodup (fm_modules (mr_failures r))) as Nd. revert Fl Nd.
        generalize (fm_errors (mr_failures r)), (to_indices (fm_modules (mr_failures r))). clear.
        intros es l. revert es. induction l as [|i l IH]; intros [|e es] Hl Nd; try discriminate; constructor.
        - cbn [combine lookup]. now rewrite N.eqb_refl.
        - inversion Nd as [|? ? Ni Nd']; subst. specialize (IH es (f_equal Nat.pred Hl) Nd').
          assert (Gen : forall ls xs, ~ In i ls -> Forall2 (fun j e0 => lookup j (combine l es) = Some e0) ls xs ->
             Forall2 (fun j e0 => lookup j (combine (i :: l) (e :: es)) = Some e0) ls xs).
          { intros ls xs Hi H. induction H as [|j x ls xs Hj _ IH']; constructor.
            - cbn [combine lookup]. destruct (N.eqb_spec j i) as [->|_]; [exfalso; apply Hi; now left|exact Hj].
            - apply IH'. intros K. apply Hi. now right. }
          exact (Gen l es Ni IH). }
      assert (Fn : forall i, In i (to_indices (fm_modules (mr_failures r))) -> rget r i = None).
      { intros i Hi. rewrite <- Ep in Hi. apply filter_In in Hi. destruct Hi as [_ Hi]. rewrite G.
        destruct (says reads parse mem i); [discriminate|]. now destruct (N.testbit m i). }
      revert Fn. clear -Fp Of. revert Of. generalize order. induction Fp as [|i e l es Hi Fp IH]; intros o Ho Fn; inversion Ho; subst; constructor.
      + exists e. rewrite (Fn i (or_introl eq_refl)), Hi. auto.
      + apply IH; [assumption|]. intros j Hj. apply Fn. now right.
  Qed.
  Lemma handed_ext {P} mem m (f f' g : N -> P + TransceiverError) : mask_ok m = true -> (forall i, N.testbit m i = true -> f i = f' i) ->
    handed_out mem m f g -> handed_out mem m f' g.
  Proof.
    intros Hm E (H & order & Os & Oi & Of). split.
    - intros i x Hi. rewrite (H i x Hi), (E i) by (now apply member_testbit). reflexivity.
    - exists order. split; [exact Os|]. split.
      + intros i. rewrite Oi. split; intros [Hi He]; (split; [exact Hi|]); apply member_testbit in Hi; [rewrite <- (E i Hi)|rewrite (E i Hi)]; exact He.
      + assert (Eq : filter (fun i => match f' i with inl _ => false | inr _ => true end) (to_indices m) =
                     filter (fun i => match f i with inl _ => false | inr _ => true end) (to_indices m)).
        { apply filter_ext_in. intros i Hi. apply in_to_indices_ok in Hi; [|exact Hm]. now rewrite (E i Hi). }
        rewrite Eq. assert (Oi' : forall i, In i order -> N.testbit m i = true) by (intros i Hi; apply Oi in Hi; now apply member_testbit).
        revert Oi'. clear -Of E. induction Of as [|i o l ls (e & H1 & H2) _ IH]; intros Oi'; constructor.
        * exists e. split; [exact H1|]. rewrite <- E; [exact H2|]. apply Oi'. now left.
        * apply IH. intros j Hj. apply Oi'. now right.
  Qed.

  Lemma told_one {P} (dec : list N -> P) f i : told dec f i =
    match f i with inl d => inl (dec d) | inr b => inr (hw_fault i b) end.
  Proof. reflexivity. Qed.

  (** The byte-level specification of the control query. *)
  Lemma control_query w mem i : reads_as a (w_sp w) mem ->
    (forall id, ident_told mem i = inl id -> supported_kind id = true) ->
    says power_reads power_parse mem i = control_says mem i /\ said power_reads power_parse mem i <> Panic /\
    (forall id, ident_told mem i = inl id ->
        exists rds, power_reads id = Ok rds /\ Forall (fun rd => 1 <= rd_len rd <= 255) rds).
  Proof.
    intros Hr Hs. unfold says, said, control_says. destruct (ident_told mem i) as [id|e].
    2:{ split; [reflexivity|]. split; [discriminate|]. intros; discriminate. }
    specialize (Hs id eq_refl). unfold supported_kind in Hs.
    assert (Hone : forall rd, rd_len rd = 1 -> match mem i rd with inl d => exists b, d = [b] | inr _ => True end).
    { intros rd Hl. rewrite <- (Hr [] 0 rd i). cbn [fold_left].
      pose proof (Hok (w_sp w) (HRead 0 rd) None i) as K.
      destruct (hs_verdict a (w_sp w) (HRead 0 rd) None i) as [d|]; [|exact I].
      cbn [request_unit] in K. rewrite Hl in K. destruct K as [K _]. destruct d as [|b [|]]; try discriminate. eauto. }
    change (sff_kind id) with (is_sff id) in *. change (cmis_kind id) with (is_cmis id) in *.
    unfold own, power_reads, power_parse.
    destruct (is_sff id) eqn:Es.
    - change (read_new (PageSff SffLower) 93 1) with (@Ok MgmtError _ (mkRead (PageSff SffLower) 93 1)).
      cbn [ounwrap obind gather]. unfold told. specialize (Hone (mkRead (PageSff SffLower) 93 1) eq_refl).
      split; [|split].
      + destruct (mem i _) as [d|b]; [|reflexivity]. destruct Hone as [b ->]. cbn [first_byte obind hd].
        change 1 with (2 ^ 0). change 2 with (2 ^ 1). rewrite !land_pow2. rewrite negb_involutive.
        now destruct (N.testbit b 0).
      + destruct (mem i _) as [d|b]; [|discriminate]. destruct Hone as [b ->]. discriminate.
      + intros id' E. injection E as <-. rewrite Es. eexists. split; [reflexivity|]. repeat constructor; discriminate.
    - cbn [orb] in Hs. rewrite Hs.
      change (read_new (PageCmis CmisLower) 26 1) with (@Ok MgmtError _ (mkRead (PageCmis CmisLower) 26 1)).
      cbn [ounwrap obind gather]. unfold told. specialize (Hone (mkRead (PageCmis CmisLower) 26 1) eq_refl).
      split; [|split].
      + destruct (mem i _) as [d|b]; [|reflexivity]. destruct Hone as [b ->]. cbn [first_byte obind hd].
        change 64 with (2 ^ 6). change 16 with (2 ^ 4). rewrite !land_pow2. rewrite !negb_involutive.
        now destruct (N.testbit b 6).
      + destruct (mem i _) as [d|b]; [|discriminate]. destruct Hone as [b ->]. discriminate.
      + intros id' E. injection E as <-. rewrite Es, Hs. eexists. split; [reflexivity|]. repeat constructor; discriminate.
  Qed.


  Lemma power_rrep w m mem (st := hs_verdict a (w_sp w) (HStatus m) None) : mask_ok m = true ->
    reads_as a (hs_next a (w_sp w) (HStatus m) None) mem ->
    (forall i id, N.testbit m i = true -> readable st i = true -> ident_told mem i = inl id -> supported_kind id = true) ->
    exists r w' C ds, power sp m w = (w', Ok r) /\ reads_as a (w_sp w') mem /\
      grew w w' (DRequest (HStatus m) None :: ds) /\ only_reads ds /\
      rrep m (power_says st C) r /\
      (forall i c, N.testbit m i = true -> readable st i = true -> (C i = inl c <-> control_says mem i = inl c)) /\
      (fails_in_order power_reads power_parse mem (readable_mask m st) ->
        forall i, N.testbit m i = true -> readable st i = true -> C i = control_says mem i) /\
      handed_out mem (readable_mask m st) (control_says mem) C.
  Proof.
    intros Hm Hr Hs. destruct (honest_status a Hok w m Hm) as (rs & E0 & _ & R0).
    change (vd a w (HStatus m) None) with st in R0. pose proof R0 as [[As Fs] Rs].
    set (w0 := next a w (HStatus m) None) in *.
    unfold power. erewrite cbind_ok by exact E0.
    destruct (filter_module_data (mr_modules rs) (mr_data rs) _) as [powered pst] eqn:EP.
    destruct (filter_eq _ _ _ _ _ (proj1 As) EP) as [Ap Gp].
    destruct (filter_module_data powered pst _) as [in_reset irst] eqn:ER.
    destruct (filter_eq _ _ _ _ _ (proj1 Ap) ER) as [Ar Gr].
    destruct (remove_module_data powered pst in_reset) as [rdb rst] eqn:ED.
    destruct (remove_eq _ _ _ _ _ Ap ED) as [Ad Gd].
    (* lookups in terms of [st] *)
    assert (Gs : forall i, get (mr_modules rs) (mr_data rs) i =
                   if N.testbit m i then match st i with inl d => Some (hd 0 d) | inr _ => None end else None).
    { intros i. destruct (Rs i) as [K _]. unfold rget in K. rewrite K. unfold told.
      destruct (N.testbit m i), (st i); reflexivity. }
    assert (Gp' : forall i, get powered pst i =
                   if N.testbit m i then match st i with
                     | inl d => if supplied (hd 0 d) then Some (hd 0 d) else None
                     | inr _ => None end else None).
    { intros i. rewrite Gp, Gs. destruct (N.testbit m i); [|reflexivity]. destruct (st i); [|reflexivity].
      now rewrite contains_supplied. }
    assert (Gr' : forall i, N.testbit in_reset i =
                   N.testbit m i && match st i with
                     | inl d => supplied (hd 0 d) && held_in_reset (hd 0 d)
                     | inr _ => false end).
    { intros i. rewrite (testbit_get _ _ i Ar), Gr, Gp'. destruct (N.testbit m i); [|reflexivity].
      destruct (st i) as [d|]; [|reflexivity]. cbn [andb]. destruct (supplied (hd 0 d)); [|reflexivity]. rewrite contains_reset.
      now destruct (held_in_reset (hd 0 d)). }
    assert (Gd' : forall i, get rdb rst i =
                   if N.testbit m i && readable st i then match st i with inl d => Some (hd 0 d) | inr _ => None end else None).
    { intros i. rewrite Gd, Gr', Gp'. unfold readable. destruct (N.testbit m i); [|reflexivity]. cbn [andb].
      destruct (st i) as [d|]; [|reflexivity].
      destruct (supplied (hd 0 d)), (held_in_reset (hd 0 d)); reflexivity. }
    assert (Tb : forall i, N.testbit rdb i = N.testbit m i && readable st i).
    { intros i. rewrite (testbit_get _ _ i Ad), Gd'. unfold readable. destruct (N.testbit m i); [|reflexivity].
      cbn [andb]. destruct (st i) as [d|]; [|reflexivity]. destruct (_ && _); reflexivity. }
    assert (Erd : rdb = readable_mask m st).
    { apply mask_ext. intros i. rewrite Tb. apply eq_true_iff_eq. unfold readable_mask.
      rewrite port_mask_spec, existsb_eqb_in, filter_In, in_to_indices_ok, andb_true_iff by exact Hm. reflexivity. }
    assert (A0 : reads_as a (w_sp w0) mem) by exact Hr.
    (* the inner result *)
    assert (Inner : exists r w' C ds,
      (if Nat.eqb (m_count rdb) 0 then cret (Ok result_default)
           else
             cbind (power_control sp rdb) (fun control =>
             let (_, rs) := filter_module_data rdb rst
                              (fun i _ => m_contains (mr_modules control) i) in
             cret (Ok (mkResult (mr_modules control)
                         (map (fun p => power_mode_of (fst p) (snd p))
                              (combine (mr_data control) rs))
                         (mr_failures control))))) w0 = (w', Ok r) /\
      reads_as a (w_sp w') mem /\ grew w0 w' ds /\ only_reads ds /\
      rrep rdb (power_says st C) r /\
      (forall i c, N.testbit rdb i = true -> (C i = inl c <-> control_says mem i = inl c)) /\
      (fails_in_order power_reads power_parse mem rdb -> forall i, N.testbit rdb i = true -> C i = control_says mem i) /\
      handed_out mem rdb (control_says mem) C).
    { destruct (Nat.eqb_spec (m_count rdb) 0) as [Hz|Hz].
      - apply count0 in Hz; [|apply Ad]. exists result_default, w0, (control_says mem), [].
        split; [reflexivity|]. split; [exact A0|]. split; [apply grew_refl|]. split; [constructor|].
        rewrite Hz. split; [apply rrep_empty|]. split; [intros; reflexivity|]. split; [reflexivity|].
        split; [reflexivity|]. exists []. split; [constructor|]. split; [|constructor].
        intros i. rewrite member_testbit, N.bits_0. split; [intros []|intros [K _]; discriminate].
      - assert (Hq : queryable power_reads power_parse mem rdb).
        { intros i Hi. apply member_testbit in Hi. rewrite Tb in Hi. apply andb_true_iff in Hi.
          destruct (control_query w0 mem i A0) as (_ & H1 & H2).
          - intros id. apply Hs; tauto.
          - split; assumption. }
        destruct (query_rrep power_reads power_parse mem w0 rdb (proj1 Ad) A0 Hq)
          as (rc & w1 & C & Ec & A1 & (ds & L & O) & Rc & Cs & Co & Ho).
        assert (Sy : forall i, N.testbit rdb i = true -> says power_reads power_parse mem i = control_says mem i).
        { intros i Hi. rewrite Tb in Hi. apply andb_true_iff in Hi. apply (control_query w0 mem i A0).
          intros id. apply Hs; tauto. }
        pose proof Rc as [[Ac Fc] RC].
        assert (X : exists rs', filter_module_data rdb rst (fun i _ => m_contains (mr_modules rc) i) = (mr_modules rc, rs') /\
                    aligned (mr_modules rc) rs' /\
                    forall i, get (mr_modules rc) rs' i = if N.testbit (mr_modules rc) i then get rdb rst i else None).
        { destruct (filter_module_data rdb rst (fun i _ => m_contains (mr_modules rc) i)) as [mm rs'] eqn:EF.
          destruct (filter_eq _ _ _ _ _ (proj1 Ad) EF) as [Af Gf].
          assert (mm = mr_modules rc).
          { apply mask_ext. intros i. rewrite (testbit_get _ _ i Af), Gf, Gd'.
            pose proof (rrep_modules _ _ _ i Rc) as M. rewrite Tb in M.
            unfold readable in *. destruct (N.testbit m i); [|now rewrite M]. cbn [andb] in *.
            destruct (st i) as [d|]; [|now rewrite M].
            destruct (supplied (hd 0 d) && negb (held_in_reset (hd 0 d))); [|now rewrite M].
            rewrite m_contains_testbit by apply Ac. now destruct (N.testbit (mr_modules rc) i). }
          subst mm. exists rs'. split; [reflexivity|]. split; [exact Af|]. intros i. rewrite Gf.
          rewrite m_contains_testbit by apply Ac.
          destruct (get rdb rst i), (N.testbit (mr_modules rc) i); reflexivity. }
        destruct X as (rs' & EF & Af & Gf).
        eexists _, w1, C, ds. split; [erewrite cbind_ok by exact Ec; rewrite EF; reflexivity|].
        split; [exact A1|]. split; [exact L|]. split; [exact O|]. split; [|split; [|split]].
        + split.
          * split; [|exact Fc]. cbn [mr_modules mr_data].
            exact (proj1 (get_map_combine (fun p => power_mode_of (fst p) (snd p)) _ _ _ 0 Ac Af)).
          * intros i. unfold rget. cbn [mr_modules mr_data mr_failures].
            rewrite (proj2 (get_map_combine (fun p => power_mode_of (fst p) (snd p)) _ _ _ i Ac Af)).
            destruct (RC i) as [G1 G2]. unfold rget in G1. unfold rerr in *. cbn [mr_failures] in *.
            rewrite G1, G2, Gf. rewrite (rrep_modules _ _ _ i Rc), Gd', Tb.
            unfold power_says, readable. destruct (N.testbit m i); [|auto]. cbn [andb].
            destruct (st i) as [d|]; [|auto]. destruct (supplied (hd 0 d)), (held_in_reset (hd 0 d)); cbn [andb negb orb]; auto.
            destruct (C i) as [c|e]; cbn [andb]; [|auto]. cbn [fst snd]. unfold power_mode_of, low_or_high.
            destruct c; [|auto]. rewrite contains_lpmode. auto.
        + intros i c Hi. rewrite (Cs i c Hi). now rewrite (Sy i Hi).
        + intros Hf i Hi. rewrite (Co Hf i Hi). exact (Sy i Hi).
        + exact (handed_ext mem rdb _ _ C (proj1 Ad) Sy Ho). }
    destruct Inner as (r & w1 & C & ds & Ei & A1 & L & O & Ri & Cs & Co & Ho).
    erewrite cbind_ok by exact Ei. clear Ei. pose proof Ri as [[Ai Fi] RI].
    set (off := m_merge (m_remove (mr_modules rs) powered) in_reset).
    assert (To : forall i, N.testbit off i = N.testbit m i && match st i with
                   | inl d => negb (supplied (hd 0 d)) || held_in_reset (hd 0 d) | inr _ => false end).
    { intros i. unfold off. rewrite m_merge_spec, m_remove_spec by apply As.
      rewrite (rrep_modules _ _ _ i R0), (testbit_get _ _ i Ap), Gp', Gr'. unfold told.
      destruct (N.testbit m i); [|reflexivity]. cbn [andb]. destruct (st i) as [d|]; [|reflexivity].
      destruct (supplied (hd 0 d)), (held_in_reset (hd 0 d)); reflexivity. }
    assert (Oo : mask_ok off = true).
    { apply mask_ok_testbit. intros i Hi. rewrite To in Hi. apply andb_true_iff in Hi.
      apply (proj1 (mask_ok_testbit m) Hm). tauto. }
    assert (Em : merge_module_data off (repeat power_mode_default 64) (mr_modules r) (mr_data r) =
                 merge_module_data off (repeat power_mode_default (m_count off)) (mr_modules r) (mr_data r)).
    { unfold merge_module_data. now rewrite (zip_repeat64 off). }
    rewrite Em. clear Em.
    destruct (merge_module_data off _ (mr_modules r) (mr_data r)) as [am ad] eqn:EM.
    destruct (merge_eq _ _ _ _ _ _ (aligned_repeat off power_mode_default Oo) Ai EM) as [Aa Ga].
    destruct (failed_merge_spec _ _ Fi Fs) as (Ff & _ & Gf).
    eexists _, w1, C, ds. split; [reflexivity|]. split; [exact A1|].
    split; [|split; [exact O|split; [|split; [|split]]]].
    - change (DRequest (HStatus m) None :: ds) with ([DRequest (HStatus m) None] ++ ds).
      eapply grew_trans; [|exact L]. apply grew_next.
    - split; [split; [exact Aa|exact Ff]|]. intros i. unfold rget, rerr. cbn [mr_modules mr_data mr_failures].
      rewrite Ga, Gf, get_repeat by exact Oo. rewrite To. destruct (RI i) as [G1 G2]. unfold rget, rerr in G1, G2.
      rewrite G1, G2. destruct (Rs i) as [_ G3]. unfold rerr in G3. rewrite G3, Tb.
      unfold told, power_says, readable. destruct (N.testbit m i); [|auto]. cbn [andb].
      destruct (st i) as [d|]; [|auto].
      destruct (supplied (hd 0 d)), (held_in_reset (hd 0 d)); cbn [andb negb orb]; auto.
      destruct (C i) as [[|]|]; auto.
    - intros i c H1 H2. apply Cs. now rewrite Tb, H1, H2.
    - intros Hf i H1 H2. rewrite Erd in Co. apply (Co Hf). rewrite <- Erd. now rewrite Tb, H1, H2.
    - now rewrite <- Erd.
  Qed.
End PowerQuery.
