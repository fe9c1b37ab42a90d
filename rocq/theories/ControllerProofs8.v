(** Proofs about the controller, part 8: changing the power state (C38). *)
From Verif Require Export ControllerProofs7.

Lemma good_mask_bit m f i : mask_ok m = true ->
  N.testbit (good_mask m f) i = N.testbit m i && is_good (f i).
Proof.
  intros Hm. unfold good_mask, good_ports. rewrite port_mask_spec. apply eq_true_iff_eq.
  rewrite existsb_eqb_in, filter_In, in_to_indices_ok, andb_true_iff by exact Hm. reflexivity.
Qed.
Lemma good_mask_mok m f : mask_ok m = true -> mask_ok (good_mask m f) = true.
Proof.
  intros Hm. apply mask_ok_testbit. intros i Hi. rewrite good_mask_bit in Hi by exact Hm.
  apply (proj1 (mask_ok_testbit m) Hm). apply andb_true_iff in Hi. tauto.
Qed.

Section SetPower.
  Context {St : Type} (a : honest St) (Hok : honest_ok a).
  Context (v : HostRequest -> option (list N) -> N -> verdict) (Hv : steady a v).
  Context (mem : N -> MemoryRead -> verdict) (Hmem : forall m rd i, v (HRead m rd) None i = mem i rd).
  Implicit Type w : world St.
  Local Notation sp := (honest_sp a).

  Lemma steady_reads s : reads_as a s mem.
  Proof. intros before m rd i. rewrite Hv. apply Hmem. Qed.

  (** Failures so far: the modules of [m] outside [mk]. *)
  Definition acc (m mk : N) (f : Failures) : Prop :=
    faligned f /\ mask_ok mk = true /\ (forall i, N.testbit mk i = true -> N.testbit m i = true) /\
    forall i, N.testbit (fm_modules f) i = N.testbit m i && negb (N.testbit mk i).

  Lemma acc_rrep {P} m (F : N -> P + TransceiverError) r : rrep m F r -> acc m (mr_modules r) (mr_failures r).
  Proof.
    intros R. pose proof R as [[Am Af] _]. split; [exact Af|]. split; [apply Am|]. split.
    - intros i. rewrite (rrep_modules _ _ _ i R). now destruct (N.testbit m i).
    - intros i. rewrite (rrep_failed _ _ _ i R), (rrep_modules _ _ _ i R).
      destruct (N.testbit m i); [|reflexivity]. now destruct (F i).
  Qed.
  Lemma acc_step {P} m mk f (F : N -> P + TransceiverError) r : acc m mk f -> rrep mk F r ->
    acc m (mr_modules r) (failed_merge f (mr_failures r)).
  Proof.
    intros (Ff & Mo & Sub & Bits) R. destruct (acc_rrep _ _ _ R) as (Fr & Mr & Subr & Bitr).
    destruct (failed_merge_spec _ _ Ff Fr) as (Fm & Em & _). split; [exact Fm|]. split; [exact Mr|]. split.
    - intros i H. auto.
    - intros i. rewrite Em, m_merge_spec, Bits, Bitr. specialize (Sub i). specialize (Subr i).
      destruct (N.testbit m i), (N.testbit mk i), (N.testbit (mr_modules r) i); cbn; auto;
        try (now specialize (Sub eq_refl)); try (now specialize (Subr eq_refl)).
  Qed.
  Lemma acc_accounts m mk f : acc m mk f -> accounts m mk (ack_new mk f).
  Proof.
    intros (Ff & Mo & Sub & Bits). split; [reflexivity|]. split.
    - intros i. rewrite !member_testbit. apply Sub.
    - split; [|split].
      + apply one_each_aligned. split; [exact Mo|]. apply repeat_length.
      + apply one_each_aligned. exact Ff.
      + intros i. unfold failed. rewrite !member_testbit. cbn [mr_failures ack_new]. rewrite Bits, andb_true_iff, negb_true_iff.
        destruct (N.testbit mk i); intuition congruence.
  Qed.

  (** One group: the identifier groups of a uniform set. *)
  Lemma uniform_groups k m (ids : list Identifier) : aligned m ids -> (forall i x, get m ids i = Some x -> x = k) ->
    split_modules_by_identifier m ids = Ok (if m =? 0 then [] else [(k, m)]).
  Proof.
    intros Ha Hk. destruct (split_groups m ids Ha) as (gs & -> & Hs & Hg & He). f_equal.
    assert (Keys : forall k' mk, In (k', mk) gs -> k' = k /\ mk = m).
    { intros k' mk Hin. destruct (Hg _ _ Hin) as [Hz Hb].
      assert (N.testbit mk (N.log2 mk) = true) as Hl by now apply N.bit_log2.
      apply Hb, in_zip_get, Hk in Hl. split; [exact Hl|]. subst k'. apply mask_ext. intros i. apply eq_true_iff_eq.
      rewrite Hb, in_zip_get, <- (get_some m ids i Ha). split; [eauto|]. intros [x Hx]. now rewrite (Hk _ _ Hx) in Hx. }
    destruct gs as [|[k1 m1] gs].
    - destruct (N.eqb_spec m 0) as [|Hz]; [reflexivity|]. exfalso.
      assert (N.testbit m (N.log2 m) = true) as Hl by now apply N.bit_log2.
      apply (get_some m ids _ Ha) in Hl. destruct Hl as [x Hx]. apply in_zip_get in Hx. destruct (He _ _ Hx) as [mk []].
    - destruct (Keys k1 m1 (or_introl eq_refl)) as [-> ->].
      destruct (N.eqb_spec m 0) as [Hz|Hz]; [destruct (Hg k m (or_introl eq_refl)); congruence|].
      destruct gs as [|[k2 m2] gs]; [reflexivity|]. exfalso.
      destruct (Keys k2 m2 (or_intror (or_introl eq_refl))) as [-> ->].
      inversion Hs as [|? ? _ Hf]; subst. pose proof (Forall_inv Hf) as X. cbn in X. rewrite benum_ltb_irrefl in X. discriminate.
  Qed.

  Lemma word_eq k ov st : supported_kind k = true ->
    power_word k ov st = Ok (soft_place k, soft_word k ov st).
  Proof.
    intros Hk. unfold supported_kind in Hk. unfold power_word, soft_place, soft_word.
    change (benum_eqb k QsfpPlusSff8636 || benum_eqb k Qsfp28) with (sff_kind k).
    change (benum_eqb k QsfpPlusCmis || benum_eqb k QsfpDD) with (cmis_kind k).
    destruct (sff_kind k).
    - destruct ov, st; reflexivity.
    - cbn [orb] in Hk. rewrite Hk. destruct ov, st; reflexivity.
  Qed.

  Lemma filter_none {A} m (d : list A) f : aligned m d -> (forall i x, get m d i = Some x -> f i x = false) ->
    filter_module_data m d f = (0, []).
  Proof.
    intros Ha Hf. destruct (filter_module_data m d f) as [m' d'] eqn:E.
    destruct (filter_eq _ _ _ _ _ (proj1 Ha) E) as [A' G].
    assert (m' = 0) as ->.
    { apply mask_ext. intros i. rewrite N.bits_0, (testbit_get _ _ i A'), G. destruct (get m d i) as [x|] eqn:X; [|reflexivity].
      now rewrite (Hf i x X). }
    f_equal. destruct A' as [_ A']. now destruct d'.
  Qed.
  Lemma filter_whole {A} m (d : list A) f : aligned m d -> (forall i x, get m d i = Some x -> f i x = true) ->
    fst (filter_module_data m d f) = m.
  Proof.
    intros Ha Hf. destruct (filter_module_data m d f) as [m' d'] eqn:E.
    destruct (filter_eq _ _ _ _ _ (proj1 Ha) E) as [A' G]. cbn [fst].
    apply mask_ext. intros i. rewrite (testbit_get _ _ i A'), (testbit_get _ _ i Ha), G.
    destruct (get m d i) as [x|] eqn:X; [|reflexivity]. now rewrite (Hf i x X).
  Qed.

  (** The software part, for modules of one kind without override. *)
  Lemma software_tail w k st m mk modes f : st <> PowerOff -> supported_kind k = true -> all_kind k m mem ->
    acc m mk f -> aligned mk modes -> (forall i x, get mk modes i = Some x -> overridden x = false) ->
    let m4 := good_mask mk (fun i => mem i ident_read) in
    let m5 := good_mask m4 (v (HWrite m4 (soft_place k)) (Some [soft_word k false st])) in
    exists w' f', set_software_power_state sp (mkResult mk modes f) st w = (w', Ok (ack_new m5 f')) /\
      acc m m5 f' /\ grew w w' (ident_request mk ++ software_deeds k st m4).
  Proof.
    intros Hst Hk Hall Hacc Ha Hov m4 m5. pose proof Hacc as (_ & Mo & Sub & _).
    destruct (honest_identifier_mem a Hok w mk mem Mo (steady_reads _)) as (ri & w1 & E1 & R1 & L1 & _).
    pose proof R1 as [[Ai Fi] RI].
    assert (M4 : mr_modules ri = m4).
    { apply mask_ext. intros i. unfold m4. rewrite good_mask_bit by exact Mo. rewrite (rrep_modules _ _ _ i R1).
      unfold ident_told, told. destruct (mem i ident_read); reflexivity. }
    assert (Mo4 : mask_ok m4 = true) by now apply good_mask_mok.
    assert (Hgr : split_modules_by_identifier (mr_modules ri) (mr_data ri) = Ok (if m4 =? 0 then [] else [(k, m4)])).
    { rewrite <- M4. apply uniform_groups; [exact Ai|]. intros i x Hx. destruct (RI i) as [G _]. unfold rget in G.
      rewrite G in Hx. destruct (N.testbit mk i) eqn:Em; [|discriminate]. apply (Hall i).
      - apply member_testbit. now apply Sub.
      - destruct (ident_told mem i); [congruence|discriminate]. }
    destruct (keep_module_data mk modes (mr_modules ri)) as [su mo] eqn:EK.
    destruct (keep_eq _ _ _ _ _ Ha EK) as [Ak Gk].
    assert (su = m4) as ->.
    { apply mask_ext. intros i. rewrite (testbit_get _ _ i Ak), Gk, M4. unfold m4. rewrite good_mask_bit by exact Mo.
      rewrite (testbit_get _ _ i Ha). destruct (get mk modes i), (is_good (mem i ident_read)); reflexivity. }
    assert (Hov' : forall i x, get m4 mo i = Some x -> overridden x = false).
    { intros i x Hx. rewrite Gk in Hx. destruct (N.testbit (mr_modules ri) i); [eauto|discriminate]. }
    pose proof (acc_step _ _ _ _ _ Hacc R1) as Hacc4. rewrite M4 in Hacc4.
    set (f4 := failed_merge f (mr_failures ri)) in *.
    assert (Start : forall X, X = set_software_power_state sp (mkResult mk modes f) st w ->
       X = cbind (soft_groups sp st (if m4 =? 0 then [] else [(k, m4)]) (m4, mo, f4)) (fun s =>
        cret (Ok (ack_new (fst (fst s)) (snd s)))) w1).
    { intros X ->. unfold set_software_power_state. cbn [mr_modules mr_data mr_failures].
      destruct st; [congruence| |]; (erewrite cbind_ok by exact E1; rewrite Hgr;
        erewrite cbind_ok by reflexivity; rewrite EK; reflexivity). }
    rewrite (Start _ eq_refl). clear Start. unfold software_deeds.
    destruct (N.eqb_spec m4 0) as [Hz|Hz].
    - assert (m5 = 0) as M5.
      { apply mask_ext. intros i. unfold m5. rewrite good_mask_bit by exact Mo4. rewrite Hz, N.bits_0. reflexivity. }
      exists w1, f4. split.
      { cbn [soft_groups]. erewrite cbind_ok by reflexivity. cbn [fst snd]. rewrite M5, Hz. reflexivity. }
      rewrite M5, <- Hz. split; [exact Hacc4|]. rewrite app_nil_r. exact L1.
    - cbn [soft_groups].
      rewrite (filter_none m4 mo (fun i x => m_contains m4 i && overridden x) Ak).
      2:{ intros i x Hx. rewrite (Hov' i x Hx). apply andb_false_r. }
      pose proof (filter_whole m4 mo (fun i x => m_contains m4 i && negb (overridden x)) Ak) as Wh.
      destruct (filter_module_data m4 mo (fun i x => m_contains m4 i && negb (overridden x))) as [wo wos].
      cbn [fst] in Wh. rewrite Wh.
      2:{ intros i x Hx. rewrite (Hov' i x Hx). rewrite m_contains_testbit by exact Mo4.
          rewrite (testbit_get _ _ i Ak), Hx. reflexivity. }
      clear Wh wo.
      (* the write to nobody *)
      destruct (honest_write a Hok w1 0 (soft_place k) [soft_word k true st] eq_refl eq_refl) as (r1 & Ew1 & _ & Rw1).
      set (w2 := next a w1 (HWrite 0 (soft_place k)) (Some [soft_word k true st])) in *.
      pose proof (acc_rrep _ _ _ Rw1) as (Fw1 & _ & Sw1 & Bw1).
      assert (Z1 : fm_modules (mr_failures r1) = 0).
      { apply mask_ext. intros i. rewrite Bw1, N.bits_0. reflexivity. }
      assert (S1 : soft_write sp k st true 0 (m4, mo, f4) w1 = (w2, Ok (0, [], failed_merge f4 (mr_failures r1)))).
      { unfold soft_write. rewrite (word_eq k true st Hk). erewrite cbind_ok by reflexivity. cbn [fst snd].
        erewrite cbind_ok by exact Ew1. rewrite Z1. reflexivity. }
      assert (Acc1 : acc m m4 (failed_merge f4 (mr_failures r1))).
      { destruct Hacc4 as (Ff & Mo' & Sub' & Bits). destruct (failed_merge_spec _ _ Ff Fw1) as (Fm & Em & _).
        split; [exact Fm|]. split; [exact Mo'|]. split; [exact Sub'|]. intros i.
        rewrite Em, m_merge_spec, Z1, N.bits_0, orb_false_r. apply Bits. }
      (* the write to all *)
      destruct (honest_write a Hok w2 m4 (soft_place k) [soft_word k false st] eq_refl Mo4) as (r2 & Ew2 & Mw2 & Rw2).
      set (w3 := next a w2 (HWrite m4 (soft_place k)) (Some [soft_word k false st])) in *.
      pose proof (acc_step _ _ _ _ _ Acc1 Rw2) as Acc2.
      assert (M5 : mr_modules r2 = m5).
      { rewrite Mw2. unfold m5. apply mask_ext. intros i. rewrite !good_mask_bit by exact Mo4.
        unfold vd. now rewrite Hv. }
      assert (S2 : soft_write sp k st false m4 (0, [], failed_merge f4 (mr_failures r1)) w2 =
                   (w3, Ok (m5, [], failed_merge (failed_merge f4 (mr_failures r1)) (mr_failures r2)))).
      { unfold soft_write. rewrite (word_eq k false st Hk). erewrite cbind_ok by reflexivity. cbn [fst snd].
        erewrite cbind_ok by exact Ew2. unfold remove_module_data, cret.
        assert (m_remove m4 (fm_modules (mr_failures r2)) = m5) as ->.
        { rewrite <- M5. apply mask_ext. intros i. rewrite m_remove_spec by exact Mo4.
          rewrite (rrep_failed _ _ _ i Rw2), (rrep_modules _ _ _ i Rw2).
          destruct (N.testbit m4 i); [|reflexivity]. cbn [andb]. destruct (told _ _ i); reflexivity. }
        unfold zip_data. destruct (to_indices m4); reflexivity. }
      exists w3. eexists. split; [|split].
      + erewrite cbind_ok; [|erewrite cbind_ok by exact S1; erewrite cbind_ok by exact S2; reflexivity].
        cbn [fst snd]. reflexivity.
      + rewrite <- M5. exact Acc2.
      + eapply grew_trans; [exact L1|].
        change [?x; ?y] with ([x] ++ [y]). eapply grew_trans; apply grew_next.
  Qed.

  Lemma passed_bit {P} m (f : N -> P + TransceiverError) i : mask_ok m = true ->
    N.testbit (passed m f) i = N.testbit m i && match f i with inl _ => true | inr _ => false end.
  Proof.
    intros Hm. unfold passed. rewrite port_mask_spec. apply eq_true_iff_eq.
    rewrite existsb_eqb_in, filter_In, in_to_indices_ok, andb_true_iff by exact Hm. reflexivity.
  Qed.

  Lemma is_off_state x : is_off x = true -> pm_state x = PowerOff.
  Proof. unfold is_off. destruct (pm_state x); congruence. Qed.

  Lemma set_power_on_correct w m st k : st <> PowerOff -> m < 2 ^ 64 -> supported_kind k = true ->
    all_kind k m mem -> all_on m v ->
    (forall i c, member i m -> control_says mem i = inl c -> c = UseLpModePin) ->
    let m1 := passed m (power_says (v (HStatus m) None) (control_says mem)) in
    let m2 := good_mask m1 (v (HStatus m1) None) in
    let m3 := good_mask m2 (v (lpmode_request st m2) None) in
    let m4 := good_mask m3 (fun i => mem i ident_read) in
    let m5 := good_mask m4 (v (HWrite m4 (soft_place k)) (Some [soft_word k false st])) in
    exists r ds, snd (set_power sp m st w) = Ok r /\ accounts m m5 r /\ only_reads ds /\
      deeds (set_power sp m st) w =
        DRequest (HStatus m) None :: ds ++
        DRequest (HStatus m1) None :: DRequest (lpmode_request st m2) None ::
        ident_request m3 ++ software_deeds k st m4.
  Proof.
    intros Hst Hm Hk Hall Hon Hctl m1 m2 m3 m4 m5. assert (Hm' := Hm). rewrite <- mask_ok_lt in Hm'.
    set (s0 := v (HStatus m) None) in *.
    assert (Es0 : forall i, hs_verdict a (w_sp w) (HStatus m) None i = s0 i) by (intros i; apply Hv).
    destruct (power_rrep a Hok w m mem Hm' (steady_reads _)) as (rp & w1 & C & ds & Ep & _ & Lp & Od & Rp & Cs & _).
    { intros i id Hi _ Hid. rewrite (Hall i id) by (auto; now apply member_testbit). exact Hk. }
    assert (Rd : forall i, N.testbit m i = true -> readable (hs_verdict a (w_sp w) (HStatus m) None) i = is_good (s0 i)).
    { intros i Hi. unfold readable. rewrite Es0. destruct (s0 i) as [d|] eqn:E; [|reflexivity].
      destruct (Hon m i d (proj2 (member_testbit _ _) Hi) E) as [-> ->]. reflexivity. }
    assert (Gp : forall i, rget rp i = if N.testbit m i then match power_says s0 (control_says mem) i with inl x => Some x | _ => None end else None).
    { intros i. destruct Rp as [_ Rp]. destruct (Rp i) as [G _]. rewrite G. destruct (N.testbit m i) eqn:Em; [|reflexivity].
      unfold power_says. rewrite Es0. pose proof (Rd i Em) as Rdi. destruct (s0 i) as [d|] eqn:E; [|reflexivity].
      destruct (negb _ || _); [reflexivity|].
      pose proof (Cs i) as Ci. specialize (fun c => Ci c Em Rdi).
      destruct (C i) as [c|e].
      - rewrite (proj1 (Ci c) eq_refl). reflexivity.
      - destruct (control_says mem i) as [c|e']; [|reflexivity]. specialize (proj2 (Ci c) eq_refl). discriminate. }
    assert (M1 : mr_modules rp = m1).
    { pose proof Rp as [[Ap _] _]. apply mask_ext. intros i. unfold m1. rewrite passed_bit by exact Hm'.
      rewrite (testbit_get _ _ i Ap). fold (rget rp i). rewrite Gp. destruct (N.testbit m i); [|reflexivity].
      destruct (power_says s0 (control_says mem) i); reflexivity. }
    (* the modes: never off, never overridden *)
    assert (Modes : forall i x, rget rp i = Some x -> pm_state x <> PowerOff /\ overridden x = false).
    { intros i x Hx. rewrite Gp in Hx. destruct (N.testbit m i) eqn:Em; [|discriminate]. unfold power_says in Hx.
      destruct (s0 i) as [d|] eqn:E; [|discriminate].
      destruct (Hon m i d (proj2 (member_testbit _ _) Em) E) as [H1 H2]. rewrite H1, H2 in Hx. cbn [negb orb] in Hx.
      destruct (control_says mem i) as [c|] eqn:Ec; [|discriminate].
      rewrite (Hctl i c (proj2 (member_testbit _ _) Em) Ec) in Hx. injection Hx as <-. cbn. split; [|reflexivity].
      destruct (lpmode_pin _); discriminate. }
    pose proof (acc_rrep _ _ _ Rp) as Acc1. rewrite M1 in Acc1. pose proof Acc1 as (_ & Mo1 & Sub1 & _).
    pose proof Rp as [[Ap _] _]. rewrite M1 in Ap.
    assert (NoOff : existsb is_off (mr_data rp) = false).
    { destruct (existsb is_off (mr_data rp)) eqn:X; [|reflexivity]. apply existsb_exists in X.
      destruct X as (x & Hx & Ho). apply in_data_rget in Hx; [|apply Rp]. destruct Hx as [i Hx].
      apply Modes in Hx. apply is_off_state in Ho. tauto. }
    (* second status *)
    destruct (honest_status a Hok w1 m1 Mo1) as (rs & Es & Ms & Rs). set (w2 := next a w1 (HStatus m1) None) in *.
    assert (M2 : mr_modules rs = m2).
    { rewrite Ms. apply mask_ext. intros i. unfold m2. rewrite !good_mask_bit by exact Mo1. unfold vd. now rewrite Hv. }
    pose proof (acc_step _ _ _ _ _ Acc1 Rs) as Acc2. rewrite M2 in Acc2. pose proof Acc2 as (_ & Mo2 & Sub2 & _).
    set (f2 := failed_merge (mr_failures rp) (mr_failures rs)) in *.
    pose proof Rs as [[As _] RS]. rewrite M2 in As.
    assert (St2 : forall i x, get m2 (mr_data rs) i = Some x -> supplied x = true /\ held_in_reset x = false).
    { intros i x Hx. destruct (RS i) as [G _]. unfold rget in G. rewrite M2 in G. rewrite G in Hx.
      destruct (N.testbit m1 i) eqn:Em; [|discriminate]. unfold told, vd in Hx. rewrite Hv in Hx.
      destruct (v (HStatus m1) None i) as [d|] eqn:E; [|discriminate]. injection Hx as <-.
      apply (Hon m1 i d); [|exact E]. apply member_testbit. now apply Sub1. }
    (* lpmode *)
    assert (Hlp : exists rl w3, match st with PowerLow => assert_lpmode sp m2 | _ => deassert_lpmode sp m2 end w2 = (w3, Ok rl) /\
       mr_modules rl = m3 /\ acc m m3 (failed_merge f2 (mr_failures rl)) /\ grew w2 w3 [DRequest (lpmode_request st m2) None] /\
       (forall i, N.testbit m3 i = true -> N.testbit m2 i = true)).
    { destruct (honest_ack a Hok w2 (lpmode_request st m2)) as (rl & El & Ml & Rl);
        [destruct st; reflexivity|destruct st; reflexivity|destruct st; exact Mo2|].
      replace (request_modules (lpmode_request st m2)) with m2 in * by (destruct st; reflexivity).
      assert (M3 : mr_modules rl = m3).
      { rewrite Ml. apply mask_ext. intros i. unfold m3. rewrite !good_mask_bit by exact Mo2. unfold vd. now rewrite Hv. }
      exists rl, (next a w2 (lpmode_request st m2) None). split; [destruct st; [congruence|exact El|exact El]|].
      split; [exact M3|]. split; [rewrite <- M3; exact (acc_step _ _ _ _ _ Acc2 Rl)|]. split; [apply grew_next|].
      intros i. unfold m3. rewrite good_mask_bit by exact Mo2. now destruct (N.testbit m2 i). }
    destruct Hlp as (rl & w3 & El & M3 & Acc3 & Ll & Sub23).
    set (f3 := failed_merge f2 (mr_failures rl)) in *.
    destruct (keep_module_data m1 (mr_data rp) m3) as [kk modes] eqn:EK.
    destruct (keep_eq _ _ _ _ _ Ap EK) as [Ak Gk].
    assert (kk = m3) as ->.
    { apply mask_ext. intros i. rewrite (testbit_get _ _ i Ak), Gk. specialize (Sub23 i). pose proof (testbit_get _ _ i Ap) as T. destruct (N.testbit m3 i); [|reflexivity].
      specialize (Sub23 eq_refl). unfold m2 in Sub23. rewrite good_mask_bit in Sub23 by exact Mo1.
      apply andb_true_iff in Sub23. destruct Sub23 as [S _]. rewrite T in S. destruct (get m1 (mr_data rp) i); [reflexivity|discriminate]. }
    assert (Ov : forall i x, get m3 modes i = Some x -> overridden x = false).
    { intros i x Hx. rewrite Gk in Hx. destruct (N.testbit m3 i); [|discriminate].
      apply (Modes i). unfold rget. now rewrite M1. }
    destruct (software_tail w3 k st m m3 modes f3 Hst Hk Hall Acc3 Ak Ov) as (w4 & f4 & E4 & Acc4 & L4).
    assert (E : set_power sp m st w = (w4, Ok (ack_new m5 f4))).
    { assert (set_power sp m st w = set_power_on sp m st w) as -> by (destruct st; [congruence|reflexivity|reflexivity]).
      unfold set_power_on. erewrite cbind_ok by exact Ep. rewrite NoOff, andb_false_r. rewrite M1.
      erewrite cbind_ok by exact Es. fold f2. rewrite M2.
      rewrite (filter_none m2 (mr_data rs) _ As).
      2:{ intros i x Hx. destruct (St2 i x Hx) as [H1 H2]. rewrite contains_supplied, contains_reset, H1, H2. reflexivity. }
      rewrite (filter_none m2 (mr_data rs) _ As).
      2:{ intros i x Hx. destruct (St2 i x Hx) as [H1 H2]. rewrite contains_reset. exact H2. }
      change (m_count (m_remove 0 0)) with 0%nat. change (m_count 0) with 0%nat. cbn [Nat.ltb Nat.leb].
      erewrite cbind_ok by reflexivity. erewrite cbind_ok by reflexivity. cbn [fst snd].
      erewrite cbind_ok by exact El. fold f3. erewrite cbind_ok by reflexivity. cbn [fst snd]. rewrite M3, EK. exact E4. }
    exists (ack_new m5 f4), ds. rewrite E. split; [reflexivity|]. split; [now apply acc_accounts|]. split; [exact Od|].
    eapply deeds_grew; [exact E|].
    change (DRequest (HStatus m) None :: ds ++ ?t) with ((DRequest (HStatus m) None :: ds) ++ t).
    eapply grew_trans; [exact Lp|].
    change (DRequest (HStatus m1) None :: ?t) with ([DRequest (HStatus m1) None] ++ t).
    eapply grew_trans; [apply grew_next|].
    change (DRequest (lpmode_request st m2) None :: ?t) with ([DRequest (lpmode_request st m2) None] ++ t).
    eapply grew_trans; [exact Ll|exact L4].
  Qed.

  Lemma pin_step w q M m mk f : request_unit q = 0%nat -> (forall x y, response_to q x y = SAck x y) ->
    request_modules q = M -> mask_ok M = true -> (forall i, N.testbit M i = true -> v q None i = inl []) ->
    acc m mk f ->
    exists r, no_payload_request sp q w = (next a w q None, Ok r) /\ mr_modules r = M /\
      acc m mk (failed_merge f (mr_failures r)).
  Proof.
    intros Hu Hr HM Mo Hq (Ff & Mk & Sub & Bits). rewrite <- HM in Mo, Hq. destruct (honest_ack a Hok w q Hu Hr Mo) as (r & E & Er & R).
    exists r. split; [exact E|]. split.
    - rewrite Er, <- HM. apply mask_ext. intros i. rewrite good_mask_bit by exact Mo. unfold vd. rewrite Hv.
      specialize (Hq i). destruct (N.testbit (request_modules q) i); [|reflexivity]. now rewrite Hq.
    - pose proof R as [[_ Fr] _]. destruct (failed_merge_spec _ _ Ff Fr) as (Fm & Em & _).
      split; [exact Fm|]. split; [exact Mk|]. split; [exact Sub|]. intros i. rewrite Em, m_merge_spec, Bits.
      rewrite (rrep_failed _ _ _ i R). unfold told, vd. rewrite Hv. specialize (Hq i).
      destruct (N.testbit (request_modules q) i); [|apply orb_false_r]. rewrite Hq by reflexivity. apply orb_false_r.
  Qed.

  Lemma ltb_count m : mask_ok m = true -> Nat.ltb 0 (m_count m) = negb (m =? 0).
  Proof.
    intros Hm. pose proof (count0 m Hm) as C. destruct (N.eqb_spec m 0) as [->|Hz]; [reflexivity|].
    apply Nat.ltb_lt. cbn [negb]. destruct (m_count m); [|lia]. destruct Hz. now apply C.
  Qed.

  Lemma set_power_raise_correct w m k : m < 2 ^ 64 -> supported_kind k = true ->
    all_kind k m mem -> all_off m v -> pins_obey m v ->
    let m1 := good_mask m (v (HStatus m) None) in
    let m2 := good_mask m1 (v (HStatus m1) None) in
    let m4 := good_mask m2 (fun i => mem i ident_read) in
    let m5 := good_mask m4 (v (HWrite m4 (soft_place k)) (Some [soft_word k false PowerLow])) in
    exists r, snd (set_power sp m PowerLow w) = Ok r /\ accounts m m5 r /\
      deeds (set_power sp m PowerLow) w =
        DRequest (HStatus m) None :: DRequest (HStatus m1) None ::
        raise_deeds m2 (reset_ports m2 (v (HStatus m1) None)) ++
        ident_request m2 ++ software_deeds k PowerLow m4.
  Proof.
    intros Hm Hk Hall Hoff Hpin m1 m2 m4 m5. assert (Hm' := Hm). rewrite <- mask_ok_lt in Hm'.
    set (s0 := v (HStatus m) None) in *.
    destruct (honest_status a Hok w m Hm') as (r0 & E0 & Mr0 & R0). set (w1 := next a w (HStatus m) None) in *.
    assert (M1 : mr_modules r0 = m1).
    { rewrite Mr0. apply mask_ext. intros i. unfold m1. rewrite !good_mask_bit by exact Hm'. unfold vd. now rewrite Hv. }
    pose proof (acc_rrep _ _ _ R0) as Acc1. rewrite M1 in Acc1. pose proof Acc1 as (Fa1 & Mo1 & Sub1 & Bits1).
    pose proof R0 as [[A0 _] RR0]. rewrite M1 in A0.
    assert (St0 : forall i x, get m1 (mr_data r0) i = Some x -> supplied x = false \/ held_in_reset x = true).
    { intros i x Hx. destruct (RR0 i) as [G _]. unfold rget in G. rewrite M1 in G. rewrite G in Hx.
      destruct (N.testbit m i) eqn:Em; [|discriminate]. unfold told, vd in Hx. rewrite Hv in Hx.
      destruct (v (HStatus m) None i) as [d|] eqn:E; [|discriminate]. injection Hx as <-.
      apply (Hoff m i d); [|exact E]. now apply member_testbit. }
    assert (Ep : exists rp, power sp m w = (w1, Ok rp) /\ mr_modules rp = m1 /\ aligned m1 (mr_data rp) /\
       (forall i x, get m1 (mr_data rp) i = Some x -> x = power_mode_default) /\ acc m m1 (mr_failures rp)).
    { unfold power. erewrite cbind_ok by exact E0. rewrite M1.
      destruct (filter_module_data m1 (mr_data r0) _) as [pw pws] eqn:EF.
      destruct (filter_eq _ _ _ _ _ Mo1 EF) as [Apw Gpw].
      destruct (filter_module_data pw pws _) as [rst rsts] eqn:EF2.
      destruct (filter_eq _ _ _ _ _ (proj1 Apw) EF2) as [Ars Grs].
      destruct (remove_module_data pw pws rst) as [rd rds] eqn:ER.
      destruct (remove_eq _ _ _ _ _ Apw ER) as [Ard Grd].
      assert (rd = 0) as ->.
      { apply mask_ext. intros i. rewrite N.bits_0, (testbit_get _ _ i Ard), Grd.
        rewrite (testbit_get _ _ i Ars), Grs, Gpw. destruct (get m1 (mr_data r0) i) as [x|] eqn:X; [|reflexivity].
        rewrite contains_supplied. destruct (supplied x) eqn:Sx; [|reflexivity]. rewrite contains_reset.
        destruct (St0 i x X) as [X1 | ->]; [congruence|reflexivity]. }
      change (Nat.eqb (m_count 0) 0) with true. cbv beta iota.
      erewrite cbind_ok by reflexivity. unfold result_default. cbn [mr_modules mr_data mr_failures]. change m_empty with 0.
      set (off := m_merge (m_remove m1 pw) rst).
      assert (Boff : forall i, N.testbit off i = N.testbit m1 i).
      { intros i. unfold off. rewrite m_merge_spec, m_remove_spec by exact Mo1.
        rewrite (testbit_get _ _ i A0), (testbit_get _ _ i Apw), (testbit_get _ _ i Ars), Grs, Gpw.
        destruct (get m1 (mr_data r0) i) as [x|] eqn:X; [|reflexivity].
        rewrite contains_supplied. destruct (supplied x) eqn:Sx; [|reflexivity]. rewrite contains_reset.
        destruct (St0 i x X) as [X1 | ->]; [congruence|reflexivity]. }
      assert (Eo : off = m1) by (apply mask_ext; exact Boff). rewrite Eo.
      assert (Em : merge_module_data m1 (repeat power_mode_default 64) 0 (@nil PowerMode) =
                   merge_module_data m1 (repeat power_mode_default (m_count m1)) 0 []).
      { unfold merge_module_data. now rewrite (zip_repeat64 m1). }
      rewrite Em. clear Em. assert (An : aligned 0 (@nil PowerMode)) by (split; reflexivity).
      destruct (merge_module_data m1 _ 0 []) as [am ad] eqn:EM.
      destruct (merge_eq _ _ _ _ _ _ (aligned_repeat m1 power_mode_default Mo1) An EM) as [Aa Ga].
      assert (Ga' : forall i, get am ad i = if N.testbit m1 i then Some power_mode_default else None).
      { intros i. rewrite Ga, get_repeat by exact Mo1. reflexivity. }
      assert (am = m1) as ->.
      { apply mask_ext. intros i. rewrite (testbit_get _ _ i Aa), Ga'. now destruct (N.testbit m1 i). }
      eexists. split; [reflexivity|]. cbn [mr_modules mr_data mr_failures]. split; [reflexivity|]. split; [exact Aa|].
      split; [intros i x Hx; rewrite Ga' in Hx; destruct (N.testbit m1 i); congruence|].
      assert (Fn : faligned (@failed_success TransceiverError)) by (split; reflexivity).
      destruct (failed_merge_spec _ _ Fn Fa1) as (Fm & Emm & _).
      split; [exact Fm|]. split; [exact Mo1|]. split; [exact Sub1|]. intros i. rewrite Emm, m_merge_spec, Bits1. reflexivity. }
    destruct Ep as (rp & Ep & Mp & Ap & Dp & AccP).
    (* second status *)
    destruct (honest_status a Hok w1 m1 Mo1) as (rs & Es & Ms & Rs). set (w2 := next a w1 (HStatus m1) None) in *.
    assert (M2 : mr_modules rs = m2).
    { rewrite Ms. apply mask_ext. intros i. unfold m2. rewrite !good_mask_bit by exact Mo1. unfold vd. now rewrite Hv. }
    pose proof (acc_step _ _ _ _ _ AccP Rs) as Acc2. rewrite M2 in Acc2. pose proof Acc2 as (_ & Mo2 & Sub2 & _).
    set (f2 := failed_merge (mr_failures rp) (mr_failures rs)) in *.
    pose proof Rs as [[As _] RS]. rewrite M2 in As.
    assert (GS : forall i, get m2 (mr_data rs) i = if N.testbit m1 i then match v (HStatus m1) None i with inl d => Some (hd 0 d) | _ => None end else None).
    { intros i. destruct (RS i) as [G _]. unfold rget in G. rewrite M2 in G. rewrite G.
      destruct (N.testbit m1 i) eqn:Em; [|reflexivity]. unfold told, vd. rewrite Hv. now destruct (v (HStatus m1) None i). }
    assert (St2 : forall i x, get m2 (mr_data rs) i = Some x -> supplied x = false \/ held_in_reset x = true).
    { intros i x Hx. rewrite GS in Hx. destruct (N.testbit m1 i) eqn:Em; [|discriminate].
      destruct (v (HStatus m1) None i) as [d|] eqn:E; [|discriminate]. injection Hx as <-.
      apply (Hoff m1 i d); [|exact E]. apply member_testbit. now apply Sub1. }
    set (rp2 := reset_ports m2 (v (HStatus m1) None)).
    assert (Brp : forall i, N.testbit rp2 i = N.testbit m2 i && match v (HStatus m1) None i with inl d => held_in_reset (hd 0 d) | inr _ => false end).
    { intros i. unfold rp2, reset_ports. rewrite port_mask_spec. apply eq_true_iff_eq.
      rewrite existsb_eqb_in, filter_In, in_to_indices_ok, andb_true_iff by exact Mo2. reflexivity. }
    assert (NR : fst (filter_module_data m2 (mr_data rs) (fun _ s => st_contains s ST_RESET)) = rp2).
    { destruct (filter_module_data m2 (mr_data rs) _) as [x y] eqn:EF. destruct (filter_eq _ _ _ _ _ Mo2 EF) as [A' G'].
      cbn [fst]. apply mask_ext. intros i. rewrite Brp, (testbit_get _ _ i A'), (testbit_get _ _ i As), G', GS.
      destruct (N.testbit m1 i); [|reflexivity]. destruct (v (HStatus m1) None i) as [d|]; [|reflexivity].
      rewrite contains_reset. now destruct (held_in_reset (hd 0 d)). }
    assert (NE : fst (filter_module_data m2 (mr_data rs) (fun _ s => negb (st_contains s (N.lor ST_POWER_GOOD ST_ENABLED))
                    || st_contains s ST_RESET)) = m2).
    { apply filter_whole; [exact As|]. intros i x Hx. rewrite contains_supplied, contains_reset.
      destruct (St2 i x Hx) as [-> | ->]; [reflexivity|apply orb_true_r]. }
    set (mb := m_remove m2 rp2).
    assert (Bmb : forall i, N.testbit mb i = true -> N.testbit m2 i = true).
    { intros i. unfold mb. rewrite m_remove_spec by exact Mo2. now destruct (N.testbit m2 i). }
    assert (Mob : mask_ok mb = true).
    { apply mask_ok_testbit. intros i Hi. apply (proj1 (mask_ok_testbit m2) Mo2). auto. }
    assert (P2 : forall i, N.testbit m2 i = true -> member i m) by (intros i Hi; apply member_testbit; auto).
    (* reset asserted where it is not *)
    assert (S1 : exists w3 f3 mx, (if Nat.ltb 0 (m_count mb)
              then cbind (assert_reset sp mb) (fun a0 => cbind (sleep T_RESET_INIT) (fun _ =>
                   cret (Ok (mr_modules a0, failed_merge f2 (mr_failures a0)))))
              else cret (Ok (m2, f2))) w2 = (w3, Ok (mx, f3)) /\ acc m m2 f3 /\ (m2 = 0 -> mx = m2) /\
              grew w2 w3 (if mb =? 0 then [] else [DRequest (HAssertReset mb) None; DSleep T_RESET_INIT])).
    { rewrite ltb_count by exact Mob. destruct (N.eqb_spec mb 0) as [Hz|Hz]; cbn [negb].
      - exists w2, f2, m2. split; [reflexivity|]. split; [exact Acc2|]. split; [auto|apply grew_refl].
      - destruct (pin_step w2 (HAssertReset mb) mb m m2 f2 eq_refl (fun _ _ => eq_refl) eq_refl Mob) as (ra & Ea & Ma & Acca).
        { intros i Hi. apply (Hpin mb i). auto. }
        { exact Acc2. }
        eexists _, _, mb. unfold assert_reset. erewrite cbind_ok by exact Ea. erewrite cbind_ok by reflexivity. rewrite Ma.
        split; [reflexivity|]. split; [exact Acca|]. split.
        + intros ->. exfalso. apply Hz. apply mask_ext. intros i. rewrite N.bits_0. specialize (Bmb i).
          rewrite N.bits_0 in Bmb. destruct (N.testbit mb i); [now rewrite Bmb|reflexivity].
        + change [DRequest (HAssertReset mb) None; DSleep T_RESET_INIT] with ([DRequest (HAssertReset mb) None] ++ [DSleep T_RESET_INIT]).
          eapply grew_trans; [apply grew_next|apply grew_sleep]. }
    destruct S1 as (w3 & f3 & mx & E3 & Acc3 & Hmx & L3).
    (* power *)
    assert (S2 : exists w4 f4, (if Nat.ltb 0 (m_count m2)
              then cbind (enable_power sp m2) (fun a0 =>
                   cret (Ok (mr_modules a0, failed_merge f3 (mr_failures a0))))
              else cret (Ok (mx, f3))) w3 = (w4, Ok (m2, f4)) /\ acc m m2 f4 /\
              grew w3 w4 (if m2 =? 0 then [] else [DRequest (HEnablePower m2) None])).
    { rewrite ltb_count by exact Mo2. destruct (N.eqb_spec m2 0) as [Hz|Hz]; cbn [negb].
      - exists w3, f3. split; [now rewrite (Hmx Hz)|]. split; [exact Acc3|apply grew_refl].
      - destruct (pin_step w3 (HEnablePower m2) m2 m m2 f3 eq_refl (fun _ _ => eq_refl) eq_refl Mo2) as (ra & Ea & Ma & Acca).
        { intros i Hi. apply (Hpin m2 i). auto. }
        { exact Acc3. }
        eexists _, _. unfold enable_power. erewrite cbind_ok by exact Ea. rewrite Ma.
        split; [reflexivity|]. split; [exact Acca|apply grew_next]. }
    destruct S2 as (w4 & f4 & E4 & Acc4 & L4).
    (* low power *)
    destruct (pin_step w4 (HAssertLpMode m2) m2 m m2 f4 eq_refl (fun _ _ => eq_refl) eq_refl Mo2) as (rl & El & Ml & Accl).
    { intros i Hi. apply (Hpin m2 i). auto. }
    { exact Acc4. }
    set (w5 := next a w4 (HAssertLpMode m2) None) in *. set (f5 := failed_merge f4 (mr_failures rl)) in *.
    (* out of reset *)
    assert (S4 : exists w6 f6, (if Nat.ltb 0 (m_count m2)
              then cbind (deassert_reset sp m2) (fun a0 => cbind (sleep T_RESET) (fun _ =>
                   cret (Ok (mr_modules a0, failed_merge f5 (mr_failures a0)))))
              else cret (Ok (mr_modules rl, f5))) w5 = (w6, Ok (m2, f6)) /\ acc m m2 f6 /\
              grew w5 w6 (if m2 =? 0 then [] else [DRequest (HDeassertReset m2) None; DSleep T_RESET])).
    { rewrite ltb_count by exact Mo2. destruct (N.eqb_spec m2 0) as [Hz|Hz]; cbn [negb].
      - exists w5, f5. split; [now rewrite Ml|]. split; [exact Accl|apply grew_refl].
      - destruct (pin_step w5 (HDeassertReset m2) m2 m m2 f5 eq_refl (fun _ _ => eq_refl) eq_refl Mo2) as (ra & Ea & Ma & Acca).
        { intros i Hi. apply (Hpin m2 i). auto. }
        { exact Accl. }
        eexists _, _. unfold deassert_reset. erewrite cbind_ok by exact Ea. erewrite cbind_ok by reflexivity. rewrite Ma.
        split; [reflexivity|]. split; [exact Acca|].
        change [DRequest (HDeassertReset m2) None; DSleep T_RESET] with ([DRequest (HDeassertReset m2) None] ++ [DSleep T_RESET]).
        eapply grew_trans; [apply grew_next|apply grew_sleep]. }
    destruct S4 as (w6 & f6 & E6 & Acc6 & L6).
    destruct (keep_module_data m1 (mr_data rp) m2) as [kk modes] eqn:EK.
    destruct (keep_eq _ _ _ _ _ Ap EK) as [Ak Gk].
    assert (kk = m2) as ->.
    { apply mask_ext. intros i. rewrite (testbit_get _ _ i Ak), Gk. pose proof (testbit_get _ _ i Ap) as T.
      destruct (N.testbit m2 i) eqn:E2; [|reflexivity]. unfold m2 in E2. rewrite good_mask_bit in E2 by exact Mo1.
      apply andb_true_iff in E2. destruct E2 as [S _]. rewrite T in S. destruct (get m1 (mr_data rp) i); [reflexivity|discriminate]. }
    assert (Ov : forall i x, get m2 modes i = Some x -> overridden x = false).
    { intros i x Hx. rewrite Gk in Hx. destruct (N.testbit m2 i); [|discriminate]. now rewrite (Dp i x Hx). }
    destruct (software_tail w6 k PowerLow m m2 modes f6 ltac:(discriminate) Hk Hall Acc6 Ak Ov) as (w7 & f7 & E7 & Acc7 & L7).
    fold m4 in E7, Acc7, L7. fold m5 in E7, Acc7.
    assert (E : set_power sp m PowerLow w = (w7, Ok (ack_new m5 f7))).
    { change (set_power sp m PowerLow w) with (set_power_on sp m PowerLow w). unfold set_power_on.
      erewrite cbind_ok by exact Ep. cbn [andb]. rewrite Mp. erewrite cbind_ok by exact Es. fold f2. rewrite M2.
      destruct (filter_module_data m2 (mr_data rs) (fun _ s => negb _ || _)) as [ne ned]. cbn [fst] in NE. subst ne.
      destruct (filter_module_data m2 (mr_data rs) (fun _ s => st_contains s ST_RESET)) as [nr nrd]. cbn [fst] in NR. subst nr.
      cbv zeta. fold mb. erewrite cbind_ok by exact E3. cbn [fst snd].
      erewrite cbind_ok by exact E4. cbn [fst snd]. erewrite cbind_ok by exact El. fold f5.
      erewrite cbind_ok by exact E6. cbn [fst snd]. rewrite EK. exact E7. }
    exists (ack_new m5 f7). rewrite E. split; [reflexivity|]. split; [now apply acc_accounts|].
    eapply deeds_grew; [exact E|].
    change (DRequest (HStatus m) None :: ?t) with ([DRequest (HStatus m) None] ++ t).
    eapply grew_trans; [apply grew_next|].
    change (DRequest (HStatus m1) None :: ?t) with ([DRequest (HStatus m1) None] ++ t).
    eapply grew_trans; [apply grew_next|]. unfold raise_deeds. fold mb.
    rewrite <- !app_assoc. eapply grew_trans; [exact L3|]. eapply grew_trans; [exact L4|].
    eapply grew_trans; [apply grew_next|]. eapply grew_trans; [exact L6|exact L7].
  Qed.
End SetPower.
