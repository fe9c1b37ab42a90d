(** Changing the power state of a single module (C98). *)
From Verif Require Export CoverProofs.
From Verif Require Import Tac Spec ModuleIdProofs ModuleIdProps ResultsProofs ControllerProofs ControllerProofs3
  ControllerProofs4 ControllerProofs5 ControllerProofs6 ControllerProofs7 ScopeProofs ScopeProofs2.

Definition only (i m : N) : Prop := forall j, N.testbit m j = true -> j = i.
Lemma only_sub i x m : sub x m -> only i m -> only i x.
Proof. intros S O j H. apply O, S, H. Qed.
Lemma only_get {A} i m (d : list A) x : aligned m d -> only i m -> get m d i = Some x -> zip_data m d = [(i, x)].
Proof.
  intros Al O G. assert (I : In (i, x) (zip_data m d)) by (now apply in_zip_get).
  assert (U : forall p, In p (zip_data m d) -> p = (i, x)).
  { intros [j y] H. pose proof H as H'. apply in_zip_get in H. assert (j = i); [|subst j; congruence].
    apply O. now rewrite (testbit_get _ _ j Al), H. }
  pose proof (zip_nodup m d) as ND. destruct (zip_data m d) as [|p [|q l]]; [destruct I|f_equal; apply U; now left|].
  assert (p = (i, x)) by (apply U; now left). assert (q = (i, x)) by (apply U; right; now left). subst. inversion ND as [|? ? K]. destruct K. now left.
Qed.

Section Single.
  Context {St : Type} (a : honest St) (view : St -> N -> slot) (Hok : honest_ok a) (Hd : drives a view).
  Implicit Type w : world St.
  Local Notation sp := (honest_sp a).

  Lemma worded_soft st x : st <> PowerOff -> worded (slot_kind x) true st x ->
    negb (supplied (sl_status x)) || held_in_reset (sl_status x) = false -> slot_power x = Some st.
  Proof.
    intros Hst [Hk Hc] Hon. unfold slot_power, slot_mode. rewrite Hon. unfold slot_control. unfold supported_kind in Hk.
    unfold soft_place, soft_word in Hc. destruct (sff_kind (slot_kind x)); cbn [wr_offset] in Hc.
    - rewrite (Hc (PageSff SffLower)). destruct st; try congruence; reflexivity.
    - cbn [orb] in Hk. rewrite Hk, (Hc (PageCmis CmisLower)). destruct st; try congruence; reflexivity.
  Qed.
  Lemma soft_write_apart id st ov x s w w' s' i : mask_ok x = true -> N.testbit x i = false -> soft_write sp id st ov x s w = (w', Ok s') ->
    view (w_sp w') i = view (w_sp w) i.
  Proof.
    intros Hx Hi E. destruct s as [[su mo] fa]. cbn [soft_write] in E.
    apply cbind_inv in E. destruct E as (w1 & [wr b] & E1 & E). unfold cret in E1. injection E1 as <- Ew.
    destruct (word_shape _ _ _ _ _ Ew) as (Hwr & Hb & Hk & H256).
    apply cbind_inv in E. destruct E as (w1 & r & E1 & E). cbn [fst snd] in E1.
    destruct (honest_write a Hok w x wr [b]) as (r' & E' & _ & R); [subst wr; reflexivity|exact Hx|].
    rewrite E1 in E'. injection E' as -> ->. destruct (remove_module_data _ _ _) as [x1 x2]. injection E as <- _. rewrite next_sp. apply (dr_apart _ _ Hd). rewrite member_testbit. cbn. congruence.
  Qed.
  Lemma soft_write_failures id st ov x s w w' s' : mask_ok x = true -> soft_write sp id st ov x s w = (w', Ok s') -> faligned (snd s) -> faligned (snd s').
  Proof.
    intros Hx E F. destruct s as [[su mo] fa]. cbn [soft_write] in E.
    apply cbind_inv in E. destruct E as (w1 & [wr b] & E1 & E). unfold cret in E1. injection E1 as <- Ew.
    destruct (word_shape _ _ _ _ _ Ew) as (Hwr & Hb & Hk & H256).
    apply cbind_inv in E. destruct E as (w1 & r & E1 & E). cbn [fst snd] in E1.
    destruct (honest_write a Hok w x wr [b]) as (r' & E' & _ & R); [subst wr; reflexivity|exact Hx|].
    rewrite E1 in E'. injection E' as -> ->. destruct (remove_module_data _ _ _) as [x1 x2]. injection E as _ <-. cbn [snd] in *.
    apply failed_merge_ok; [exact F|apply R].
  Qed.
  Lemma soft_groups_failures st gs : Forall (fun g : Identifier * ModuleId => mask_ok (snd g) = true) gs -> forall s w w' s',
    mask_ok (fst (fst s)) = true -> soft_groups sp st gs s w = (w', Ok s') -> faligned (snd s) -> faligned (snd s').
  Proof.
    induction 1 as [|[id mk] gs Hmk Hgs IH]; intros s w w' s' Hs E F; [now injection E as _ <-|].
    cbn [soft_groups] in E. destruct s as [[su mo] fa]. cbn in Hmk, Hs.
    destruct (filter_module_data su mo _) as [wo l1] eqn:E1. destruct (filter_module_data mk mo _) as [wo2 l2] eqn:E2.
    assert (H1 : mask_ok wo = true) by exact (proj1 (proj1 (filter_eq _ _ _ _ _ Hs E1))).
    assert (H2 : mask_ok wo2 = true) by exact (proj1 (proj1 (filter_eq _ _ _ _ _ Hmk E2))).
    apply cbind_inv in E. destruct E as (w1 & s1 & A1 & E). apply cbind_inv in E. destruct E as (w2 & s2 & A2 & E).
    eapply IH; [|exact E|].
    - apply live_soft_write with (view := view) in A2; auto. destruct A2 as (_ & M2 & _). eapply sub_ok; eauto.
    - eapply soft_write_failures; [exact H2|exact A2|]. eapply soft_write_failures; [exact H1|exact A1|exact F].
  Qed.
  Lemma software_eq pr st : st <> PowerOff -> set_software_power_state sp pr st =
      cbind (identifier sp (mr_modules pr)) (fun ident =>
      cbind (cret (split_modules_by_identifier (mr_modules ident) (mr_data ident))) (fun groups =>
        let (success, modes) := keep_module_data (mr_modules pr) (mr_data pr) (mr_modules ident) in
        let failures := failed_merge (mr_failures pr) (mr_failures ident) in
        cbind (soft_groups sp st groups (success, modes, failures)) (fun s =>
        cret (Ok (ack_new (fst (fst s)) (snd s)))))).
  Proof. now destruct st. Qed.
  Lemma software_failures pr st w w' r : mask_ok (mr_modules pr) = true -> st <> PowerOff -> faligned (mr_failures pr) ->
    set_software_power_state sp pr st w = (w', Ok r) -> faligned (mr_failures r).
  Proof.
    intros Hm Hst F E. rewrite software_eq in E by exact Hst. apply cbind_inv in E. destruct E as (w1 & ri & E1 & E).
    destruct (live_identifier a view Hok Hd w (mr_modules pr) (fun i => view (w_sp w) i) (fun i => eq_refl) Hm)
      as (ri' & w1' & f & E1' & R & T & V). rewrite E1 in E1'. injection E1' as <- <-.
    apply cbind_inv in E. destruct E as (w1' & gs & Eg & E). unfold cret in Eg. injection Eg as <- Eg.
    destruct (split_groups _ _ (proj1 (proj1 R))) as (gs' & Eg' & Hg). rewrite Eg in Eg'. injection Eg' as <-.
    unfold keep_module_data, remove_module_data in E. set (mo := map snd _) in E.
    apply cbind_inv in E. destruct E as (w2 & s & E2 & E). unfold cret in E. injection E as _ <-. cbn [ack_new mr_failures].
    eapply soft_groups_failures; [eapply groups_masks; [exact (proj1 (proj1 R))|exact Hg]| |exact E2|].
    - cbn [fst]. now apply mask_ok_remove.
    - cbn [snd]. apply failed_merge_ok; [exact F|apply R].
  Qed.
  (** One module, with the mode [x] known before. *)
  Lemma software_one pr st w w' r i x : aligned (mr_modules pr) (mr_data pr) -> st <> PowerOff -> only i (mr_modules pr) -> rget pr i = Some x ->
    set_software_power_state sp pr st w = (w', Ok r) -> N.testbit (fm_modules (mr_failures r)) i = false ->
    sl_status (view (w_sp w') i) = sl_status (view (w_sp w) i) /\ worded (slot_kind (view (w_sp w') i)) (overridden x) st (view (w_sp w') i).
  Proof.
    intros Al Hst On Gx E Hi. rewrite software_eq in E by exact Hst. apply cbind_inv in E. destruct E as (w1 & ri & E1 & E).
    destruct (live_identifier a view Hok Hd w (mr_modules pr) (fun i => view (w_sp w) i) (fun i => eq_refl) (proj1 Al))
      as (ri' & w1' & f & E1' & R & T & V). rewrite E1 in E1'. injection E1' as <- <-.
    apply cbind_inv in E. destruct E as (w1' & gs & Eg & E). unfold cret in Eg. injection Eg as <- Eg.
    pose proof R as [[Ai Af] _].
    destruct (split_groups _ _ Ai) as (gs' & Eg' & Hg). rewrite Eg in Eg'. injection Eg' as <-.
    destruct (keep_module_data (mr_modules pr) (mr_data pr) (mr_modules ri)) as [su mo] eqn:Ek.
    destruct (keep_eq _ _ _ _ _ Al Ek) as [Ak Gk].
    apply cbind_inv in E. destruct E as (w2 & s & E2 & E). unfold cret in E. injection E as <- <-. cbn [ack_new mr_failures] in Hi.
    assert (Bi : N.testbit (mr_modules pr) i = true) by (rewrite (testbit_get _ _ i Al); unfold rget in Gx; now rewrite Gx).
    pose proof (groups_masks _ _ _ Ai Hg) as Hgm.
    (* it was identified *)
    pose proof E2 as E2'. apply live_soft_groups with (view := view) in E2'; [|exact Hok|exact Hd|exact Hgm|exact (proj1 Ak)].
    cbn [fst snd] in E2'. destruct E2' as [F2 K2].
    assert (Fi : N.testbit (fm_modules (mr_failures ri)) i = false).
    { destruct (N.testbit (fm_modules (mr_failures ri)) i) eqn:X; [|reflexivity]. rewrite (F2 i) in Hi; [discriminate|]. now rewrite failed_merge_bit, X, orb_true_r. }
    destruct (proj2 (rrep_told_of _ _ _ R) i Bi) as [Ri|Ri]; [|congruence].
    pose proof Ri as Gi. rewrite (testbit_get _ _ i Ai) in Gi. destruct (get (mr_modules ri) (mr_data ri) i) as [id|] eqn:Gid; [clear Gi|discriminate].
    destruct (rrep_true _ _ _ _ i id R T Gid) as [_ Hid].
    assert (Ori : only i (mr_modules ri)).
    { intros j Hj. apply On. rewrite (rrep_modules _ _ _ j R) in Hj. now apply andb_true_iff in Hj. }
    assert (Gs : exists mk, gs = [(id, mk)] /\ forall j, N.testbit mk j = (j =? i)).
    { destruct Hg as (Hs & Hb & He). rewrite (only_get i _ _ id Ai Ori Gid) in Hb, He.
      assert (B : forall k mk, In (k, mk) gs -> k = id /\ forall j, N.testbit mk j = (j =? i)).
      { intros k mk Hin. destruct (Hb k mk Hin) as [Hn Hm]. assert (exists j, N.testbit mk j = true) as [j Hj].
        { exists (N.log2 mk). now apply N.bit_log2. }
        apply Hm in Hj. destruct Hj as [Hj|[]]. injection Hj as <- <-. split; [reflexivity|]. intros j. apply eq_true_iff_eq. rewrite Hm. cbn [In].
        rewrite N.eqb_eq. intuition congruence. }
      destruct gs as [|[k mk] [|[k' mk'] gs]].
      - destruct (He i id (or_introl eq_refl)) as [mk []].
      - destruct (B k mk (or_introl eq_refl)) as [-> Bk]. exists mk. auto.
      - exfalso. destruct (B k mk (or_introl eq_refl)) as [-> _]. destruct (B k' mk' (or_intror (or_introl eq_refl))) as [-> _].
        revert Hs. unfold gsorted. cbn [map fst]. intros Hs. inversion Hs as [|? ? _ Hf]. apply Forall_inv in Hf. revert Hf. clear. intros Hf.
        now rewrite benum_ltb_irrefl in Hf. }
    destruct Gs as (mk & -> & Hmk). cbn [soft_groups] in E2. apply Forall_inv in Hgm. cbn [snd] in Hgm.
    assert (Gsu : get su mo i = Some x) by (rewrite Gk, Ri; exact Gx).
    assert (Osu : only i su).
    { intros j Hj. apply On. rewrite (testbit_get _ _ j Ak), Gk in Hj. destruct (N.testbit (mr_modules ri) j); [|discriminate].
      now rewrite (testbit_get _ _ j Al). }
    assert (su = mk).
    { apply mask_ext. intros j. rewrite Hmk. destruct (N.eqb_spec j i) as [->|Hn]; [now rewrite (testbit_get _ _ i Ak), Gsu|].
      destruct (N.testbit su j) eqn:X; [destruct (Hn (Osu j X))|reflexivity]. }
    subst mk.
    destruct (filter_module_data su mo (fun i0 m => m_contains su i0 && overridden m)) as [wo l1] eqn:EF1.
    destruct (filter_module_data su mo (fun i0 m => m_contains su i0 && negb (overridden m))) as [wn l2] eqn:EF2.
    destruct (filter_eq _ _ _ _ _ (proj1 Ak) EF1) as [A1 G1]. destruct (filter_eq _ _ _ _ _ (proj1 Ak) EF2) as [A2 G2].
    assert (Ci : m_contains su i = true) by (rewrite m_contains_testbit, Hmk; apply N.eqb_refl).
    apply cbind_inv in E2. destruct E2 as (w3 & s1 & D1 & E2). apply cbind_inv in E2. destruct E2 as (w4 & s2 & D2 & E2). injection E2 as <- <-.
    pose proof D1 as D1'. apply live_soft_write with (view := view) in D1'; [|exact Hok|exact Hd|apply A1]. destruct D1' as (F1 & _ & L1).
    pose proof D2 as D2'. apply live_soft_write with (view := view) in D2'; [|exact Hok|exact Hd|apply A2]. destruct D2' as (F3 & _ & L2).
    assert (Hi1 : N.testbit (fm_modules (snd s1)) i = false).
    { destruct (N.testbit (fm_modules (snd s1)) i) eqn:X; [|reflexivity]. apply F3 in X. congruence. }
    destruct (L1 i Hi1) as [S1 W1]. destruct (L2 i Hi) as [S2 W2]. pose proof (same_trans _ _ _ S2 S1) as [S3 S4]. rewrite V in S3.
    assert (Ek0 : slot_kind (view (w_sp w4) i) = id).
    { rewrite Hid. unfold slot_kind, kind_of, sff_low. now rewrite (S4 (PageSff SffLower)), V. }
    split; [exact S3|]. rewrite Ek0. rewrite (testbit_get _ _ i A1), G1, Gsu, Ci in W1. rewrite (testbit_get _ _ i A2), G2, Gsu, Ci in W2.
    destruct (overridden x) eqn:Ov; cbn [andb negb] in *.
    - assert (Q : N.testbit wn i = false) by (rewrite (testbit_get _ _ i A2), G2, Gsu, Ci, Ov; reflexivity).
      rewrite (soft_write_apart _ _ _ _ _ _ _ _ i (proj1 A2) Q D2). now apply W1.
    - now apply W2.
  Qed.

  Lemma only_empty i x : only i x -> N.testbit x i = false -> x = 0.
  Proof. intros O H. apply mask_ext. intros j. rewrite N.bits_0. destruct (N.testbit x j) eqn:X; [|reflexivity]. rewrite (O j X) in X. congruence. Qed.
  Lemma pin_failures q w w' r : is_power_pin q = true -> mask_ok (request_modules q) = true -> no_payload_request sp q w = (w', Ok r) -> faligned (mr_failures r).
  Proof.
    intros Hq Hm E. destruct (honest_ack a Hok w q) as (r' & E' & _ & R); [now destruct q|now destruct q|exact Hm|].
    rewrite E in E'. injection E' as _ ->. apply R.
  Qed.
  (** The failures are told of, each with an error. *)
  Lemma power_on_failures m st w w' r : mask_ok m = true -> st <> PowerOff -> set_power_on sp m st w = (w', Ok r) -> faligned (mr_failures r).
  Proof.
    intros Hm Hst E. unfold set_power_on in E.
    apply cbind_inv in E. destruct E as (w1 & p & E1 & E). pose proof (power_told_of a view Hok Hd _ _ _ _ Hm E1) as [Fp _].
    destruct (live_power a view Hok Hd _ _ _ _ Hm E1) as [Ap _].
    destruct (_ && _); [discriminate|].
    apply cbind_inv in E. destruct E as (w2 & s & E2 & E).
    destruct (honest_status a Hok w1 (mr_modules p) (proj1 Ap)) as (s' & E2' & _ & Rs). rewrite E2 in E2'. injection E2' as -> ->. pose proof Rs as [[As Fs] _].
    destruct (filter_module_data (mr_modules s') (mr_data s') (fun _ s => negb _ || _)) as [npe l1] eqn:EF.
    destruct (filter_eq _ _ _ _ _ (proj1 As) EF) as [Aln Gn].
    destruct (filter_module_data (mr_modules s') (mr_data s') (fun _ s => st_contains s ST_RESET)) as [nrd l2].
    pose proof (failed_merge_ok _ _ Fp Fs) as F0. set (f0 := failed_merge (mr_failures p) (mr_failures s')) in *. clearbody f0.
    apply cbind_inv in E. destruct E as (w3 & s1 & E3 & E).
    assert (F1 : mask_ok (fst s1) = true /\ faligned (snd s1)).
    { destruct (Nat.ltb 0 (m_count (m_remove npe nrd))); [|injection E3 as _ <-; split; [apply As|exact F0]].
      apply cbind_inv in E3. destruct E3 as (w3' & x & A3 & E3). apply cbind_inv in E3. destruct E3 as (w3'' & u & _ & E3). injection E3 as _ <-. cbn [fst snd].
      assert (Hr : mask_ok (m_remove npe nrd) = true) by (apply mask_ok_remove; apply Aln).
      pose proof (live_pin a view Hok Hd (HAssertReset (m_remove npe nrd)) _ _ _ eq_refl Hr A3) as [M3 _]. cbn [request_modules] in M3.
      split; [apply (sub_ok _ (m_remove npe nrd)); [intros j; rewrite M3; now destruct (N.testbit _ j)|exact Hr]|].
      apply failed_merge_ok; [exact F0|exact (pin_failures (HAssertReset _) _ _ _ eq_refl Hr A3)]. }
    apply cbind_inv in E. destruct E as (w4 & s2 & E4 & E).
    assert (F2 : mask_ok (fst s2) = true /\ faligned (snd s2)).
    { destruct (Nat.ltb 0 (m_count npe)); [|injection E4 as _ <-; exact F1].
      apply cbind_inv in E4. destruct E4 as (w4' & x & A4 & E4). injection E4 as _ <-. cbn [fst snd].
      pose proof (live_pin a view Hok Hd (HEnablePower npe) _ _ _ eq_refl (proj1 Aln) A4) as [M4 _]. cbn [request_modules] in M4.
      split; [apply (sub_ok _ npe); [intros j; rewrite M4; now destruct (N.testbit _ j)|apply Aln]|].
      apply failed_merge_ok; [apply F1|exact (pin_failures (HEnablePower _) _ _ _ eq_refl (proj1 Aln) A4)]. }
    apply cbind_inv in E. destruct E as (w5 & l & E5 & E).
    assert (L : is_power_pin (lpmode_request st (fst s2)) = true /\ request_modules (lpmode_request st (fst s2)) = fst s2 /\
                no_payload_request sp (lpmode_request st (fst s2)) w4 = (w5, Ok l)) by (destruct st; repeat split; try congruence; exact E5).
    destruct L as (L1 & L2 & L3).
    assert (Ml : mask_ok (mr_modules l) = true).
    { pose proof L3 as L3'. apply (live_pin a view Hok Hd) in L3'; [|exact L1|rewrite L2; apply F2]. destruct L3' as [M5 _]. rewrite L2 in M5.
      apply (sub_ok _ (fst s2)); [intros j; rewrite M5; now destruct (N.testbit _ j)|apply F2]. }
    apply pin_failures in L3; [|exact L1|rewrite L2; apply F2].
    pose proof (failed_merge_ok _ _ (proj2 F2) L3) as F3. set (f3 := failed_merge (snd s2) (mr_failures l)) in *. clearbody f3.
    apply cbind_inv in E. destruct E as (w6 & s4 & E6 & E).
    assert (F4 : mask_ok (fst s4) = true /\ faligned (snd s4)).
    { destruct (Nat.ltb 0 (m_count npe)); [|injection E6 as _ <-; split; [exact Ml|exact F3]].
      apply cbind_inv in E6. destruct E6 as (w6' & x & A6 & E6). apply cbind_inv in E6. destruct E6 as (w6'' & u & _ & E6). injection E6 as _ <-. cbn [fst snd].
      pose proof (live_pin a view Hok Hd (HDeassertReset npe) _ _ _ eq_refl (proj1 Aln) A6) as [M6 _]. cbn [request_modules] in M6.
      split; [apply (sub_ok _ npe); [intros j; rewrite M6; now destruct (N.testbit _ j)|apply Aln]|].
      apply failed_merge_ok; [exact F3|exact (pin_failures (HDeassertReset _) _ _ _ eq_refl (proj1 Aln) A6)]. }
    destruct (keep_module_data (mr_modules p) (mr_data p) (fst s4)) as [k1 k2].
    eapply software_failures; [| | |exact E]; [exact (proj1 F4)|exact Hst|exact (proj2 F4)].
  Qed.

  Lemma power_on_one m st w w' r i : mask_ok m = true -> st <> PowerOff -> set_power_on sp m st w = (w', Ok r) ->
    only i m -> N.testbit m i = true -> N.testbit (fm_modules (mr_failures r)) i = false -> slot_power (view (w_sp w') i) = Some st.
  Proof.
    intros Hm Hst E On Hi Hf. unfold set_power_on in E.
    apply cbind_inv in E. destruct E as (w1 & p & E1 & E).
    assert (Hp : sub (mr_modules p) m).
    { destruct (in_power sp (honest_scoped a) m w) as (_ & _ & _ & K). rewrite E1 in K. exact (proj1 (K p eq_refl)). }
    assert (Hpm : mask_ok (mr_modules p) = true) by (eapply sub_ok; eauto).
    pose proof (power_told_of a view Hok Hd _ _ _ _ Hm E1) as [_ Tp]. destruct (live_power a view Hok Hd _ _ _ _ Hm E1) as [Ap Lp].
    pose proof (proj1 (proj2 (proj2 (proj2 (proj2 (proj2 (queries_change_nothing a view Hd m)))))) w i) as V1. unfold seen_after in V1. rewrite E1 in V1. cbn [fst] in V1.
    destruct (_ && _); [discriminate|].
    apply cbind_inv in E. destruct E as (w2 & s & E2 & E).
    destruct (live_status a view Hok Hd _ _ _ _ Hpm E2) as (Hs1 & Hal & Hst2 & Hv2).
    assert (Ts : told_of (mr_modules p) (mr_modules s) (mr_failures s)).
    { destruct (honest_status a Hok w1 (mr_modules p) Hpm) as (s' & E2' & _ & Rs). rewrite E2 in E2'. injection E2' as _ ->. exact (rrep_told_of _ _ _ Rs). }
    destruct (filter_module_data (mr_modules s) (mr_data s) (fun _ s => negb _ || _)) as [npe l1] eqn:EF.
    destruct (filter_eq _ _ _ _ _ (proj1 Hal) EF) as [Aln Gn].
    destruct (filter_module_data (mr_modules s) (mr_data s) (fun _ s => st_contains s ST_RESET)) as [nrd l2].
    set (f0 := failed_merge (mr_failures p) (mr_failures s)) in *.
    set (npbnr := m_remove npe nrd) in *.
    assert (Hnpe : mask_ok npe = true) by apply Aln.
    assert (Hnb : sub npbnr npe) by apply sub_remove.
    assert (Snpe : sub npe (mr_modules s)).
    { intros j. rewrite (testbit_get _ _ j Aln), Gn, (testbit_get _ _ j Hal). now destruct (get (mr_modules s) (mr_data s) j). }
    assert (Onpe : only i npe) by (eapply only_sub; [exact Snpe|]; eapply only_sub; [exact Hs1|]; eapply only_sub; eauto).
    apply cbind_inv in E. destruct E as (w3 & s1 & E3 & E).
    apply cbind_inv in E. destruct E as (w4 & s2 & E4 & E).
    apply cbind_inv in E. destruct E as (w5 & l & E5 & E).
    set (f3 := failed_merge (snd s2) (mr_failures l)) in *.
    apply cbind_inv in E. destruct E as (w6 & s4 & E6 & E).
    destruct (keep_module_data (mr_modules p) (mr_data p) (fst s4)) as [k1 k2] eqn:EK.
    destruct (keep_eq _ _ _ _ _ Ap EK) as [Ak Gk].
    (* what is asked of the last step *)
    assert (Last : forall x, get (mr_modules p) (mr_data p) i = Some x -> N.testbit (fst s4) i = true -> sub (fst s4) (mr_modules p) ->
              sl_status (view (w_sp w') i) = sl_status (view (w_sp w6) i) /\
              worded (slot_kind (view (w_sp w') i)) (overridden x) st (view (w_sp w') i)).
    { intros x Gx Bx Sx. assert (k1 = fst s4).
      { apply mask_ext. intros j. rewrite (testbit_get _ _ j Ak), Gk. destruct (N.testbit (fst s4) j) eqn:X; [|reflexivity].
        apply Sx in X. now rewrite (testbit_get _ _ j Ap) in X. }
      subst k1. eapply software_one; [| | | |exact E|exact Hf]; cbn [mr_modules mr_data].
      - exact Ak.
      - exact Hst.
      - eapply only_sub; [exact Sx|]. eapply only_sub; eauto.
      - unfold rget. cbn [mr_modules mr_data]. now rewrite Gk, Bx. }
    (* nothing failed on the way *)
    assert (Fl : N.testbit (fm_modules (snd s4)) i = false).
    { destruct (N.testbit (fm_modules (snd s4)) i) eqn:X; [|reflexivity]. exfalso.
      assert (M4 : mask_ok (fst s4) = true).
      { destruct (Nat.ltb 0 (m_count npe)) eqn:C.
        - apply cbind_inv in E6. destruct E6 as (w6' & x & A6 & E6). apply cbind_inv in E6. destruct E6 as (w6'' & u & _ & E6). injection E6 as _ <-. cbn [fst].
          pose proof (live_pin a view Hok Hd (HDeassertReset npe) _ _ _ eq_refl Hnpe A6) as [M6 _]. cbn [request_modules] in M6.
          apply (sub_ok _ npe); [intros j; rewrite M6; now destruct (N.testbit _ j)|exact Hnpe].
        - injection E6 as _ <-. cbn [fst]. injection E4 as _ <-.
          assert (Z : npbnr = 0).
          { apply Nat.ltb_ge in C. assert (C0 : m_count npe = 0%nat) by lia. apply count0 in C0; [|exact Hnpe]. apply mask_ext. intros j. rewrite N.bits_0.
            destruct (N.testbit npbnr j) eqn:Y; [|reflexivity]. apply Hnb in Y. rewrite C0, N.bits_0 in Y. discriminate. }
          rewrite Z in E3. cbn in E3. injection E3 as _ <-. cbn [fst] in E5.
          assert (L : is_power_pin (lpmode_request st (mr_modules s)) = true /\ request_modules (lpmode_request st (mr_modules s)) = mr_modules s /\
                      no_payload_request sp (lpmode_request st (mr_modules s)) w4 = (w5, Ok l)) by (destruct st; repeat split; try congruence; exact E5).
          destruct L as (L1 & L2 & L3). apply (live_pin a view Hok Hd) in L3; [|exact L1|rewrite L2; apply Hal]. destruct L3 as [M5 _]. rewrite L2 in M5.
          apply (sub_ok _ (mr_modules s)); [intros j; rewrite M5; now destruct (N.testbit _ j)|apply Hal]. }
      destruct (live_software a view Hok Hd _ st _ _ _ (M4 : mask_ok (mr_modules (mkResult (fst s4) k2 (snd s4))) = true) Hst E) as [S _].
      cbn [mr_failures] in S. rewrite (S i X) in Hf. discriminate. }
    destruct (N.testbit npe i) eqn:Ni.
    - (* powered up *)
      assert (Hc : Nat.ltb 0 (m_count npe) = true).
      { destruct (m_count npe) eqn:X; [|reflexivity]. apply count0 in X; [|exact Hnpe]. rewrite X, N.bits_0 in Ni. discriminate. }
      rewrite Hc in E4, E6.
      apply cbind_inv in E4. destruct E4 as (w4' & en & A4 & E4). injection E4 as <- <-. cbn [fst snd] in *.
      apply cbind_inv in E6. destruct E6 as (w6' & de & A6 & E6). apply cbind_inv in E6. destruct E6 as (w6'' & u & A7 & E6).
      injection A7 as <- _. injection E6 as <- <-. cbn [fst snd] in *.
      assert (W6 : forall j, view (w_sp (mkWorld (w_sp w6') (w_counter w6') (w_log w6' ++ [ASleep T_RESET]))) j = view (w_sp w6') j) by reflexivity.
      apply (live_pin a view Hok Hd) in A4; [|reflexivity|exact Hnpe]. destruct A4 as [M4 T4]. cbn [request_modules] in M4, T4.
      assert (Hen : mask_ok (mr_modules en) = true).
      { apply (sub_ok _ npe); [|exact Hnpe]. intros j. rewrite M4. now destruct (N.testbit npe j). }
      assert (L : is_power_pin (lpmode_request st (mr_modules en)) = true /\ request_modules (lpmode_request st (mr_modules en)) = mr_modules en /\
                  no_payload_request sp (lpmode_request st (mr_modules en)) w4' = (w5, Ok l)) by (destruct st; repeat split; try congruence; exact E5).
      destruct L as (L1 & L2 & L3). apply (live_pin a view Hok Hd) in L3; [|exact L1|rewrite L2; exact Hen]. rewrite L2 in L3. destruct L3 as [M5 T5].
      apply (live_pin a view Hok Hd) in A6; [|reflexivity|exact Hnpe]. destruct A6 as [M6 T6]. cbn [request_modules] in M6, T6.
      unfold f3 in Fl. rewrite !failed_merge_bit, !orb_false_iff in Fl. destruct Fl as [[[_ F4] F5] F6].
      assert (Pi : N.testbit (mr_modules p) i = true) by now apply Hs1, Snpe.
      pose proof Pi as Gp. rewrite (testbit_get _ _ i Ap) in Gp. destruct (get (mr_modules p) (mr_data p) i) as [x|] eqn:Gx; [clear Gp|discriminate].
      destruct (Last x eq_refl) as [I2 I3]; [now rewrite M6, Ni, F6|intros j; rewrite M6; intros Hj; apply andb_true_iff in Hj; apply Hs1, Snpe, Hj|].
      rewrite W6 in I2.
      specialize (M4 i). specialize (M5 i). rewrite Ni, F4 in M4. cbn in M4. rewrite M4, F5 in M5. cbn in M5.
      specialize (T4 i F4). specialize (T5 i F5). specialize (T6 i F6). rewrite Ni in T4, T6. rewrite M4 in T5.
      rewrite T5, T4 in T6. unfold tri, eff in T6. rewrite <- I2 in T6.
      assert (X : supplied (sl_status (view (w_sp w') i)) = true /\ held_in_reset (sl_status (view (w_sp w') i)) = false /\
                  lpmode_pin (sl_status (view (w_sp w') i)) = match st with PowerLow => true | _ => false end).
      { destruct st; [congruence| |]; cbn in T6; injection T6 as X1 X2 X3; auto. }
      destruct X as (X1 & X2 & X3). destruct (overridden x).
      + apply worded_soft; [exact Hst|exact I3|]. now rewrite X1, X2.
      + rewrite (worded_pin st); [|exact Hst|exact I3|rewrite X1, X2; reflexivity]. rewrite X3. destruct st; [congruence|reflexivity|reflexivity].
    - (* on already *)
      assert (Z : npe = 0) by (now apply (only_empty i)). subst npe. assert (Hz1 : Nat.ltb 0 (m_count 0) = false) by reflexivity. rewrite Hz1 in E4, E6.
      assert (Hz2 : npbnr = 0).
      { apply mask_ext. intros j. rewrite N.bits_0. destruct (N.testbit npbnr j) eqn:X; [|reflexivity]. apply Hnb in X. now rewrite N.bits_0 in X. }
      rewrite Hz2, Hz1 in E3. injection E3 as <- <-. injection E4 as <- <-. injection E6 as <- <-. cbn [fst snd] in *.
      assert (L : is_power_pin (lpmode_request st (mr_modules s)) = true /\ request_modules (lpmode_request st (mr_modules s)) = mr_modules s /\
                  no_payload_request sp (lpmode_request st (mr_modules s)) w2 = (w5, Ok l)) by (destruct st; repeat split; try congruence; exact E5).
      destruct L as (L1 & L2 & L3). apply (live_pin a view Hok Hd) in L3; [|exact L1|rewrite L2; apply Hal]. rewrite L2 in L3. destruct L3 as [M5 T5].
      unfold f3, f0 in Fl. rewrite !failed_merge_bit, !orb_false_iff in Fl. destruct Fl as [[Fp Fs] F5].
      destruct (Tp i Hi) as [Pi|Pi]; [|congruence]. destruct (proj2 Ts i Pi) as [Si|Si]; [|congruence].
      pose proof Pi as Gp. rewrite (testbit_get _ _ i Ap) in Gp. destruct (get (mr_modules p) (mr_data p) i) as [x|] eqn:Gx; [clear Gp|discriminate].
      destruct (Last x eq_refl) as [I2 I3]; [now rewrite M5, Si, F5|intros j; rewrite M5; intros Hj; apply andb_true_iff in Hj; apply Hs1, Hj|].
      assert (Hon : negb (supplied (sl_status (view (w_sp w1) i))) || held_in_reset (sl_status (view (w_sp w1) i)) = false).
      { pose proof Si as Gs. rewrite (testbit_get _ _ i Hal) in Gs. destruct (get (mr_modules s) (mr_data s) i) as [y|] eqn:G; [|discriminate].
        pose proof (Hst2 _ _ G) as ->. rewrite (testbit_get _ _ i Aln), Gn, G in Ni. rewrite contains_supplied, contains_reset in Ni.
        destruct (_ || _); [discriminate|reflexivity]. }
      specialize (T5 i F5). rewrite Si, Hv2 in T5. unfold tri, eff in T5. rewrite <- I2 in T5. injection T5 as X1 X2 X3.
      destruct (overridden x).
      + apply worded_soft; [exact Hst|exact I3|]. rewrite X1, X2, <- Hon. destruct st; reflexivity.
      + rewrite (worded_pin st); [|exact Hst|exact I3|rewrite X1, X2, <- Hon; destruct st; reflexivity]. rewrite X3. destruct st; [congruence|reflexivity|reflexivity].
  Qed.
End Single.
