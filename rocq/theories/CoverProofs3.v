(** Changing the power state of modules of a kind that are all on or all off (C98). *)
From Verif Require Export CoverProofs2.
From Verif Require Import Tac Spec ModuleIdProofs ModuleIdProps ResultsProofs ControllerProofs ControllerProofs3
  ControllerProofs4 ControllerProofs5 ControllerProofs6 ControllerProofs7 ScopeProofs ScopeProofs2.

Definition off_slot (x : slot) : bool := negb (supplied (sl_status x)) || held_in_reset (sl_status x).

Section Alike.
  Context {St : Type} (a : honest St) (view : St -> N -> slot) (Hok : honest_ok a) (Hd : drives a view).
  Implicit Type w : world St.
  Local Notation sp := (honest_sp a).

  (** Modules of a kind, one of them with the mode [x] known before. *)
  Lemma software_alike pr st w w' r i x id0 : aligned (mr_modules pr) (mr_data pr) -> st <> PowerOff ->
    (forall j, N.testbit (mr_modules pr) j = true -> slot_kind (view (w_sp w) j) = id0) -> rget pr i = Some x ->
    set_software_power_state sp pr st w = (w', Ok r) -> N.testbit (fm_modules (mr_failures r)) i = false ->
    sl_status (view (w_sp w') i) = sl_status (view (w_sp w) i) /\ worded (slot_kind (view (w_sp w') i)) (overridden x) st (view (w_sp w') i).
  Proof.
    intros Al Hst On Gx E Hi. rewrite software_eq in E by exact Hst. apply cbind_inv in E. destruct E as (w1 & ri & E1 & E).
    destruct (live_identifier a view Hok Hd w (mr_modules pr) (fun i => view (w_sp w) i) (fun i => eq_refl) (proj1 Al))
      as (ri' & w1' & f & E1' & R & T & V). rewrite E1 in E1'. injection E1' as <- <-.
    apply cbind_inv in E. destruct E as (w1' & gs & Eg & E). unfold cret in Eg. injection Eg as <- Eg.
    pose proof R as [[Ai Af] _].
    destruct (split_groups _ _ Ai) as (gs' & Eg' & Hg). rewrite Eg in Eg'. injection Eg' as <-.
    destruct (keep_module_data (mr_modules pr) (mr_data pr) (mr_modules ri)) as [su mo] eqn:Ek.
    destruct (keep_eq _ _ _ _ _ Al Ek) as [Ak Gk].
    apply cbind_inv in E. destruct E as (w2 & s & E2 & E). unfold cret in E. injection E as <- <-. cbn [ack_new mr_failures] in Hi.
    assert (Bi : N.testbit (mr_modules pr) i = true) by (rewrite (testbit_get _ _ i Al); unfold rget in Gx; now rewrite Gx).
    pose proof (groups_masks _ _ _ Ai Hg) as Hgm.
    (* it was identified *)
    pose proof E2 as E2'. apply live_soft_groups with (view := view) in E2'; [|exact Hok|exact Hd|exact Hgm|exact (proj1 Ak)].
    cbn [fst snd] in E2'. destruct E2' as [F2 K2].
    assert (Fi : N.testbit (fm_modules (mr_failures ri)) i = false).
    { destruct (N.testbit (fm_modules (mr_failures ri)) i) eqn:X; [|reflexivity]. rewrite (F2 i) in Hi; [discriminate|]. now rewrite failed_merge_bit, X, orb_true_r. }
    destruct (proj2 (rrep_told_of _ _ _ R) i Bi) as [Ri|Ri]; [|congruence].
    pose proof Ri as Gi. rewrite (testbit_get _ _ i Ai) in Gi. destruct (get (mr_modules ri) (mr_data ri) i) as [id|] eqn:Gid; [clear Gi|discriminate].
    destruct (rrep_true _ _ _ _ i id R T Gid) as [_ Hid].
    assert (Ki : forall j k, get (mr_modules ri) (mr_data ri) j = Some k -> k = id).
    { assert (K0 : forall j k, get (mr_modules ri) (mr_data ri) j = Some k -> k = id0).
      { intros j k G. destruct (rrep_true _ _ _ _ j k R T G) as [_ ->]. apply On.
        pose proof (rrep_modules _ _ _ j R) as M. rewrite (testbit_get _ _ j Ai), G in M. symmetry in M. now apply andb_true_iff in M. }
      intros j k G. rewrite (K0 _ _ G). symmetry. exact (K0 _ _ Gid). }
    assert (Gs : exists mk, gs = [(id, mk)] /\ forall j, N.testbit mk j = N.testbit (mr_modules ri) j).
    { destruct Hg as (Hs & Hb & He).
      assert (B : forall k mk, In (k, mk) gs -> k = id /\ forall j, N.testbit mk j = N.testbit (mr_modules ri) j).
      { intros k mk Hin. destruct (Hb k mk Hin) as [Hn Hm]. assert (exists j, N.testbit mk j = true) as [j Hj].
        { exists (N.log2 mk). now apply N.bit_log2. }
        apply Hm in Hj. assert (k = id) by (apply in_zip_get in Hj; exact (Ki _ _ Hj)). subst k. split; [reflexivity|].
        intros j'. apply eq_true_iff_eq. rewrite Hm. rewrite (testbit_get _ _ j' Ai). split.
        - intros X. apply in_zip_get in X. now rewrite X.
        - intros X. destruct (get (mr_modules ri) (mr_data ri) j') as [k|] eqn:G; [|discriminate]. apply in_zip_get. rewrite G. f_equal. exact (Ki _ _ G). }
      destruct gs as [|[k mk] [|[k' mk'] gs]].
      - destruct (He i id) as [mk []]. now apply in_zip_get.
      - destruct (B k mk (or_introl eq_refl)) as [-> Bk]. exists mk. auto.
      - exfalso. destruct (B k mk (or_introl eq_refl)) as [-> _]. destruct (B k' mk' (or_intror (or_introl eq_refl))) as [-> _].
        revert Hs. unfold gsorted. cbn [map fst]. intros Hs. inversion Hs as [|? ? _ Hf]. apply Forall_inv in Hf. revert Hf. clear. intros Hf.
        now rewrite benum_ltb_irrefl in Hf. }
    destruct Gs as (mk & -> & Hmk). cbn [soft_groups] in E2. apply Forall_inv in Hgm. cbn [snd] in Hgm.
    assert (Gsu : get su mo i = Some x) by (rewrite Gk, Ri; exact Gx).
    assert (su = mk).
    { apply mask_ext. intros j. rewrite Hmk. rewrite (testbit_get _ _ j Ak), Gk. destruct (N.testbit (mr_modules ri) j) eqn:X; [|reflexivity].
      rewrite (rrep_modules _ _ _ j R) in X. apply andb_true_iff in X. destruct X as [X _]. now rewrite (testbit_get _ _ j Al) in X. }
    subst mk.
    destruct (filter_module_data su mo (fun i0 m => m_contains su i0 && overridden m)) as [wo l1] eqn:EF1.
    destruct (filter_module_data su mo (fun i0 m => m_contains su i0 && negb (overridden m))) as [wn l2] eqn:EF2.
    destruct (filter_eq _ _ _ _ _ (proj1 Ak) EF1) as [A1 G1]. destruct (filter_eq _ _ _ _ _ (proj1 Ak) EF2) as [A2 G2].
    assert (Ci : m_contains su i = true) by (rewrite m_contains_testbit, (testbit_get _ _ i Ak), Gsu; reflexivity).
    apply cbind_inv in E2. destruct E2 as (w3 & s1 & D1 & E2). apply cbind_inv in E2. destruct E2 as (w4 & s2 & D2 & E2). injection E2 as <- <-.
    pose proof D1 as D1'. apply live_soft_write with (view := view) in D1'; [|exact Hok|exact Hd|apply A1]. destruct D1' as (F1 & _ & L1).
    pose proof D2 as D2'. apply live_soft_write with (view := view) in D2'; [|exact Hok|exact Hd|apply A2]. destruct D2' as (F3 & _ & L2).
    assert (Hi1 : N.testbit (fm_modules (snd s1)) i = false).
    { destruct (N.testbit (fm_modules (snd s1)) i) eqn:X; [|reflexivity]. apply F3 in X. congruence. }
    destruct (L1 i Hi1) as [S1 W1]. destruct (L2 i Hi) as [S2 W2]. pose proof (same_trans _ _ _ S2 S1) as [S3 S4]. rewrite V in S3.
    assert (Ek0 : slot_kind (view (w_sp w4) i) = id).
    { rewrite Hid. unfold slot_kind, kind_of, sff_low. now rewrite (S4 (PageSff SffLower)), V. }
    split; [exact S3|]. rewrite Ek0. rewrite (testbit_get _ _ i A1), G1, Gsu, Ci in W1. rewrite (testbit_get _ _ i A2), G2, Gsu, Ci in W2.
    destruct (overridden x) eqn:Ov; cbn [andb negb] in *.
    - assert (Q : N.testbit wn i = false) by (rewrite (testbit_get _ _ i A2), G2, Gsu, Ci, Ov; reflexivity).
      rewrite (soft_write_apart a view Hok Hd _ _ _ _ _ _ _ _ i (proj1 A2) Q D2). now apply W1.
    - now apply W2.
  Qed.


  Lemma pin_kind m q w w' r j : (forall t q d j, is_power_pin q = true -> N.testbit m j = true -> slot_kind (view (hs_next a t q d) j) = slot_kind (view t j)) ->
    is_power_pin q = true -> mask_ok (request_modules q) = true -> N.testbit m j = true -> no_payload_request sp q w = (w', Ok r) ->
    slot_kind (view (w_sp w') j) = slot_kind (view (w_sp w) j).
  Proof.
    intros K Hq Hm Hj E. destruct (honest_ack a Hok w q) as (r' & E' & _ & R); [now destruct q|now destruct q|exact Hm|].
    rewrite E in E'. injection E' as -> _. rewrite next_sp. now apply K.
  Qed.
  Lemma power_on_alike m st w w' r i id0 : mask_ok m = true -> st <> PowerOff -> set_power_on sp m st w = (w', Ok r) ->
    (forall t q d j, is_power_pin q = true -> N.testbit m j = true -> slot_kind (view (hs_next a t q d) j) = slot_kind (view t j)) ->
    (forall j, N.testbit m j = true -> slot_kind (view (w_sp w) j) = id0) ->
    (forall j k, N.testbit m j = true -> N.testbit m k = true -> off_slot (view (w_sp w) j) = true -> off_slot (view (w_sp w) k) = true) ->
    N.testbit m i = true -> N.testbit (fm_modules (mr_failures r)) i = false -> slot_power (view (w_sp w') i) = Some st.
  Proof.
    intros Hm Hst E Kp On Un Hi Hf. unfold set_power_on in E.
    apply cbind_inv in E. destruct E as (w1 & p & E1 & E).
    assert (Hp : sub (mr_modules p) m).
    { destruct (in_power sp (honest_scoped a) m w) as (_ & _ & _ & K). rewrite E1 in K. exact (proj1 (K p eq_refl)). }
    assert (Hpm : mask_ok (mr_modules p) = true) by (eapply sub_ok; eauto).
    pose proof (power_told_of a view Hok Hd _ _ _ _ Hm E1) as [_ Tp]. destruct (live_power a view Hok Hd _ _ _ _ Hm E1) as [Ap Lp].
    pose proof (proj1 (proj2 (proj2 (proj2 (proj2 (proj2 (queries_change_nothing a view Hd m)))))) w) as V1. unfold seen_after in V1. rewrite E1 in V1. cbn [fst] in V1.
    destruct (_ && _); [discriminate|].
    apply cbind_inv in E. destruct E as (w2 & s & E2 & E).
    destruct (live_status a view Hok Hd _ _ _ _ Hpm E2) as (Hs1 & Hal & Hst2 & Hv2).
    assert (Ts : told_of (mr_modules p) (mr_modules s) (mr_failures s)).
    { destruct (honest_status a Hok w1 (mr_modules p) Hpm) as (s' & E2' & _ & Rs). rewrite E2 in E2'. injection E2' as _ ->. exact (rrep_told_of _ _ _ Rs). }
    destruct (filter_module_data (mr_modules s) (mr_data s) (fun _ s => negb _ || _)) as [npe l1] eqn:EF.
    destruct (filter_eq _ _ _ _ _ (proj1 Hal) EF) as [Aln Gn].
    destruct (filter_module_data (mr_modules s) (mr_data s) (fun _ s => st_contains s ST_RESET)) as [nrd l2].
    set (f0 := failed_merge (mr_failures p) (mr_failures s)) in *.
    set (npbnr := m_remove npe nrd) in *.
    assert (Hnpe : mask_ok npe = true) by apply Aln.
    assert (Hnb : sub npbnr npe) by apply sub_remove.
    assert (Snpe : sub npe (mr_modules s)).
    { intros j. rewrite (testbit_get _ _ j Aln), Gn, (testbit_get _ _ j Hal). now destruct (get (mr_modules s) (mr_data s) j). }
    assert (Off : forall j, N.testbit (mr_modules s) j = true -> N.testbit npe j = off_slot (view (w_sp w) j)).
    { intros j Gs. rewrite (testbit_get _ _ j Hal) in Gs. destruct (get (mr_modules s) (mr_data s) j) as [y|] eqn:G; [|discriminate].
      rewrite (testbit_get _ _ j Aln), Gn, G. pose proof (Hst2 _ _ G) as ->. rewrite contains_supplied, contains_reset, V1. unfold off_slot.
      now destruct (_ || _). }
    apply cbind_inv in E. destruct E as (w3 & s1 & E3 & E).
    apply cbind_inv in E. destruct E as (w4 & s2 & E4 & E).
    apply cbind_inv in E. destruct E as (w5 & l & E5 & E).
    set (f3 := failed_merge (snd s2) (mr_failures l)) in *.
    apply cbind_inv in E. destruct E as (w6 & s4 & E6 & E).
    destruct (keep_module_data (mr_modules p) (mr_data p) (fst s4)) as [k1 k2] eqn:EK.
    destruct (keep_eq _ _ _ _ _ Ap EK) as [Ak Gk].
    (* they are of a kind all the time *)
    assert (K6 : forall j, N.testbit m j = true -> slot_kind (view (w_sp w6) j) = id0).
    { intros j Hj. rewrite <- (On j Hj), <- (V1 j), <- (Hv2 j).
      assert (S1m : mask_ok (fst s1) = true /\ slot_kind (view (w_sp w3) j) = slot_kind (view (w_sp w2) j)).
      { destruct (Nat.ltb 0 (m_count npbnr)); [|injection E3 as <- <-; split; [apply Hal|reflexivity]].
        apply cbind_inv in E3. destruct E3 as (w3' & y & A3 & E3). apply cbind_inv in E3. destruct E3 as (w3'' & u & B3 & E3). injection E3 as <- <-. injection B3 as <- _.
        pose proof (sub_ok _ _ Hnb Hnpe) as Hb.
        pose proof (live_pin a view Hok Hd (HAssertReset npbnr) _ _ _ eq_refl Hb A3) as [M3 _]. cbn [request_modules] in M3.
        split; [apply (sub_ok _ npbnr); [intros k; rewrite M3; now destruct (N.testbit _ k)|exact Hb]|].
        exact (pin_kind m (HAssertReset npbnr) _ _ _ j Kp eq_refl Hb Hj A3). }
      assert (S2m : mask_ok (fst s2) = true /\ slot_kind (view (w_sp w4) j) = slot_kind (view (w_sp w3) j)).
      { destruct (Nat.ltb 0 (m_count npe)); [|injection E4 as <- <-; split; [apply S1m|reflexivity]].
        apply cbind_inv in E4. destruct E4 as (w4' & y & A4 & E4). injection E4 as <- <-.
        pose proof (live_pin a view Hok Hd (HEnablePower npe) _ _ _ eq_refl Hnpe A4) as [M4 _]. cbn [request_modules] in M4.
        split; [apply (sub_ok _ npe); [intros k; rewrite M4; now destruct (N.testbit _ k)|exact Hnpe]|].
        exact (pin_kind m (HEnablePower npe) _ _ _ j Kp eq_refl Hnpe Hj A4). }
      assert (S5 : slot_kind (view (w_sp w5) j) = slot_kind (view (w_sp w4) j)).
      { assert (L : is_power_pin (lpmode_request st (fst s2)) = true /\ request_modules (lpmode_request st (fst s2)) = fst s2 /\
                  no_payload_request sp (lpmode_request st (fst s2)) w4 = (w5, Ok l)) by (destruct st; repeat split; try congruence; exact E5).
        destruct L as (L1 & L2 & L3). eapply (pin_kind m _ _ _ _ j Kp L1); [rewrite L2; apply S2m|exact Hj|exact L3]. }
      assert (S6 : slot_kind (view (w_sp w6) j) = slot_kind (view (w_sp w5) j)).
      { destruct (Nat.ltb 0 (m_count npe)); [|injection E6 as <- _; reflexivity].
        apply cbind_inv in E6. destruct E6 as (w6' & y & A6 & E6). apply cbind_inv in E6. destruct E6 as (w6'' & u & B6 & E6). injection E6 as <- _. injection B6 as <- _.
        exact (pin_kind m (HDeassertReset npe) _ _ _ j Kp eq_refl Hnpe Hj A6). }
      rewrite S6, S5, (proj2 S2m). apply S1m. }
    (* what is asked of the last step *)
    assert (Last : forall x, get (mr_modules p) (mr_data p) i = Some x -> N.testbit (fst s4) i = true -> sub (fst s4) (mr_modules p) ->
              sl_status (view (w_sp w') i) = sl_status (view (w_sp w6) i) /\
              worded (slot_kind (view (w_sp w') i)) (overridden x) st (view (w_sp w') i)).
    { intros x Gx Bx Sx. assert (k1 = fst s4).
      { apply mask_ext. intros j. rewrite (testbit_get _ _ j Ak), Gk. destruct (N.testbit (fst s4) j) eqn:X; [|reflexivity].
        apply Sx in X. now rewrite (testbit_get _ _ j Ap) in X. }
      subst k1. eapply software_alike with (id0 := id0); [| | | |exact E|exact Hf]; cbn [mr_modules mr_data].
      - exact Ak.
      - exact Hst.
      - intros j Hj. apply K6, Hp, Sx, Hj.
      - unfold rget. cbn [mr_modules mr_data]. now rewrite Gk, Bx. }
    (* nothing failed on the way *)
    assert (Fl : N.testbit (fm_modules (snd s4)) i = false).
    { destruct (N.testbit (fm_modules (snd s4)) i) eqn:X; [|reflexivity]. exfalso.
      assert (M4 : mask_ok (fst s4) = true).
      { destruct (Nat.ltb 0 (m_count npe)) eqn:C.
        - apply cbind_inv in E6. destruct E6 as (w6' & x & A6 & E6). apply cbind_inv in E6. destruct E6 as (w6'' & u & _ & E6). injection E6 as _ <-. cbn [fst].
          pose proof (live_pin a view Hok Hd (HDeassertReset npe) _ _ _ eq_refl Hnpe A6) as [M6 _]. cbn [request_modules] in M6.
          apply (sub_ok _ npe); [intros j; rewrite M6; now destruct (N.testbit _ j)|exact Hnpe].
        - injection E6 as _ <-. cbn [fst]. injection E4 as _ <-.
          assert (Z : npbnr = 0).
          { apply Nat.ltb_ge in C. assert (C0 : m_count npe = 0%nat) by lia. apply count0 in C0; [|exact Hnpe]. apply mask_ext. intros j. rewrite N.bits_0.
            destruct (N.testbit npbnr j) eqn:Y; [|reflexivity]. apply Hnb in Y. rewrite C0, N.bits_0 in Y. discriminate. }
          rewrite Z in E3. cbn in E3. injection E3 as _ <-. cbn [fst] in E5.
          assert (L : is_power_pin (lpmode_request st (mr_modules s)) = true /\ request_modules (lpmode_request st (mr_modules s)) = mr_modules s /\
                      no_payload_request sp (lpmode_request st (mr_modules s)) w4 = (w5, Ok l)) by (destruct st; repeat split; try congruence; exact E5).
          destruct L as (L1 & L2 & L3). apply (live_pin a view Hok Hd) in L3; [|exact L1|rewrite L2; apply Hal]. destruct L3 as [M5 _]. rewrite L2 in M5.
          apply (sub_ok _ (mr_modules s)); [intros j; rewrite M5; now destruct (N.testbit _ j)|apply Hal]. }
      destruct (live_software a view Hok Hd _ st _ _ _ (M4 : mask_ok (mr_modules (mkResult (fst s4) k2 (snd s4))) = true) Hst E) as [S _].
      cbn [mr_failures] in S. rewrite (S i X) in Hf. discriminate. }
    assert (F0 : N.testbit (fm_modules f0) i = false).
    { destruct (N.testbit (fm_modules f0) i) eqn:X; [|reflexivity]. exfalso. clearbody f0.
      assert (X1 : N.testbit (fm_modules (snd s1)) i = true).
      { destruct (Nat.ltb 0 (m_count npbnr)); [|injection E3 as _ <-; exact X].
        apply cbind_inv in E3. destruct E3 as (w3' & y & _ & E3). apply cbind_inv in E3. destruct E3 as (w3'' & u & _ & E3). injection E3 as _ <-. cbn [snd].
        rewrite failed_merge_bit, X. reflexivity. }
      assert (X2 : N.testbit (fm_modules (snd s2)) i = true).
      { destruct (Nat.ltb 0 (m_count npe)); [|injection E4 as _ <-; exact X1].
        apply cbind_inv in E4. destruct E4 as (w4' & y & _ & E4). injection E4 as _ <-. cbn [snd]. rewrite failed_merge_bit, X1. reflexivity. }
      assert (X3 : N.testbit (fm_modules f3) i = true) by (unfold f3; rewrite failed_merge_bit, X2; reflexivity).
      destruct (Nat.ltb 0 (m_count npe)); [|injection E6 as _ <-; cbn [snd] in Fl; congruence].
      apply cbind_inv in E6. destruct E6 as (w6' & y & _ & E6). apply cbind_inv in E6. destruct E6 as (w6'' & u & _ & E6). injection E6 as _ <-. cbn [snd] in Fl.
      rewrite failed_merge_bit, X3 in Fl. discriminate. }
    unfold f0 in F0. rewrite failed_merge_bit, orb_false_iff in F0. destruct F0 as [Fp0 Fs0].
    destruct (Tp i Hi) as [Pi0|Pi0]; [|congruence]. destruct (proj2 Ts i Pi0) as [Si0|Si0]; [|congruence].
    destruct (N.testbit npe i) eqn:Ni.
    - (* powered up *)
      assert (Hc : Nat.ltb 0 (m_count npe) = true).
      { destruct (m_count npe) eqn:X; [|reflexivity]. apply count0 in X; [|exact Hnpe]. rewrite X, N.bits_0 in Ni. discriminate. }
      rewrite Hc in E4, E6.
      apply cbind_inv in E4. destruct E4 as (w4' & en & A4 & E4). injection E4 as <- <-. cbn [fst snd] in *.
      apply cbind_inv in E6. destruct E6 as (w6' & de & A6 & E6). apply cbind_inv in E6. destruct E6 as (w6'' & u & A7 & E6).
      injection A7 as <- _. injection E6 as <- <-. cbn [fst snd] in *.
      assert (W6 : forall j, view (w_sp (mkWorld (w_sp w6') (w_counter w6') (w_log w6' ++ [ASleep T_RESET]))) j = view (w_sp w6') j) by reflexivity.
      apply (live_pin a view Hok Hd) in A4; [|reflexivity|exact Hnpe]. destruct A4 as [M4 T4]. cbn [request_modules] in M4, T4.
      assert (Hen : mask_ok (mr_modules en) = true).
      { apply (sub_ok _ npe); [|exact Hnpe]. intros j. rewrite M4. now destruct (N.testbit npe j). }
      assert (L : is_power_pin (lpmode_request st (mr_modules en)) = true /\ request_modules (lpmode_request st (mr_modules en)) = mr_modules en /\
                  no_payload_request sp (lpmode_request st (mr_modules en)) w4' = (w5, Ok l)) by (destruct st; repeat split; try congruence; exact E5).
      destruct L as (L1 & L2 & L3). apply (live_pin a view Hok Hd) in L3; [|exact L1|rewrite L2; exact Hen]. rewrite L2 in L3. destruct L3 as [M5 T5].
      apply (live_pin a view Hok Hd) in A6; [|reflexivity|exact Hnpe]. destruct A6 as [M6 T6]. cbn [request_modules] in M6, T6.
      unfold f3 in Fl. rewrite !failed_merge_bit, !orb_false_iff in Fl. destruct Fl as [[[_ F4] F5] F6].
      assert (Pi : N.testbit (mr_modules p) i = true) by now apply Hs1, Snpe.
      pose proof Pi as Gp. rewrite (testbit_get _ _ i Ap) in Gp. destruct (get (mr_modules p) (mr_data p) i) as [x|] eqn:Gx; [clear Gp|discriminate].
      destruct (Last x eq_refl) as [I2 I3]; [now rewrite M6, Ni, F6|intros j; rewrite M6; intros Hj; apply andb_true_iff in Hj; apply Hs1, Snpe, Hj|].
      rewrite W6 in I2.
      specialize (M4 i). specialize (M5 i). rewrite Ni, F4 in M4. cbn in M4. rewrite M4, F5 in M5. cbn in M5.
      specialize (T4 i F4). specialize (T5 i F5). specialize (T6 i F6). rewrite Ni in T4, T6. rewrite M4 in T5.
      rewrite T5, T4 in T6. unfold tri, eff in T6. rewrite <- I2 in T6.
      assert (X : supplied (sl_status (view (w_sp w') i)) = true /\ held_in_reset (sl_status (view (w_sp w') i)) = false /\
                  lpmode_pin (sl_status (view (w_sp w') i)) = match st with PowerLow => true | _ => false end).
      { destruct st; [congruence| |]; cbn in T6; injection T6 as X1 X2 X3; auto. }
      destruct X as (X1 & X2 & X3). destruct (overridden x).
      + apply worded_soft; [exact Hst|exact I3|]. now rewrite X1, X2.
      + rewrite (worded_pin st); [|exact Hst|exact I3|rewrite X1, X2; reflexivity]. rewrite X3. destruct st; [congruence|reflexivity|reflexivity].
    - (* on already *)
      assert (Z : npe = 0).
      { apply mask_ext. intros j. rewrite N.bits_0. destruct (N.testbit npe j) eqn:X; [|reflexivity]. exfalso.
        assert (Sj := Snpe j X). pose proof X as Oj. rewrite (Off j Sj) in Oj. rewrite (Off i Si0) in Ni.
        rewrite (Un j i (Hp j (Hs1 j Sj)) Hi Oj) in Ni. discriminate. }
      subst npe. assert (Hz1 : Nat.ltb 0 (m_count 0) = false) by reflexivity. rewrite Hz1 in E4, E6.
      assert (Hz2 : npbnr = 0).
      { apply mask_ext. intros j. rewrite N.bits_0. destruct (N.testbit npbnr j) eqn:X; [|reflexivity]. apply Hnb in X. now rewrite N.bits_0 in X. }
      rewrite Hz2, Hz1 in E3. injection E3 as <- <-. injection E4 as <- <-. injection E6 as <- <-. cbn [fst snd] in *.
      assert (L : is_power_pin (lpmode_request st (mr_modules s)) = true /\ request_modules (lpmode_request st (mr_modules s)) = mr_modules s /\
                  no_payload_request sp (lpmode_request st (mr_modules s)) w2 = (w5, Ok l)) by (destruct st; repeat split; try congruence; exact E5).
      destruct L as (L1 & L2 & L3). apply (live_pin a view Hok Hd) in L3; [|exact L1|rewrite L2; apply Hal]. rewrite L2 in L3. destruct L3 as [M5 T5].
      unfold f3, f0 in Fl. rewrite !failed_merge_bit, !orb_false_iff in Fl. destruct Fl as [[Fp Fs] F5].
      destruct (Tp i Hi) as [Pi|Pi]; [|congruence]. destruct (proj2 Ts i Pi) as [Si|Si]; [|congruence].
      pose proof Pi as Gp. rewrite (testbit_get _ _ i Ap) in Gp. destruct (get (mr_modules p) (mr_data p) i) as [x|] eqn:Gx; [clear Gp|discriminate].
      destruct (Last x eq_refl) as [I2 I3]; [now rewrite M5, Si, F5|intros j; rewrite M5; intros Hj; apply andb_true_iff in Hj; apply Hs1, Hj|].
      assert (Hon : negb (supplied (sl_status (view (w_sp w1) i))) || held_in_reset (sl_status (view (w_sp w1) i)) = false).
      { pose proof Si as Gs. rewrite (testbit_get _ _ i Hal) in Gs. destruct (get (mr_modules s) (mr_data s) i) as [y|] eqn:G; [|discriminate].
        pose proof (Hst2 _ _ G) as ->. rewrite (testbit_get _ _ i Aln), Gn, G in Ni. rewrite contains_supplied, contains_reset in Ni.
        destruct (_ || _); [discriminate|reflexivity]. }
      specialize (T5 i F5). rewrite Si, Hv2 in T5. unfold tri, eff in T5. rewrite <- I2 in T5. injection T5 as X1 X2 X3.
      destruct (overridden x).
      + apply worded_soft; [exact Hst|exact I3|]. rewrite X1, X2, <- Hon. destruct st; reflexivity.
      + rewrite (worded_pin st); [|exact Hst|exact I3|rewrite X1, X2, <- Hon; destruct st; reflexivity]. rewrite X3. destruct st; [congruence|reflexivity|reflexivity].
  Qed.
End Alike.
