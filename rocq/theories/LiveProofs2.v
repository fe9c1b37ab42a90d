(** Proofs about the effect of changing the power state (C74). *)
From Verif Require Export LiveProofs.
From Verif Require Import Tac Spec ModuleIdProofs ModuleIdProps ResultsProofs ControllerProofs ControllerProofs3
  ControllerProofs4 ControllerProofs5 ControllerProofs6 ControllerProofs7 ScopeProofs ScopeProofs2.

Lemma cbind_inv {St A B} (c : ctl (St := St) A) (f : A -> ctl B) w w' b : cbind c f w = (w', Ok b) ->
  exists w1 x, c w = (w1, Ok x) /\ f x w1 = (w', Ok b).
Proof. unfold cbind. destruct (c w) as [w1 [x|e|]]; try discriminate. eauto. Qed.
Lemma sub_ok x m : sub x m -> mask_ok m = true -> mask_ok x = true.
Proof. intros H K. apply mask_ok_testbit. intros i Hi. apply (proj1 (mask_ok_testbit m) K). auto. Qed.
Lemma failed_merge_bit {E} (x y : FailedModules E) i :
  N.testbit (fm_modules (failed_merge x y)) i = N.testbit (fm_modules x) i || N.testbit (fm_modules y) i.
Proof. apply m_merge_spec. Qed.

Definition tri (x : slot) : bool * bool * bool :=
  (supplied (sl_status x), held_in_reset (sl_status x), lpmode_pin (sl_status x)).
Definition eff (q : HostRequest) (t : bool * bool * bool) : bool * bool * bool :=
  let '(p, r, l) := t in
  (match q with HEnablePower _ => true | HDisablePower _ => false | _ => p end,
   match q with HAssertReset _ => true | HDeassertReset _ => false | _ => r end,
   match q with HAssertLpMode _ => true | HDeassertLpMode _ => false | _ => l end).

Lemma word_shape id ov st wr b : power_word id ov st = Ok (wr, b) ->
  wr = soft_place id /\ b = soft_word id ov st /\ supported_kind id = true /\ b < 256.
Proof.
  unfold power_word, supported_kind, soft_place, soft_word, sff_kind, cmis_kind, write_new.
  destruct (benum_eqb id QsfpPlusSff8636 || benum_eqb id Qsfp28); [|destruct (benum_eqb id QsfpPlusCmis || benum_eqb id QsfpDD); [|discriminate]];
  destruct st, ov; cbn; intros [= <- <-]; repeat split.
Qed.

Section Power.
  Context {St : Type} (a : honest St) (view : St -> N -> slot) (Hok : honest_ok a) (Hd : drives a view).
  Implicit Type w : world St.
  Local Notation sp := (honest_sp a).

  Lemma live_pin q w w' r : is_power_pin q = true -> mask_ok (request_modules q) = true ->
    no_payload_request sp q w = (w', Ok r) ->
    (forall i, N.testbit (mr_modules r) i = N.testbit (request_modules q) i && negb (N.testbit (fm_modules (mr_failures r)) i)) /\
    (forall i, N.testbit (fm_modules (mr_failures r)) i = false ->
       tri (view (w_sp w') i) = if N.testbit (request_modules q) i then eff q (tri (view (w_sp w) i)) else tri (view (w_sp w) i)).
  Proof.
    intros Hq Hm E. destruct (honest_ack a Hok w q) as (r' & E' & _ & R); [now destruct q|now destruct q|exact Hm|].
    rewrite E in E'. injection E' as -> ->. split.
    - intros i. rewrite (rrep_modules _ _ _ i R), (rrep_failed _ _ _ i R). unfold told.
      destruct (N.testbit _ i); [|reflexivity]. now destruct (vd a w q None i).
    - intros i. rewrite (rrep_failed _ _ _ i R), next_sp. unfold told. intros F.
      destruct (N.testbit (request_modules q) i) eqn:T.
      + unfold vd in F. destruct (hs_verdict a (w_sp w) q None i) as [x|] eqn:V; [|discriminate].
        apply member_testbit in T. destruct (dr_pin _ _ Hd _ _ _ _ _ Hq T V) as (H1 & H2 & H3).
        unfold tri, eff. rewrite H1, H2, H3. reflexivity.
      + unfold tri. rewrite (dr_apart _ _ Hd); [reflexivity|]. rewrite member_testbit. congruence.
  Qed.

  (** Status and kind are as before. *)
  Definition same (x y : slot) : Prop := sl_status x = sl_status y /\ forall p, sl_cell x p 0 = sl_cell y p 0.
  Lemma same_refl x : same x x. Proof. now split. Qed.
  Lemma same_trans x y z : same x y -> same y z -> same x z.
  Proof. intros [H K] [H' K']. split; [congruence|]. intros p. now rewrite K. Qed.
  Definition worded (id : Identifier) (ov : bool) (st : PowerState) (x : slot) : Prop :=
    supported_kind id = true /\ forall p, sl_cell x p (wr_offset (soft_place id)) = soft_word id ov st.

  Lemma live_soft_write id st ov x s w w' s' : mask_ok x = true -> soft_write sp id st ov x s w = (w', Ok s') ->
    sub (fm_modules (snd s)) (fm_modules (snd s')) /\ sub (fst (fst s')) x /\
    forall i, N.testbit (fm_modules (snd s')) i = false ->
      same (view (w_sp w') i) (view (w_sp w) i) /\
      (N.testbit x i = true -> worded id ov st (view (w_sp w') i)).
  Proof.
    intros Hx. destruct s as [[su mo] fa]. cbn [soft_write]. intros E.
    apply cbind_inv in E. destruct E as (w1 & [wr b] & E1 & E). unfold cret in E1. injection E1 as <- Ew.
    destruct (word_shape _ _ _ _ _ Ew) as (Hwr & Hb & Hk & H256).
    apply cbind_inv in E. destruct E as (w1 & r & E1 & E). cbn [fst snd] in E1.
    destruct (honest_write a Hok w x wr [b]) as (r' & E' & _ & R); [subst wr; reflexivity|exact Hx|].
    rewrite E1 in E'. injection E' as -> ->. unfold remove_module_data in E. unfold cret in E. injection E as <- <-.
    cbn [fst snd]. split; [|split].
    - intros i Hi. rewrite failed_merge_bit, Hi. reflexivity.
    - apply sub_remove.
    - intros i. rewrite failed_merge_bit, orb_false_iff, (rrep_failed _ _ _ i R), next_sp. intros [_ F].
      destruct (N.testbit x i) eqn:T.
      + unfold told in F. unfold vd in F. destruct (hs_verdict a (w_sp w) (HWrite x wr) (Some [b]) i) as [y|] eqn:V; [|discriminate].
        apply member_testbit in T. assert (Hby : bytes [b] = true).
        { unfold bytes. cbn [forallb]. unfold u8. change (2 ^ 8) with 256. rewrite (proj2 (N.ltb_lt b 256) H256). reflexivity. }
        destruct (dr_write _ _ Hd _ _ _ _ _ _ Hby T V) as (H1 & _ & H3). split.
        * split; [exact H1|]. intros p. apply H3. unfold reaches. subst wr. unfold soft_place. cbn [wr_offset wr_len].
          destruct (sff_kind id); lia.
        * intros _. split; [exact Hk|]. intros p. destruct (H3 p (wr_offset (soft_place id))) as [H4 _].
          rewrite H4; [subst wr; now rewrite N.sub_diag|]. unfold reaches. subst wr. unfold soft_place. cbn [wr_offset wr_len].
          destruct (sff_kind id); lia.
      + split; [|discriminate]. rewrite (dr_apart _ _ Hd); [apply same_refl|]. rewrite member_testbit. cbn. congruence.
  Qed.

  Lemma live_soft_groups st gs : Forall (fun g : Identifier * ModuleId => mask_ok (snd g) = true) gs -> forall s w w' s',
    mask_ok (fst (fst s)) = true -> soft_groups sp st gs s w = (w', Ok s') ->
    sub (fm_modules (snd s)) (fm_modules (snd s')) /\
    forall i, N.testbit (fm_modules (snd s')) i = false ->
      same (view (w_sp w') i) (view (w_sp w) i) /\
      (gs = [] /\ s' = s \/
       (N.testbit (fst (fst s')) i = true -> exists id mk, In (id, mk) gs /\ N.testbit mk i = true /\
          worded id false st (view (w_sp w') i))).
  Proof.
    induction 1 as [|[id mk] gs Hmk Hgs IH]; intros s w w' s' Hs E.
    - cbn in E. injection E as <- <-. split; [now intros i|]. intros i Hi. split; [apply same_refl|]. now left.
    - cbn [soft_groups] in E. destruct s as [[su mo] fa]. cbn in Hmk, Hs.
      destruct (filter_module_data su mo _) as [wo l1] eqn:E1. destruct (filter_module_data mk mo _) as [wo2 l2] eqn:E2.
      assert (H1 : sub wo su).
      { pose proof (sub_filter su mo (fun i m => m_contains mk i && overridden m)) as K. now rewrite E1 in K. }
      assert (H2 : sub wo2 mk).
      { pose proof (sub_filter mk mo (fun i m => m_contains mk i && negb (overridden m))) as K. now rewrite E2 in K. }
      apply cbind_inv in E. destruct E as (w1 & s1 & A1 & E). apply cbind_inv in E. destruct E as (w2 & s2 & A2 & E).
      apply live_soft_write in A1; [|eapply sub_ok; eauto]. destruct A1 as (F1 & _ & K1).
      apply live_soft_write in A2; [|eapply sub_ok; eauto]. destruct A2 as (F2 & M2 & K2).
      assert (Hs2 : mask_ok (fst (fst s2)) = true) by (eapply sub_ok; [exact M2|]; eapply sub_ok; eauto).
      destruct (IH s2 w2 w' s' Hs2 E) as (F3 & K3). split.
      + cbn [snd] in *. intros i Hi. auto.
      + intros i Hi.
        assert (Hi2 : N.testbit (fm_modules (snd s2)) i = false).
        { destruct (N.testbit (fm_modules (snd s2)) i) eqn:X; [|reflexivity]. apply F3 in X. congruence. }
        assert (Hi1 : N.testbit (fm_modules (snd s1)) i = false).
        { destruct (N.testbit (fm_modules (snd s1)) i) eqn:X; [|reflexivity]. apply F2 in X. congruence. }
        destruct (K1 i Hi1) as [S1 _]. destruct (K2 i Hi2) as [S2 W2]. destruct (K3 i Hi) as [S3 W3].
        split; [eapply same_trans; [exact S3|]; eapply same_trans; eauto|]. right.
        destruct W3 as [[-> ->]|W3].
        * intros Hsu. assert (Hw : N.testbit wo2 i = true) by (apply M2; exact Hsu). exists id, mk. split; [now left|].
          split; [now apply H2|]. cbn in E. injection E as <-. now apply W2.
        * intros Hsu. destruct (W3 Hsu) as (id' & mk' & I1 & I2 & I3). exists id', mk'. split; [now right|]. auto.
  Qed.

  Lemma worded_pin st x : st <> PowerOff -> worded (slot_kind x) false st x ->
    negb (supplied (sl_status x)) || held_in_reset (sl_status x) = false ->
    slot_power x = Some (low_or_high (lpmode_pin (sl_status x))).
  Proof.
    intros Hst [Hk Hc] Hon. unfold slot_power, slot_mode. rewrite Hon. unfold slot_control. unfold supported_kind in Hk.
    unfold soft_place, soft_word in Hc. destruct (sff_kind (slot_kind x)); cbn [wr_offset] in Hc.
    - rewrite (Hc (PageSff SffLower)). destruct st; try congruence; reflexivity.
    - cbn [orb] in Hk. rewrite Hk, (Hc (PageCmis CmisLower)). destruct st; try congruence; reflexivity.
  Qed.

  Lemma live_software pr st w w' r : mask_ok (mr_modules pr) = true -> st <> PowerOff ->
    set_software_power_state sp pr st w = (w', Ok r) ->
    sub (fm_modules (mr_failures pr)) (fm_modules (mr_failures r)) /\
    forall i, N.testbit (fm_modules (mr_failures r)) i = false -> N.testbit (mr_modules r) i = true ->
      N.testbit (mr_modules pr) i = true /\ sl_status (view (w_sp w') i) = sl_status (view (w_sp w) i) /\
      worded (slot_kind (view (w_sp w') i)) false st (view (w_sp w') i).
  Proof.
    intros Hm Hst E. assert (E0 : set_software_power_state sp pr st w =
      cbind (identifier sp (mr_modules pr)) (fun ident =>
      cbind (cret (split_modules_by_identifier (mr_modules ident) (mr_data ident))) (fun groups =>
        let (success, modes) := keep_module_data (mr_modules pr) (mr_data pr) (mr_modules ident) in
        let failures := failed_merge (mr_failures pr) (mr_failures ident) in
        cbind (soft_groups sp st groups (success, modes, failures)) (fun s =>
        cret (Ok (ack_new (fst (fst s)) (snd s)))))) w) by (destruct st; [congruence|reflexivity|reflexivity]).
    rewrite E0 in E. clear E0. apply cbind_inv in E. destruct E as (w1 & ri & E1 & E).
    destruct (live_identifier a view Hok Hd w (mr_modules pr) (fun i => view (w_sp w) i) (fun i => eq_refl) Hm)
      as (ri' & w1' & f & E1' & R & T & V). rewrite E1 in E1'. injection E1' as <- <-.
    apply cbind_inv in E. destruct E as (w1' & gs & Eg & E). unfold cret in Eg. injection Eg as <- Eg.
    destruct (split_groups _ _ (proj1 (proj1 R))) as (gs' & Eg' & (_ & Hg2 & Hg3)). rewrite Eg in Eg'. injection Eg' as <-.
    unfold keep_module_data, remove_module_data in E. set (su := m_remove (mr_modules pr) (not64 (mr_modules ri))) in *.
    set (mo := map snd _) in E. apply cbind_inv in E. destruct E as (w2 & s & E2 & E). unfold cret in E. injection E as <- <-.
    assert (Hri : mask_ok (mr_modules ri) = true) by apply R.
    apply live_soft_groups in E2.
    2:{ apply Forall_forall. intros [k mk] Hin. cbn [snd]. destruct (Hg2 _ _ Hin) as [_ Hb].
        apply mask_ok_testbit. intros i Hi. apply Hb, in_zip_get in Hi.
        apply (proj1 (mask_ok_testbit (mr_modules ri)) Hri). rewrite (testbit_get _ _ i (proj1 (proj1 R))), Hi. reflexivity. }
    2:{ cbn [fst]. now apply mask_ok_remove. }
    destruct E2 as [F2 K2]. cbn [ack_new mr_modules mr_failures snd] in *.
    split. { intros i Hi. apply F2. now rewrite failed_merge_bit, Hi. }
    intros i Hi Hs. destruct (K2 i Hi) as [Sm W].
    assert (Hw : exists id mk, In (id, mk) gs /\ N.testbit mk i = true /\ worded id false st (view (w_sp w2) i)).
    { destruct W as [[Eg0 ->]|W]; [|exact (W Hs)]. exfalso. cbn [fst] in Hs. unfold su in Hs.
      rewrite m_remove_spec, not64_spec in Hs by exact Hm. apply andb_true_iff in Hs. destruct Hs as [Hs1 Hs].
      assert (Hlt : i <? 64 = true) by (apply N.ltb_lt; now apply (proj1 (mask_ok_testbit (mr_modules pr)) Hm)).
      rewrite Hlt in Hs.
      destruct (N.testbit (mr_modules ri) i) eqn:X; [|discriminate Hs].
      rewrite (testbit_get _ _ i (proj1 (proj1 R))) in X.
      destruct (get (mr_modules ri) (mr_data ri) i) as [k|] eqn:G; [|discriminate].
      apply in_zip_get in G. destruct (Hg3 _ _ G) as [mk Hin]. rewrite Eg0 in Hin. destruct Hin. }
    destruct Hw as (id & mk & Hin & Hmk & Hw).
    destruct (Hg2 _ _ Hin) as [_ Hb]. apply Hb, in_zip_get in Hmk.
    destruct (rrep_true _ _ _ _ i id R T Hmk) as [Hpr Hid].
    destruct Sm as [Sm1 Sm2]. rewrite V in Sm1. split; [exact Hpr|]. split; [exact Sm1|].
    unfold slot_kind, kind_of, sff_low. rewrite (Sm2 (PageSff SffLower)), V. unfold slot_kind, kind_of, sff_low in Hid. now rewrite <- Hid.
  Qed.

  Lemma live_status w m w' r : mask_ok m = true -> ctl_status sp m w = (w', Ok r) ->
    (forall i, N.testbit (mr_modules r) i = true -> N.testbit m i = true) /\ aligned (mr_modules r) (mr_data r) /\
    (forall i x, get (mr_modules r) (mr_data r) i = Some x -> x = sl_status (view (w_sp w) i)) /\
    (forall i, view (w_sp w') i = view (w_sp w) i).
  Proof.
    intros Hm E. destruct (honest_status a Hok w m Hm) as (r' & E' & _ & R). rewrite E in E'. injection E' as -> ->.
    split; [|split; [apply R|split]].
    - intros i. rewrite (rrep_modules _ _ _ i R). now destruct (N.testbit m i).
    - intros i x Hx. eapply (rrep_true _ _ _ (fun i x => x = sl_status (view (w_sp w) i))) in Hx; [exact (proj2 Hx)|exact R|].
      apply told_true. intros j y Hj Hy. apply (dr_status _ _ Hd) in Hy; [|now apply member_testbit]. subst y. reflexivity.
    - intros i. rewrite next_sp. now apply (dr_look _ _ Hd).
  Qed.

  Lemma live_set_power_on m st w w' r : mask_ok m = true -> st <> PowerOff -> set_power_on sp m st w = (w', Ok r) ->
    forall i, N.testbit (fm_modules (mr_failures r)) i = false -> N.testbit (mr_modules r) i = true ->
      slot_power (view (w_sp w') i) = Some st.
  Proof.
    intros Hm Hst E i Hf Hs. unfold set_power_on in E.
    apply cbind_inv in E. destruct E as (w1 & p & E1 & E).
    assert (Hp : sub (mr_modules p) m).
    { destruct (in_power sp (honest_scoped a) m w) as (_ & _ & _ & K). rewrite E1 in K. exact (proj1 (K p eq_refl)). }
    assert (Hpm : mask_ok (mr_modules p) = true) by (eapply sub_ok; eauto).
    destruct (_ && _); [discriminate|].
    apply cbind_inv in E. destruct E as (w2 & s & E2 & E).
    destruct (live_status _ _ _ _ Hpm E2) as (Hs1 & Hal & Hst2 & Hv2).
    assert (Hsm : mask_ok (mr_modules s) = true) by apply Hal.
    destruct (filter_module_data (mr_modules s) (mr_data s) (fun _ s => negb _ || _)) as [npe l1] eqn:EF.
    destruct (filter_eq _ _ _ _ _ Hsm EF) as [Aln Gn].
    destruct (filter_module_data (mr_modules s) (mr_data s) (fun _ s => st_contains s ST_RESET)) as [nrd l2].
    set (f0 := failed_merge (mr_failures p) (mr_failures s)) in *. clearbody f0.
    set (npbnr := m_remove npe nrd) in *.
    assert (Hnpe : mask_ok npe = true) by apply Aln.
    assert (Hnb : sub npbnr npe) by apply sub_remove.
    (* modules that need no power are on *)
    assert (Hon : forall j, N.testbit (mr_modules s) j = true -> N.testbit npe j = false ->
              negb (supplied (sl_status (view (w_sp w1) j))) || held_in_reset (sl_status (view (w_sp w1) j)) = false).
    { intros j Hj Hn. rewrite (testbit_get _ _ j Hal) in Hj. destruct (get (mr_modules s) (mr_data s) j) as [x|] eqn:G; [|discriminate].
      pose proof (Hst2 _ _ G) as ->. rewrite (testbit_get _ _ j Aln), Gn, G in Hn.
      rewrite contains_supplied, contains_reset in Hn. destruct (_ || _); [discriminate|reflexivity]. }
    apply cbind_inv in E. destruct E as (w3 & s1 & E3 & E).
    apply cbind_inv in E. destruct E as (w4 & s2 & E4 & E).
    apply cbind_inv in E. destruct E as (w5 & l & E5 & E).
    set (f3 := failed_merge (snd s2) (mr_failures l)) in *.
    apply cbind_inv in E. destruct E as (w6 & s4 & E6 & E).
    unfold keep_module_data, remove_module_data in E.
    destruct (N.eqb_spec npe 0) as [Hz|Hz].
    - (* nothing to power *)
      subst npe. assert (Hz1 : Nat.ltb 0 (m_count 0) = false) by reflexivity. rewrite Hz1 in E4, E6.
      assert (Hz2 : npbnr = 0).
      { apply mask_ext. intros j. rewrite N.bits_0. destruct (N.testbit npbnr j) eqn:X; [|reflexivity]. apply Hnb in X. now rewrite N.bits_0 in X. }
      rewrite Hz2, Hz1 in E3. injection E3 as <- <-. injection E4 as <- <-. injection E6 as <- <-. cbn [fst snd] in *.
      assert (L : is_power_pin (lpmode_request st (mr_modules s)) = true /\ request_modules (lpmode_request st (mr_modules s)) = mr_modules s /\
                  no_payload_request sp (lpmode_request st (mr_modules s)) w2 = (w5, Ok l)) by (destruct st; repeat split; try congruence; exact E5).
      destruct L as (L1 & L2 & L3). apply live_pin in L3; [|exact L1|rewrite L2; exact Hsm]. rewrite L2 in L3. destruct L3 as [M5 T5].
      apply live_software in E; [|cbn [mr_modules]; apply mask_ok_testbit; intros j; rewrite M5; intros Hj; apply andb_true_iff in Hj; apply (proj1 (mask_ok_testbit _) Hsm); tauto|exact Hst].
      cbn [mr_modules mr_failures] in E. destruct E as [F6 K6]. destruct (K6 i Hf Hs) as (I1 & I2 & I3).
      assert (Hf5 : N.testbit (fm_modules (mr_failures l)) i = false).
      { destruct (N.testbit (fm_modules (mr_failures l)) i) eqn:X; [|reflexivity]. rewrite (F6 i) in Hf; [discriminate|].
        unfold f3. now rewrite failed_merge_bit, X, orb_true_r. }
      rewrite M5, Hf5, andb_true_r in I1. specialize (T5 i Hf5). rewrite I1, Hv2 in T5. specialize (Hon i I1 (N.bits_0 _)).
      unfold tri, eff in T5. rewrite <- I2 in T5. injection T5 as X1 X2 X3.
      rewrite (worded_pin st); [|exact Hst|exact I3|]; rewrite ?X1, ?X2, ?X3.
      + destruct st; [congruence|reflexivity|reflexivity].
      + rewrite <- Hon. destruct st; reflexivity.
    - (* some modules are powered *)
      assert (Hc : Nat.ltb 0 (m_count npe) = true).
      { destruct (m_count npe) eqn:X; [|reflexivity]. apply count0 in X; [contradiction|exact Hnpe]. }
      rewrite Hc in E4, E6.
      apply cbind_inv in E4. destruct E4 as (w4' & en & A4 & E4). injection E4 as <- <-. cbn [fst snd] in *.
      apply cbind_inv in E6. destruct E6 as (w6' & de & A6 & E6). apply cbind_inv in E6. destruct E6 as (w6'' & u & A7 & E6).
      injection A7 as <- _. injection E6 as <- <-. cbn [fst snd] in *.
      assert (W6 : forall j, view (w_sp (mkWorld (w_sp w6') (w_counter w6') (w_log w6' ++ [ASleep T_RESET]))) j = view (w_sp w6') j) by reflexivity.
      apply live_pin in A4; [|reflexivity|exact Hnpe]. destruct A4 as [M4 T4]. cbn [request_modules] in M4, T4.
      assert (Hen : mask_ok (mr_modules en) = true).
      { apply (sub_ok _ npe); [|exact Hnpe]. intros j. rewrite M4. now destruct (N.testbit npe j). }
      assert (L : is_power_pin (lpmode_request st (mr_modules en)) = true /\ request_modules (lpmode_request st (mr_modules en)) = mr_modules en /\
                  no_payload_request sp (lpmode_request st (mr_modules en)) w4' = (w5, Ok l)) by (destruct st; repeat split; try congruence; exact E5).
      destruct L as (L1 & L2 & L3). apply live_pin in L3; [|exact L1|rewrite L2; exact Hen]. rewrite L2 in L3. destruct L3 as [M5 T5].
      apply live_pin in A6; [|reflexivity|exact Hnpe]. destruct A6 as [M6 T6]. cbn [request_modules] in M6, T6.
      apply live_software in E; [|cbn [mr_modules]; apply (sub_ok _ npe); [intros j; rewrite M6; now destruct (N.testbit npe j)|exact Hnpe]|exact Hst].
      cbn [mr_modules mr_failures] in E. destruct E as [F7 K7]. destruct (K7 i Hf Hs) as (I1 & I2 & I3). rewrite W6 in I2.
      assert (Hff : N.testbit (fm_modules (failed_merge f3 (mr_failures de))) i = false).
      { destruct (N.testbit (fm_modules (failed_merge f3 (mr_failures de))) i) eqn:X; [|reflexivity]. rewrite (F7 i X) in Hf. discriminate. }
      unfold f3 in Hff. rewrite !failed_merge_bit, !orb_false_iff in Hff. destruct Hff as [[[_ F4] F5] F6].
      rewrite M6, F6, andb_true_r in I1.
      specialize (M4 i). specialize (M5 i). rewrite I1, F4 in M4. cbn in M4. rewrite M4, F5 in M5. cbn in M5.
      specialize (T4 i F4). specialize (T5 i F5). specialize (T6 i F6). rewrite I1 in T4, T6. rewrite M4 in T5.
      rewrite T5, T4 in T6. unfold tri, eff in T6. rewrite <- I2 in T6.
      assert (X : supplied (sl_status (view (w_sp w') i)) = true /\ held_in_reset (sl_status (view (w_sp w') i)) = false /\
                  lpmode_pin (sl_status (view (w_sp w') i)) = match st with PowerLow => true | _ => false end).
      { destruct st; [congruence| |]; cbn in T6; injection T6 as X1 X2 X3; auto. }
      destruct X as (X1 & X2 & X3).
      rewrite (worded_pin st); [|exact Hst|exact I3|rewrite X1, X2; reflexivity]. rewrite X3.
      destruct st; [congruence|reflexivity|reflexivity].
  Qed.

  Lemma live_set_power_off m w w' r : mask_ok m = true -> set_power_off sp m w = (w', Ok r) ->
    forall i, N.testbit (mr_modules r) i = true -> slot_power (view (w_sp w') i) = Some PowerOff.
  Proof.
    intros Hm E i Hs. unfold set_power_off in E.
    apply cbind_inv in E. destruct E as (w1 & x & E1 & E). apply live_pin in E1; [|reflexivity|exact Hm]. destruct E1 as [M1 _].
    cbn [request_modules] in M1.
    assert (H1 : mask_ok (mr_modules x) = true) by (apply (sub_ok _ m); [intros j; rewrite M1; now destruct (N.testbit m j)|exact Hm]).
    apply cbind_inv in E. destruct E as (w2 & y & E2 & E). apply live_pin in E2; [|reflexivity|exact H1]. destruct E2 as [M2 _].
    cbn [request_modules] in M2.
    assert (H2 : mask_ok (mr_modules y) = true) by (apply (sub_ok _ (mr_modules x)); [intros j; rewrite M2; now destruct (N.testbit (mr_modules x) j)|exact H1]).
    apply cbind_inv in E. destruct E as (w3 & z & E3 & E). apply live_pin in E3; [|reflexivity|exact H2]. destruct E3 as [M3 T3].
    cbn [request_modules] in M3, T3.
    injection E as <- <-. cbn [mr_modules] in Hs. rewrite M3 in Hs. apply andb_true_iff in Hs. destruct Hs as [S1 S2].
    apply negb_true_iff in S2. specialize (T3 i S2). rewrite S1 in T3. unfold tri, eff in T3. injection T3 as X1 _ _.
    unfold slot_power, slot_mode. now rewrite X1.
  Qed.

  Lemma live_set_power w m st r : m < 2 ^ 64 -> snd (set_power sp m st w) = Ok r ->
    forall i, succeeded r i -> ~ failed r i -> slot_power (seen_after view (set_power sp m st) w i) = Some st.
  Proof.
    intros Hm E i. unfold succeeded, failed, seen_after. rewrite !member_testbit. intros Hs Hf. apply mask_ok_lt in Hm.
    apply not_true_iff_false in Hf. destruct (set_power sp m st w) as [w' o] eqn:X. cbn [fst snd] in *. subst o.
    destruct st; cbn [set_power] in X.
    - eapply live_set_power_off; eauto.
    - eapply live_set_power_on; eauto; discriminate.
    - eapply live_set_power_on; eauto; discriminate.
  Qed.
End Power.
