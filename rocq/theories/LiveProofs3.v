(** Proofs that answers are what is there, and that what is written is there (C75, C76). *)
From Verif Require Import MainProofs2 ControllerProofs9 QueryProofs DecodeProofs DecodeProofs2 DecodeProofs3 DecodeProofs4 DecodeProofs7 DecodeProofs8 DecodeProofs9.
From Verif Require Export LiveProofs2.
From Verif Require Import Tac Spec ModuleIdProofs ModuleIdProps ResultsProofs ControllerProofs ControllerProofs3
  ControllerProofs4 ControllerProofs5 ControllerProofs6 ControllerProofs7 ScopeProofs ScopeProofs2.

Lemma nth_nrange s n k d : (k < n)%nat -> nth k (nrange s n) d = s + N.of_nat k.
Proof.
  revert s k. induction n as [|n IH]; intros s [|k] H; cbn [nrange nth]; try lia. rewrite IH by lia. lia.
Qed.

Section Truth.
  Context {St : Type} (a : honest St) (view : St -> N -> slot) (Hok : honest_ok a) (Hd : drives a view).
  Implicit Type w : world St.
  Local Notation sp := (honest_sp a).

  (** ** Queries *)
  Section Query.
    Context {P : Type} (reads : Identifier -> outcome DecodeError (list MemoryRead))
            (parse : Identifier -> list (list N) -> outcome DecodeError P)
            (Hlen : forall id rds, reads id = Ok rds -> Forall (fun rd => 1 <= rd_len rd <= 255) rds).
    Context (V : N -> slot) (asked : N).
    Definition holds (i : N) (x : P) : Prop :=
      N.testbit asked i = true /\
      exists rds, reads (slot_kind (V i)) = Ok rds /\ parse (slot_kind (V i)) (map (contents (sl_cell (V i))) rds) = Ok x.
    Definition tells (m : N) (rd : MemoryRead) (r : Result (list N)) : Prop :=
      exists f, rrep m f r /\ true_to m f (own_bytes rd V).

    Lemma live_each m rds : mask_ok m = true -> Forall (fun rd => 1 <= rd_len rd <= 255) rds -> forall w w' rs,
      (forall i, view (w_sp w) i = V i) -> read_each sp m rds w = (w', Ok rs) ->
      Forall2 (tells m) rds rs /\ forall i, view (w_sp w') i = V i.
    Proof.
      intros Hm Hl. induction Hl as [|rd rds Hrd Hrds IH]; intros w w' rs Hv E; cbn [read_each] in E.
      - injection E as <- <-. split; [constructor|exact Hv].
      - apply cbind_inv in E. destruct E as (w1 & r & E1 & E). apply cbind_inv in E. destruct E as (w2 & rs' & E2 & E).
        injection E as <- <-.
        destruct (live_read_impl a view Hok Hd rd Hrd w m V Hv Hm) as (r' & w1' & f & E1' & R & T & V1).
        rewrite E1 in E1'. injection E1' as <- <-. destruct (IH _ _ _ V1 E2) as [F V2].
        split; [|exact V2]. constructor; [|exact F]. exists f. auto.
    Qed.
    Lemma told_data m i rds rs : N.testbit m i = true -> Forall2 (tells m) rds rs -> forall ds,
      omapM (fun r => @opt_unwrap Error _ (result_nth r i)) rs = Ok ds -> ds = map (contents (sl_cell (V i))) rds.
    Proof.
      intros Hi F. induction F as [|rd r rds rs (f & R & T) _ IH]; intros ds E.
      - cbn in E. now injection E as <-.
      - cbn [omapM] in E. rewrite result_nth_get in E. destruct (rget r i) as [x|] eqn:G; [|discriminate].
        cbn [opt_unwrap obind] in E. revert E IH. match goal with |- context [omapM ?g rs] => destruct (omapM g rs) as [ds'| |] end; intros E IH; cbn [obind] in E; try discriminate.
        injection E as <-. cbn [map]. f_equal; [|now apply IH].
        destruct (rrep_true _ _ _ _ i x R T G) as [_ K]. exact K.
    Qed.

    Record keyed (pend : list N) (s : parsing P) : Prop := {
      k_ok : mask_ok (ps_modules s) = true;
      k_sorted : StronglySorted N.lt (map fst (ps_data s));
      k_mods : forall i, N.testbit (ps_modules s) i = true <-> In i (map fst (ps_data s)) \/ In i pend;
      k_nodup : NoDup pend;
      k_disj : forall i, In i (map fst (ps_data s)) -> ~ In i pend;
      k_good : forall i x, lookup i (ps_data s) = Some x -> holds i x }.

    Lemma keyed_fail s i e pend s' : keyed (i :: pend) s -> parse_fail s i e = Ok s' -> keyed pend s'.
    Proof.
      intros [H1 H2 H3 H4 H5 H6]. unfold parse_fail, m_clear, m_set, MAX_INDEX. destruct (64 <=? i); [discriminate|].
      cbn [ounwrap obind]. intros [= <-]. inversion H4 as [|? ? N1 N2]; subst.
      constructor; cbn [ps_modules ps_data]; auto.
      - now apply (mask_ok_remove _ (N.shiftl 1 i)).
      - intros j. change (N.land (ps_modules s) (not64 (N.shiftl 1 i))) with (m_remove (ps_modules s) (N.shiftl 1 i)).
        rewrite m_remove_spec, shiftl_bit, andb_true_iff, H3, negb_true_iff, N.eqb_neq by exact H1. split.
        + intros [[K|[K|K]] Hj]; [now left|congruence|now right].
        + intros [K|K].
          * split; [now left|]. intros ->. apply (H5 _ K). now left.
          * split; [right; now right|]. congruence.
      - intros j K L. apply (H5 _ K). now right.
    Qed.
    Lemma keyed_ok s i x pend : keyed (i :: pend) s -> holds i x ->
      keyed pend (mkParsing (ps_modules s) (ps_failed s) (ps_errors s) (index_insert i x (ps_data s))).
    Proof.
      intros [H1 H2 H3 H4 H5 H6] Hx. destruct (index_insert_spec i x _ H2) as (S & L & I).
      inversion H4 as [|? ? N1 N2]; subst. constructor; cbn [ps_modules ps_data]; auto.
      - intros j. rewrite H3, I. cbn [In]. split; intros K; intuition congruence.
      - intros j. rewrite I. intros [->|K] K'; [exact (N1 K')|]. apply (H5 _ K). now right.
      - intros j y. rewrite L. destruct (N.eqb_spec j i) as [->|]; [now intros [= <-]|apply H6].
    Qed.
    Lemma live_parse_each id mk rds rs : reads id = Ok rds -> Forall2 (tells mk) rds rs -> forall l pend s s',
      (forall i, In i l -> N.testbit mk i = true /\ N.testbit asked i = true /\ id = slot_kind (V i)) -> keyed (l ++ pend) s ->
      parse_each parse id rs l s = Ok s' -> keyed pend s'.
    Proof.
      intros Hr F. induction l as [|i l IH]; intros pend s s' Hl K E; cbn [parse_each app] in *.
      - now injection E as <-.
      - destruct (parse_one parse id rs s i) as [s1| |] eqn:E1; cbn [obind] in E; try discriminate.
        destruct (Hl i (or_introl eq_refl)) as (Hi & Ha & Hid).
        eapply IH; [|clear E|exact E]; [intros j Hj; apply Hl; now right|].
        unfold parse_one in E1. destruct (first_err rs i) as [e|]; [eapply keyed_fail; eauto|].
        revert E1. match goal with |- context [omapM ?g rs] => destruct (omapM g rs) as [ds| |] eqn:Ed end; intros E1; cbn [obind] in E1; try discriminate.
        pose proof (told_data mk i rds rs Hi F ds Ed) as ->.
        destruct (parse id _) as [x|e|] eqn:Ep; [|eapply keyed_fail; eauto|discriminate].
        injection E1 as <-. apply keyed_ok; [exact K|]. split; [exact Ha|]. exists rds. rewrite <- Hid. auto.
    Qed.
    Lemma live_groups gs : forall w w' s s' ,
      Forall (fun g => mask_ok (snd g) = true /\ forall i, N.testbit (snd g) i = true -> N.testbit asked i = true /\ fst g = slot_kind (V i)) gs ->
      (forall i, view (w_sp w) i = V i) -> keyed (concat (map (fun g => to_indices (snd g)) gs)) s ->
      parse_groups sp reads parse gs s w = (w', Ok s') -> keyed [] s' /\ forall i, view (w_sp w') i = V i.
    Proof.
      induction gs as [|[id mk] gs IH]; intros w w' s s' Hg Hv K E; cbn [parse_groups] in E.
      - injection E as <- <-. auto.
      - pose proof (Forall_inv Hg) as [Hm Hid]. apply Forall_inv_tail in Hg. cbn [fst snd] in *.
        apply cbind_inv in E. destruct E as (w1 & rds & E1 & E). injection E1 as <- E1.
        destruct (reads id) as [rds'| |] eqn:Er; cbn in E1; try discriminate. injection E1 as ->.
        apply cbind_inv in E. destruct E as (w1 & rs & E1 & E). destruct (live_each mk rds Hm (Hlen _ _ Er) _ _ _ Hv E1) as [F V1].
        apply cbind_inv in E. destruct E as (w2 & s1 & E2 & E). injection E2 as <- E2.
        eapply IH; [exact Hg|exact V1| |exact E]. cbn [map concat snd] in K.
        eapply live_parse_each; [exact Er|exact F| |exact K|exact E2].
        intros i Hi. apply in_to_indices in Hi. split; [tauto|]. apply Hid. tauto.
    Qed.
    Lemma live_query w w' r : mask_ok asked = true -> (forall i, view (w_sp w) i = V i) ->
      parse_modules_by_identifier sp reads parse asked w = (w', Ok r) ->
      aligned (mr_modules r) (mr_data r) /\ (forall i x, rget r i = Some x -> holds i x) /\
      forall i, view (w_sp w') i = V i.
    Proof.
      intros Hm Hv E. unfold parse_modules_by_identifier in E. apply cbind_inv in E. destruct E as (w1 & ri & E1 & E).
      destruct (live_identifier a view Hok Hd w asked V Hv Hm) as (ri' & w1' & f & E1' & R & T & V1).
      rewrite E1 in E1'. injection E1' as <- <-. pose proof R as [[Ai _] _].
      apply cbind_inv in E. destruct E as (w1' & gs & Eg & E). injection Eg as <- Eg.
      destruct (split_groups _ _ Ai) as (gs' & Eg' & Hgs). rewrite Eg in Eg'. injection Eg' as <-.
      apply cbind_inv in E. destruct E as (w2 & s & E2 & E). injection E as <- <-.
      assert (Hz : forall i x, In (i, x) (zip_data (mr_modules ri) (mr_data ri)) -> N.testbit asked i = true /\ x = slot_kind (V i)).
      { intros i x Hx. apply in_zip_get in Hx. exact (rrep_true _ _ _ _ i x R T Hx). }
      assert (H64 : Forall (fun p : N * Identifier => fst p < 64) (zip_data (mr_modules ri) (mr_data ri))).
      { apply Forall_forall. intros [i x] H. apply Hz in H. cbn. apply (proj1 (mask_ok_testbit asked) Hm). tauto. }
      destruct (groups_nodup reads parse (fun _ _ => inr 0) _ gs Hgs (zip_nodup _ _) H64) as (Gd & Gi & _). destruct Hgs as (_ & Hg2 & _).
      apply live_groups in E2; [|clear E2|exact V1|clear E2].
      - destruct E2 as [[k1 k2 k3 k4 k5 k6] V2].
        assert (Key : map fst (ps_data s) = to_indices (ps_modules s)).
        { apply sorted_lt_ext; [exact k2|apply to_indices_sorted|]. intros i. rewrite in_to_indices_ok by exact k1.
          rewrite k3. cbn. tauto. }
        destruct (aligned_of_assoc (ps_modules s) (ps_data s) k1 Key) as [Al Zl].
        split; [exact Al|]. split; [|exact V2]. intros i x. unfold rget, get. cbn [mr_modules mr_data]. rewrite Zl.
        apply k6.
      - apply Forall_forall. intros [k mk] Hin. cbn [fst snd]. destruct (Hg2 _ _ Hin) as [_ Hb]. split.
        + eapply group_mask_lt; [exact Hb|exact H64].
        + intros i Hi. apply Hb, Hz in Hi. tauto.
      - constructor; cbn [ps_modules ps_data map].
        + apply Ai.
        + constructor.
        + intros i. rewrite Gi, (testbit_get _ _ i Ai). rewrite in_map_iff. split.
          * destruct (get _ _ i) as [x|] eqn:G; [|discriminate]. intros _. right. exists (i, x). split; [reflexivity|]. now apply in_zip_get.
          * intros [[]|([j x] & <- & Hx)]. apply in_zip_get in Hx. cbn [fst]. now rewrite Hx.
        + exact Gd.
        + intros i [].
        + discriminate.
    Qed.
  End Query.

  Lemma control_there V m i c : holds power_reads power_parse V m i c -> slot_control (V i) = Some c.
  Proof.
    intros (_ & rds & Hr & Hp). unfold power_reads in Hr. unfold power_parse in Hp. unfold slot_control.
    change (sff_kind (slot_kind (V i))) with (is_sff (slot_kind (V i))).
    change (cmis_kind (slot_kind (V i))) with (is_cmis (slot_kind (V i))).
    destruct (is_sff (slot_kind (V i))) eqn:Es.
    - change (read_new (PageSff SffLower) 93 1) with (@Ok MgmtError _ (mkRead (PageSff SffLower) 93 1)) in Hr.
      cbn [ounwrap obind] in Hr. injection Hr as <-.
      change (map (contents (sl_cell (V i))) [mkRead (PageSff SffLower) 93 1]) with [[sl_cell (V i) (PageSff SffLower) 93]] in Hp.
      cbn [first_byte obind] in Hp. revert Hp. change 1 with (2 ^ 0). change 2 with (2 ^ 1). rewrite !land_pow2.
      rewrite negb_involutive. now destruct (N.testbit _ 0); intros [= <-].
    - destruct (is_cmis (slot_kind (V i))) eqn:Ec; [|discriminate].
      change (read_new (PageCmis CmisLower) 26 1) with (@Ok MgmtError _ (mkRead (PageCmis CmisLower) 26 1)) in Hr.
      cbn [ounwrap obind] in Hr. injection Hr as <-.
      change (map (contents (sl_cell (V i))) [mkRead (PageCmis CmisLower) 26 1]) with [[sl_cell (V i) (PageCmis CmisLower) 26]] in Hp.
      cbn [first_byte obind] in Hp. revert Hp. change 64 with (2 ^ 6). change 16 with (2 ^ 4). rewrite !land_pow2.
      rewrite !negb_involutive. now destruct (N.testbit _ 6); intros [= <-].
  Qed.
  Lemma power_lengths id rds : power_reads id = Ok rds -> Forall (fun rd => 1 <= rd_len rd <= 255) rds.
  Proof.
    unfold power_reads. destruct (is_sff id).
    - change (read_new (PageSff SffLower) 93 1) with (@Ok MgmtError _ (mkRead (PageSff SffLower) 93 1)).
      cbn [ounwrap obind]. intros [= <-]. repeat constructor; discriminate.
    - destruct (is_cmis id); [|discriminate].
      change (read_new (PageCmis CmisLower) 26 1) with (@Ok MgmtError _ (mkRead (PageCmis CmisLower) 26 1)).
      cbn [ounwrap obind]. intros [= <-]. repeat constructor; discriminate.
  Qed.

  Lemma live_power w m w' r : mask_ok m = true -> power sp m w = (w', Ok r) ->
    aligned (mr_modules r) (mr_data r) /\
    forall i x, rget r i = Some x -> N.testbit m i = true /\ slot_mode (view (w_sp w) i) = Some x.
  Proof.
    intros Hm E. unfold power in E. apply cbind_inv in E. destruct E as (w1 & s & E1 & E).
    destruct (live_status a view Hok Hd _ _ _ _ Hm E1) as (Hsm & As & Hst & V1).
    set (V := view (w_sp w)) in *.
    destruct (filter_module_data (mr_modules s) (mr_data s) _) as [powered pst] eqn:EP.
    destruct (filter_eq _ _ _ _ _ (proj1 As) EP) as [Ap Gp].
    destruct (filter_module_data powered pst _) as [in_reset irst] eqn:ER.
    destruct (filter_eq _ _ _ _ _ (proj1 Ap) ER) as [Ar Gr].
    destruct (remove_module_data powered pst in_reset) as [rdb rst] eqn:ED.
    destruct (remove_eq _ _ _ _ _ Ap ED) as [Ad Gd].
    apply cbind_inv in E. destruct E as (w2 & r2 & E2 & E).
    (* the readable ones are on *)
    assert (On : forall i x, get rdb rst i = Some x ->
              N.testbit m i = true /\ x = sl_status (V i) /\ supplied x = true /\ held_in_reset x = false).
    { intros i x. rewrite Gd, (testbit_get _ _ i Ar), Gr, Gp. destruct (get (mr_modules s) (mr_data s) i) as [y|] eqn:G; [|discriminate].
      rewrite contains_supplied. destruct (supplied y) eqn:Sy; [|discriminate]. rewrite contains_reset.
      destruct (held_in_reset y) eqn:Hy; [discriminate|]. intros [= <-]. split; [|split; [now apply Hst|auto]].
      apply Hsm. rewrite (testbit_get _ _ i As), G. reflexivity. }
    assert (Inner : aligned (mr_modules r2) (mr_data r2) /\
              forall i x, rget r2 i = Some x -> N.testbit m i = true /\ slot_mode (V i) = Some x).
    { destruct (Nat.eqb (m_count rdb) 0).
      - injection E2 as <- <-. split; [split; reflexivity|]. intros i x. unfold rget, get. cbn [result_default mr_modules mr_data zip_data].
        intros H. apply lookup_in in H. unfold zip_data in H. apply in_combine_r in H. destruct H.
      - apply cbind_inv in E2. destruct E2 as (w3 & rc & E3 & E2).
        apply (live_query power_reads power_parse power_lengths V rdb) in E3; [|apply Ad|exact V1].
        destruct E3 as (Ac & Hc & _).
        destruct (filter_module_data rdb rst _) as [mm rs'] eqn:EF. injection E2 as _ <-.
        destruct (filter_eq _ _ _ _ _ (proj1 Ad) EF) as [Af Gf].
        assert (mm = mr_modules rc).
        { apply mask_ext. intros i. rewrite (testbit_get _ _ i Af), Gf. rewrite m_contains_testbit by apply Ac.
          destruct (N.testbit (mr_modules rc) i) eqn:Ti.
          - rewrite (testbit_get _ _ i Ac) in Ti. destruct (get (mr_modules rc) (mr_data rc) i) as [c|] eqn:Gc; [|discriminate].
            destruct (Hc i c Gc) as [Ta _]. rewrite (testbit_get _ _ i Ad) in Ta. destruct (get rdb rst i); [reflexivity|discriminate].
          - now destruct (get rdb rst i). }
        subst mm.
        pose proof (fun i => get_map_combine (fun p => power_mode_of (fst p) (snd p)) _ _ _ i Ac Af) as G.
        split; [exact (proj1 (G 0))|]. intros i x. unfold rget. cbn [mr_modules mr_data]. rewrite (proj2 (G i)).
        destruct (get (mr_modules rc) (mr_data rc) i) as [c|] eqn:Gc; [|discriminate].
        rewrite Gf. destruct (get rdb rst i) as [y|] eqn:Gy; [|discriminate].
        destruct (On i y Gy) as (H1 & -> & H3 & H4). destruct (m_contains _ _); [|discriminate]. intros [= <-].
        split; [exact H1|]. unfold slot_mode. rewrite H3, H4. cbn [negb orb fst snd].
        rewrite (control_there V rdb i c (Hc i c Gc)). unfold power_mode_of, low_or_high.
        destruct c; [|reflexivity]. now rewrite contains_lpmode. }
    destruct Inner as [A2 H2].
    set (off := m_merge (m_remove (mr_modules s) powered) in_reset) in *.
    assert (Oo : mask_ok off = true).
    { unfold off, m_merge. rewrite mask_ok_lor, (mask_ok_remove _ powered (proj1 As)). apply Ar. }
    assert (Em : merge_module_data off (repeat power_mode_default 64) (mr_modules r2) (mr_data r2) =
                 merge_module_data off (repeat power_mode_default (m_count off)) (mr_modules r2) (mr_data r2)).
    { unfold merge_module_data. now rewrite (zip_repeat64 off). }
    rewrite Em in E. clear Em.
    destruct (merge_module_data off _ (mr_modules r2) (mr_data r2)) as [am ad] eqn:EM. injection E as _ <-.
    destruct (merge_eq _ _ _ _ _ _ (aligned_repeat off power_mode_default Oo) A2 EM) as [Aa Ga].
    split; [exact Aa|]. intros i x. unfold rget. cbn [mr_modules mr_data]. rewrite Ga.
    destruct (get (mr_modules r2) (mr_data r2) i) as [y|] eqn:Gy; [intros [= <-]; now apply H2|].
    rewrite get_repeat by exact Oo. destruct (N.testbit off i) eqn:To; [|discriminate]. intros [= <-].
    unfold off in To. rewrite m_merge_spec, m_remove_spec in To by apply As.
    assert (K : exists y, get (mr_modules s) (mr_data s) i = Some y /\ (negb (supplied y) || held_in_reset y) = true).
    { revert To. rewrite (testbit_get _ _ i As), (testbit_get _ _ i Ap), (testbit_get _ _ i Ar), Gr, Gp.
      destruct (get (mr_modules s) (mr_data s) i) as [y|]; [|discriminate]. intros To. exists y. split; [reflexivity|].
      rewrite contains_supplied in To. destruct (supplied y); [|reflexivity]. rewrite contains_reset in To.
      destruct (held_in_reset y); [reflexivity|discriminate]. }
    destruct K as (y & Gs & K). pose proof (Hst _ _ Gs) as ->. split.
    - apply Hsm. now rewrite (testbit_get _ _ i As), Gs.
    - unfold slot_mode. now rewrite K.
  Qed.

  Lemma live_leds w m r : m < 2 ^ 64 -> snd (leds sp m w) = Ok r ->
    forall i x, succeeds r i x -> member i m /\ x = sl_led (view (w_sp w) i).
  Proof.
    intros Hm E i x Hx. destruct (honest_leds a Hok m Hm w) as (r' & E' & R).
    { intros j d Hj Hv. apply (dr_led _ _ Hd) in Hv; [|exact Hj]. subst d. now destruct (sl_led _). }
    rewrite E in E'. injection E' as <-. apply rrep_reports in R. apply succeeds_get in Hx.
    eapply (rrep_true m _ r (fun i x => x = sl_led (view (w_sp w) i))) in Hx; [|exact R|].
    - rewrite member_testbit. exact Hx.
    - apply told_true. intros j d Hj Hv. apply (dr_led _ _ Hd) in Hv; [|now apply member_testbit]. subst d. now destruct (sl_led _).
  Qed.

  Lemma live_ctl_read w m rd r : m < 2 ^ 64 -> rd_len rd <= 255 -> snd (ctl_read sp m rd w) = Ok r ->
    forall i x, succeeds r i x -> member i m /\ x = contents (sl_cell (view (w_sp w) i)) rd.
  Proof.
    intros Hm Hl E i x Hx. apply mask_ok_lt in Hm. apply succeeds_get in Hx. rewrite member_testbit.
    destruct (ctl_read sp m rd w) as [w' o] eqn:X. cbn [snd] in E. subst o. unfold ctl_read in X.
    destruct (Nat.eqb_spec (m_count m) 0) as [Hz|Hz]; cbn [orb] in X.
    { exfalso. unfold result_success in X. rewrite Hz in X. cbn in X. injection X as _ <-.
      apply lookup_in in Hx. unfold zip_data in Hx. apply in_combine_r in Hx. destruct Hx. }
    destruct (N.eqb_spec (rd_len rd) 0) as [Hz'|Hz'].
    { exfalso. unfold result_success in X. destruct (Nat.eqb_spec (m_count m) (length (@nil (list N)))); [contradiction|]. discriminate. }
    apply cbind_inv in X. destruct X as (w1 & ri & E1 & X).
    destruct (live_identifier a view Hok Hd w m _ (fun i => eq_refl) Hm) as (ri' & w1' & f & E1' & R & _ & V1).
    rewrite E1 in E1'. injection E1' as <- <-.
    apply cbind_inv in X. destruct X as (w1' & u & Ev & X). injection Ev as <- _.
    apply cbind_inv in X. destruct X as (w2 & rr & E2 & X). injection X as _ <-.
    destruct (live_read_impl a view Hok Hd rd) with (w := w1) (m := mr_modules ri) (V := view (w_sp w)) as (rr' & w2' & g & E2' & R2 & T2 & _);
      [lia|exact V1|apply R|]. rewrite E2 in E2'. injection E2' as <- <-.
    destruct (rrep_true _ _ _ _ i x R2 T2 Hx) as [Hi Hc]. split; [|exact Hc].
    rewrite (rrep_modules _ _ _ i R) in Hi. destruct (N.testbit m i); [reflexivity|discriminate].
  Qed.

  Lemma live_write w m wr data r : m < 2 ^ 64 -> bytes data = true -> snd (ctl_write sp m wr data w) = Ok r ->
    forall i, succeeded r i -> let x := view (w_sp w) i in let y := seen_after view (ctl_write sp m wr data) w i in
      member i m /\ ~ failed r i /\ wr_len wr = Nlen data /\ sl_status y = sl_status x /\ sl_led y = sl_led x /\
      forall p o, (reaches wr p o -> sl_cell y p o = nth (N.to_nat (o - wr_offset wr)) data 0) /\
                  (~ reaches wr p o -> sl_cell y p o = sl_cell x p o).
  Proof.
    intros Hm Hb E i Hs. apply mask_ok_lt in Hm. unfold succeeded in Hs. unfold failed. rewrite member_testbit in *. rewrite member_testbit.
    unfold seen_after. destruct (ctl_write sp m wr data w) as [w' o] eqn:X. cbn [fst snd] in *. subst o. unfold ctl_write in X.
    apply cbind_inv in X. destruct X as (w1 & ri & E1 & X).
    destruct (live_identifier a view Hok Hd w m _ (fun i => eq_refl) Hm) as (ri' & w1' & f & E1' & R & _ & V1).
    rewrite E1 in E1'. injection E1' as <- <-.
    apply cbind_inv in X. destruct X as (w1' & u & Ev & X). injection Ev as <- _.
    apply cbind_inv in X. destruct X as (w2 & rr & E2 & X). injection X as <- <-.
    destruct (N.eqb_spec (wr_len wr) (Nlen data)) as [Hl|Hl].
    2:{ exfalso. unfold write_impl in E2. destruct (N.eqb_spec (wr_len wr) (Nlen data)); [contradiction|]. discriminate. }
    destruct (honest_write a Hok w1 (mr_modules ri) wr data Hl) as (rr' & E2' & _ & R2); [apply R|].
    rewrite E2 in E2'. injection E2' as -> ->. cbn [ack_new mr_modules mr_failures] in *.
    pose proof Hs as Hs'. rewrite (rrep_modules _ _ _ i R2) in Hs'. unfold told, vd in Hs'.
    destruct (N.testbit (mr_modules ri) i) eqn:Hi; [|discriminate].
    destruct (hs_verdict a (w_sp w1) (HWrite (mr_modules ri) wr) (Some data) i) as [v|] eqn:Hv; [|discriminate].
    pose proof Hi as Hi'. rewrite (rrep_modules _ _ _ i R) in Hi'.
    split. { destruct (N.testbit m i); [reflexivity|discriminate]. }
    split.
    { rewrite failed_merge_bit, (rrep_failed _ _ _ i R), (rrep_failed _ _ _ i R2), Hi. unfold told, vd. rewrite Hv.
      destruct (N.testbit m i), (f i); discriminate. }
    split; [exact Hl|]. apply member_testbit in Hi. destruct (dr_write _ _ Hd _ _ _ _ _ _ Hb Hi Hv) as (K1 & K2 & K3).
    rewrite next_sp, <- !V1. auto.
  Qed.

  Lemma live_set_led w m l r : m < 2 ^ 64 -> snd (set_leds sp m l w) = Ok r ->
    forall i, succeeded r i -> member i m /\ sl_led (seen_after view (set_leds sp m l) w i) = l.
  Proof.
    intros Hm E i. unfold succeeded, seen_after. rewrite !member_testbit. intros Hs. apply mask_ok_lt in Hm.
    unfold set_leds in *. destruct (honest_ack a Hok w (HSetLedState m l)) as (r' & E' & _ & R); [reflexivity|reflexivity|exact Hm|].
    rewrite E' in *. cbn [fst snd] in *. injection E as ->. rewrite (rrep_modules _ _ _ i R) in Hs. cbn [request_modules] in Hs.
    destruct (N.testbit m i) eqn:Hi; [|discriminate]. split; [reflexivity|]. unfold told, vd in Hs.
    destruct (hs_verdict a (w_sp w) _ None i) as [v|] eqn:Hv; [|discriminate]. rewrite next_sp.
    apply member_testbit in Hi. eapply (dr_set_led _ _ Hd); eauto.
  Qed.

  Lemma live_pins w q r : is_power_pin q = true -> request_modules q < 2 ^ 64 -> snd (no_payload_request sp q w) = Ok r ->
    forall i, succeeded r i -> member i (request_modules q) /\ ~ failed r i /\
      pins (seen_after view (no_payload_request sp q) w i) = pins_after q (pins (view (w_sp w) i)).
  Proof.
    intros Hq Hm E i. unfold succeeded, failed, seen_after. rewrite !member_testbit. intros Hs. apply mask_ok_lt in Hm.
    destruct (no_payload_request sp q w) as [w' o] eqn:X. cbn [fst snd] in *. subst o.
    apply (live_pin a view Hok Hd) in X; [|exact Hq|exact Hm]. destruct X as [M T]. rewrite M in Hs. apply andb_true_iff in Hs.
    destruct Hs as [H1 H2]. apply negb_true_iff in H2. split; [exact H1|]. split; [congruence|]. change pins with tri. rewrite (T i H2), H1. reflexivity.
  Qed.
  Lemma live_reset w m r : m < 2 ^ 64 -> snd (reset sp m w) = Ok r ->
    forall i, succeeded r i -> member i m /\ ~ failed r i /\
      pins (seen_after view (reset sp m) w i) =
      (supplied (sl_status (view (w_sp w) i)), false, lpmode_pin (sl_status (view (w_sp w) i))).
  Proof.
    intros Hm E i. unfold succeeded, failed, seen_after. rewrite !member_testbit. intros Hs. apply mask_ok_lt in Hm.
    destruct (reset sp m w) as [w' o] eqn:X. cbn [fst snd] in *. subst o. unfold reset in X.
    apply cbind_inv in X. destruct X as (w1 & x & E1 & X). apply (live_pin a view Hok Hd) in E1; [|reflexivity|exact Hm]. destruct E1 as [M1 T1].
    cbn [request_modules] in M1, T1.
    apply cbind_inv in X. destruct X as (w2 & u & E2 & X). injection E2 as <- _.
    assert (H1 : mask_ok (mr_modules x) = true) by (apply (sub_ok _ m); [intros j; rewrite M1; now destruct (N.testbit m j)|exact Hm]).
    apply cbind_inv in X. destruct X as (w2 & y & E2 & X). apply (live_pin a view Hok Hd) in E2; [|reflexivity|exact H1]. destruct E2 as [M2 T2].
    cbn [request_modules] in M2, T2. cbn [w_sp] in T2.
    apply cbind_inv in X. destruct X as (w3 & u' & E3 & X). injection E3 as <- _. injection X as <- <-. cbn [mr_modules ack_new mr_failures w_sp] in *.
    pose proof Hs as Hs'. rewrite M2 in Hs'. apply andb_true_iff in Hs'. destruct Hs' as [S1 S2]. apply negb_true_iff in S2.
    pose proof S1 as S1'. rewrite M1 in S1'. apply andb_true_iff in S1'. destruct S1' as [S3 S4]. apply negb_true_iff in S4.
    split; [exact S3|]. split. { rewrite failed_merge_bit, S2, S4. discriminate. }
    change pins with tri. rewrite (T2 i S2), S1, (T1 i S4), S3. reflexivity.
  Qed.

  (** ** The four queries for decoded data *)
  Lemma decoders_len reads id rds : In reads decoders -> reads id = Ok rds -> Forall (fun rd => 1 <= rd_len rd <= 255) rds.
  Proof.
    intros Hi E. destruct (supported_kind id) eqn:Es.
    - destruct (reads_len reads id Hi Es) as (rds' & E' & F). rewrite E in E'. now injection E' as ->.
    - rewrite (reads_unsupported reads id Hi Es) in E. discriminate.
  Qed.
  Lemma live_decoded {P} reads (parse : Identifier -> list (list N) -> outcome DecodeError P) w m r :
    In reads decoders -> m < 2 ^ 64 -> snd (parse_modules_by_identifier sp reads parse m w) = Ok r ->
    forall i x, succeeds r i x -> member i m /\
      supported_kind (kind_of (sl_cell (view (w_sp w) i))) = true /\
      decoded reads parse (kind_of (sl_cell (view (w_sp w) i))) (sl_cell (view (w_sp w) i)) = Ok x.
  Proof.
    intros Hi Hm E i x Hx. apply mask_ok_lt in Hm. destruct (parse_modules_by_identifier sp reads parse m w) as [w' o] eqn:X.
    cbn [snd] in E. subst o.
    apply (live_query reads parse (fun id rds => decoders_len reads id rds Hi) (view (w_sp w)) m w w' r Hm (fun _ => eq_refl)) in X.
    destruct X as (_ & X & _). apply succeeds_get, X in Hx. destruct Hx as (H1 & rds & H2 & H3).
    split; [now apply member_testbit|]. change slot_kind with (fun x => kind_of (sl_cell x)) in H2, H3. cbv beta in H2, H3.
    unfold decoded. rewrite H2. split; [|exact H3].
    destruct (supported_kind _) eqn:Es; [reflexivity|]. rewrite (reads_unsupported reads _ Hi Es) in H2. discriminate.
  Qed.

  Section Decoded.
    Context (w : world St) (m : N) (Hm : m < 2 ^ 64).
    Let mem i := sl_cell (view (w_sp w) i).
    Lemma live_vendor r : snd (vendor_info sp m w) = Ok r -> forall i x, succeeds r i x -> member i m /\ vendor_of (mem i) x.
    Proof.
      intros E i x Hx. unfold vendor_info in E. eapply live_decoded in E; [|cbn; auto|exact Hm|exact Hx].
      destruct E as (H1 & H2 & H3). split; [exact H1|].
      destruct (vendor_correct _ (sl_cell (view (w_sp w) i)) H2) as (v & Hv & Sv). rewrite H3 in Hv. injection Hv as ->. exists v. auto.
    Qed.
    Lemma live_memory r : (forall i, byte_memory (mem i)) -> snd (memory_model sp m w) = Ok r ->
      forall i x, succeeds r i x -> member i m /\ memory_model_of (mem i) x.
    Proof.
      intros Hb E i x Hx. unfold memory_model in E. eapply live_decoded in E; [|cbn; auto|exact Hm|exact Hx].
      destruct E as (H1 & H2 & H3). split; [exact H1|]. destruct (panics_exactly (kind_of (mem i)) (mem i) (Hb i)) as (_ & _ & K & _).
      destruct (memory_correct _ (mem i) H2) as (v & Hv & Sv).
      - intros G. apply K in G. unfold mem in G. rewrite G in H3. discriminate.
      - unfold mem in Hv. rewrite H3 in Hv. injection Hv as ->. exact Sv.
    Qed.
    Lemma live_monitors r : (forall i, byte_memory (mem i)) -> snd (monitors sp m w) = Ok r ->
      forall i x, succeeds r i x -> member i m /\ monitors_of (mem i) x.
    Proof.
      intros Hb E i x Hx. unfold monitors in E. eapply live_decoded in E; [|cbn; auto|exact Hm|exact Hx].
      destruct E as (H1 & H2 & H3). split; [exact H1|]. fold (mem i) in *. unfold monitors_of.
      destruct (sff_kind (kind_of (mem i))) eqn:Es.
      - rewrite (sff_monitors_correct _ (mem i) (Hb i) Es) in H3. now injection H3 as <-.
      - assert (Ec : cmis_kind (kind_of (mem i)) = true) by (unfold supported_kind in H2; now rewrite Es in H2).
        rewrite (cmis_monitors_correct _ (mem i) Es Ec) in H3. destruct (bias_scale _) as [sc|]; [|discriminate].
        injection H3 as <-. eauto.
    Qed.
    Lemma live_datapath r : (forall i, byte_memory (mem i)) -> snd (datapath sp m w) = Ok r ->
      forall i x, succeeds r i x -> member i m /\ datapath_of (mem i) x.
    Proof.
      intros Hb E i x Hx. unfold datapath in E. eapply live_decoded in E; [|cbn; auto 10|exact Hm|exact Hx].
      destruct E as (H1 & H2 & H3). split; [exact H1|]. fold (mem i) in *. unfold datapath_of.
      destruct (sff_kind (kind_of (mem i))) eqn:Es.
      - rewrite (sff_datapath_correct _ (mem i) Es) in H3. now injection H3 as <-.
      - assert (Ec : cmis_kind (kind_of (mem i)) = true) by (unfold supported_kind in H2; now rewrite Es in H2).
        assert (Km : known_media (mem i) \/ ~ known_media (mem i)) by (unfold known_media; lia).
        destruct Km as [Km|Km]; [|rewrite datapath_unknown_media in H3 by auto; discriminate].
        destruct (assignments_dec (mem i)) as [Ka|(k & K1 & K2 & K3)].
        2:{ rewrite (datapath_unlisted _ (mem i) k (Hb i) Es Ec (conj K1 K2) K3) in H3. discriminate. }
        destruct (datapath_listed _ (mem i) (Hb i) Es Ec Km Ka) as [D1 D2].
        assert (D : (forall k, in_use (mem i) k -> lane_with other_nibble (mem i) k <> None) \/
                    exists k, in_use (mem i) k /\ lane_with other_nibble (mem i) k = None).
        { destruct (existsb (fun k => negb (app_of (mem i) k =? 0) && match lane_with other_nibble (mem i) k with None => true | _ => false end) all_lanes) eqn:X.
          - right. apply existsb_exists in X. destruct X as (k & Hk & X). apply andb_true_iff in X. destruct X as [X1 X2].
            exists k. apply negb_true_iff, N.eqb_neq in X1. split; [split; [now apply in_lanes|exact X1]|]. now destruct (lane_with _ _ _).
          - left. intros k [Hk H0] Hl. assert (existsb (fun k => negb (app_of (mem i) k =? 0) && match lane_with other_nibble (mem i) k with None => true | _ => false end) all_lanes = true); [|congruence].
            apply existsb_exists. exists k. split; [now apply in_lanes|]. rewrite Hl. apply N.eqb_neq in H0. now rewrite H0. }
        destruct D as [D|D]; [|rewrite (D2 D) in H3; discriminate].
        destruct (D1 D) as (dps & Hd' & Md). rewrite Hd' in H3. injection H3 as <-. eauto.
    Qed.
  End Decoded.

  Lemma live_power_told w m r : m < 2 ^ 64 -> snd (power sp m w) = Ok r ->
    forall i x, succeeds r i x -> member i m /\ slot_mode (view (w_sp w) i) = Some x.
  Proof.
    intros Hm E i x Hx. apply mask_ok_lt in Hm. destruct (power sp m w) as [w' o] eqn:X. cbn [snd] in E. subst o.
    apply live_power in X; [|exact Hm]. destruct X as [_ X]. rewrite member_testbit. apply X. now apply succeeds_get.
  Qed.
  Lemma live_status_told w m r : m < 2 ^ 64 -> snd (ctl_status sp m w) = Ok r ->
    forall i x, succeeds r i x -> member i m /\ x = sl_status (view (w_sp w) i).
  Proof.
    intros Hm E i x Hx. apply mask_ok_lt in Hm. destruct (ctl_status sp m w) as [w' o] eqn:X. cbn [snd] in E. subst o.
    apply (live_status a view Hok Hd) in X; [|exact Hm]. destruct X as (X1 & X2 & X3 & _). apply succeeds_get in Hx. rewrite member_testbit.
    split; [|now apply X3]. apply X1. rewrite (testbit_get _ _ i X2). unfold rget in Hx. now rewrite Hx.
  Qed.
  Lemma live_kind_told w m r : m < 2 ^ 64 -> snd (identifier sp m w) = Ok r ->
    forall i x, succeeds r i x -> member i m /\ x = slot_kind (view (w_sp w) i).
  Proof.
    intros Hm E i x Hx. apply mask_ok_lt in Hm.
    destruct (live_identifier a view Hok Hd w m _ (fun i => eq_refl) Hm) as (r' & w' & f & E' & R & T & _).
    rewrite E' in E. injection E as ->. rewrite member_testbit. apply succeeds_get in Hx. exact (rrep_true _ _ _ _ i x R T Hx).
  Qed.

  (** ** One call after another *)
  Lemma power_after_set w m st r r' : m < 2 ^ 64 -> snd (set_power sp m st w) = Ok r ->
    forall m', m' < 2 ^ 64 -> snd (power sp m' (fst (set_power sp m st w))) = Ok r' ->
    forall i x, succeeded r i -> ~ failed r i -> succeeds r' i x -> pm_state x = st.
  Proof.
    intros Hm E m' Hm' E' i x H1 H2 H3. pose proof (live_set_power a view Hok Hd w m st r Hm E i H1 H2) as K.
    destruct (live_power_told _ _ _ Hm' E' i x H3) as [_ L]. unfold seen_after, slot_power in K. rewrite L in K. now injection K.
  Qed.
  Lemma read_after_write w m wr data r : m < 2 ^ 64 -> bytes data = true -> wr_len wr <= 255 -> snd (ctl_write sp m wr data w) = Ok r ->
    forall m' r', m' < 2 ^ 64 ->
    snd (ctl_read sp m' (mkRead (wr_page wr) (wr_offset wr) (wr_len wr)) (fst (ctl_write sp m wr data w))) = Ok r' ->
    forall i x, succeeded r i -> succeeds r' i x -> x = data.
  Proof.
    intros Hm Hb Hl E m' r' Hm' E' i x H1 H2. destruct (live_write w m wr data r Hm Hb E i H1) as (_ & _ & K & _ & _ & C).
    destruct (live_ctl_read _ _ (mkRead (wr_page wr) (wr_offset wr) (wr_len wr)) _ Hm' Hl E' i x H2) as [_ ->]. unfold contents, area. cbn [rd_page rd_offset rd_len].
    unfold seen_after in C. apply nth_ext with (d := 0) (d' := 0).
    - rewrite map_length, nrange_length, K. unfold Nlen. apply Nat2N.id.
    - intros n Hn. rewrite map_length, nrange_length in Hn.
      rewrite nth_indep with (d' := sl_cell (view (w_sp (fst (ctl_write sp m wr data w))) i) (wr_page wr) 0) by now rewrite map_length, nrange_length.
      rewrite map_nth. rewrite nth_nrange by exact Hn. destruct (C (wr_page wr) (wr_offset wr + N.of_nat n)) as [C1 _].
      rewrite C1; [f_equal; lia|]. split; [now right|]. lia.
  Qed.

  (** ** Together *)
  Lemma told_there w m : m < 2 ^ 64 ->
    (forall r, snd (ctl_status sp m w) = Ok r ->
       forall i x, succeeds r i x -> member i m /\ x = sl_status (view (w_sp w) i)) /\
    (forall r, snd (leds sp m w) = Ok r ->
       forall i x, succeeds r i x -> member i m /\ x = sl_led (view (w_sp w) i)) /\
    (forall r, snd (identifier sp m w) = Ok r ->
       forall i x, succeeds r i x -> member i m /\ x = slot_kind (view (w_sp w) i)) /\
    (forall r, snd (power sp m w) = Ok r ->
       forall i x, succeeds r i x -> member i m /\ slot_mode (view (w_sp w) i) = Some x) /\
    (forall rd r, rd_len rd <= 255 -> snd (ctl_read sp m rd w) = Ok r ->
       forall i x, succeeds r i x -> member i m /\ x = contents (sl_cell (view (w_sp w) i)) rd).
  Proof.
    intros Hm. split; [|split; [|split; [|split]]]; intros.
    - eapply live_status_told; eauto.
    - eapply live_leds; eauto.
    - eapply live_kind_told; eauto.
    - eapply live_power_told; eauto.
    - eapply live_ctl_read; eauto.
  Qed.
  Lemma decoded_there w m : m < 2 ^ 64 -> (forall i, byte_memory (sl_cell (view (w_sp w) i))) ->
    (forall r, snd (vendor_info sp m w) = Ok r ->
       forall i x, succeeds r i x -> member i m /\ vendor_of (sl_cell (view (w_sp w) i)) x) /\
    (forall r, snd (memory_model sp m w) = Ok r ->
       forall i x, succeeds r i x -> member i m /\ memory_model_of (sl_cell (view (w_sp w) i)) x) /\
    (forall r, snd (monitors sp m w) = Ok r ->
       forall i x, succeeds r i x -> member i m /\ monitors_of (sl_cell (view (w_sp w) i)) x) /\
    (forall r, snd (datapath sp m w) = Ok r ->
       forall i x, succeeds r i x -> member i m /\ datapath_of (sl_cell (view (w_sp w) i)) x).
  Proof.
    intros Hm Hb. split; [|split; [|split]]; intros.
    - eapply live_vendor; eauto.
    - eapply live_memory; eauto.
    - eapply live_monitors; eauto.
    - eapply live_datapath; eauto.
  Qed.
  Lemma live_simple w m s c q r : In (c, q) (simple_calls sp m s) -> is_power_pin q = true -> m < 2 ^ 64 -> snd (c w) = Ok r ->
    forall i, succeeded r i -> member i m /\ ~ failed r i /\ pins (seen_after view c w i) = pins_after q (pins (view (w_sp w) i)).
  Proof.
    intros Hi Hq Hm E. assert (K : request_modules q = m).
    { unfold simple_calls in Hi. cbn [In] in Hi. repeat (destruct Hi as [[= <- <-]|Hi]; [reflexivity|]). destruct Hi. }
    rewrite (simple_npr sp m s c q Hi) in *. rewrite <- K in *. now apply live_pins.
  Qed.
End Truth.
