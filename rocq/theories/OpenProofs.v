(** Modules the SP lets itself be asked about do not fail in queries (C98). *)
From Verif Require Export CoverProofs SpecTool.
From Verif Require Import Tac Spec ModuleIdProofs ModuleIdProps ResultsProofs ControllerProofs ControllerProofs3
  ControllerProofs4 ControllerProofs5 ControllerProofs6 ControllerProofs7 ScopeProofs ScopeProofs2.

Section Open.
  Context {St : Type} (a : honest St) (view : St -> N -> slot) (Hok : honest_ok a) (Hd : drives a view) (i : N) (Ho : open_to_looks a i).
  Implicit Type w : world St.
  Local Notation sp := (honest_sp a).

  Definition clear {P} (r : Result P) : Prop := N.testbit (fm_modules (mr_failures r)) i = false.
  Lemma clear_rrep {P} m f (r : Result P) : rrep m f r -> (forall e, f i <> inr e) -> clear r.
  Proof. intros R H. unfold clear. rewrite (rrep_failed _ _ _ i R). destruct (f i) as [x|e]; [apply andb_false_r|now destruct (H e)]. Qed.
  Lemma open_read_one w m rd w' r : rd_len rd <> 0 -> fits_in_one_message m rd = true -> mask_ok m = true ->
    read_impl_one_message sp m rd w = (w', Ok r) -> clear r.
  Proof.
    intros H1 H2 H3 E. destruct (honest_read_one a Hok w m rd H1 H2 H3) as (r' & E' & R). rewrite E in E'. injection E' as _ ->.
    apply (clear_rrep _ _ _ R). intros e. destruct (Ho (w_sp w) (HRead m rd) None eq_refl) as [x Hx]. unfold told, vd. now rewrite Hx.
  Qed.
  Lemma open_read_rest rd gs : rd_len rd <> 0 -> Forall (fun g => g <> 0 /\ mask_ok g = true /\ fits_in_one_message g rd = true) gs -> forall w w' r0 r,
    clear r0 -> read_rest sp gs rd r0 w = (w', Ok r) -> clear r.
  Proof.
    intros Hl. induction 1 as [|g gs (G1 & G2 & G3) Hgs IH]; intros w w' r0 r C E; cbn [read_rest] in E; [now injection E as _ <-|].
    apply cbind_inv in E. destruct E as (w1 & r1 & E1 & E). apply (open_read_one _ _ _ _ _ Hl G3 G2) in E1.
    apply cbind_inv in E. destruct E as (w2 & r2 & E2 & E). eapply IH; [|exact E]. unfold cret in E2. injection E2 as _ E2.
    unfold result_merge in E2. destruct (negb _); [discriminate|]. destruct (negb _); [discriminate|].
    destruct (without_failures_from r0 r1) as [x1 x2]. destruct (without_failures_from r1 r0) as [y1 y2]. destruct (merge_module_data _ _ _ _) as [z1 z2].
    injection E2 as <-. unfold clear. cbn [mr_failures]. rewrite failed_merge_bit. unfold clear in *. now rewrite C, E1.
  Qed.
  Lemma open_read_impl w m rd w' r : 1 <= rd_len rd <= 255 -> mask_ok m = true -> read_impl sp m rd w = (w', Ok r) -> clear r.
  Proof.
    intros Hl Hm E. unfold read_impl in E. destruct (_ || _).
    { destruct (result_success m []) eqn:Es; cbn in E; [|discriminate]. injection E as _ <-. unfold result_success in Es.
      destruct (Nat.eqb _ _); [|discriminate]. injection Es as <-. apply N.bits_0. }
    destruct (split_spec m rd Hm Hl) as (gs & Es & _ & Fg & _). rewrite Es in E. erewrite cbind_ok in E by reflexivity.
    destruct gs as [|g gs]; [discriminate|]. pose proof (Forall_inv Fg) as (G1 & G2 & G3). apply Forall_inv_tail in Fg.
    apply cbind_inv in E. destruct E as (w1 & r1 & E1 & E). apply open_read_one in E1; [|lia|assumption|assumption].
    eapply open_read_rest; [|exact Fg|exact E1|exact E]. lia.
  Qed.
  Lemma open_each m rds : mask_ok m = true -> Forall (fun rd => 1 <= rd_len rd <= 255) rds -> forall w w' rs,
    read_each sp m rds w = (w', Ok rs) -> first_err rs i = None.
  Proof.
    intros Hm. induction 1 as [|rd rds Hrd Hrds IH]; intros w w' rs E; cbn [read_each] in E; [now injection E as _ <-|].
    apply cbind_inv in E. destruct E as (w1 & r & E1 & E). apply cbind_inv in E. destruct E as (w2 & rs' & E2 & E). injection E as _ <-.
    cbn [first_err]. pose proof E1 as C. apply open_read_impl in C; [|exact Hrd|exact Hm].
    destruct (result_nth_err r i) as [e|] eqn:N0; [|eapply IH; exact E2]. exfalso.
    destruct (live_read_impl a view Hok Hd rd Hrd w m (fun i => view (w_sp w) i) (fun _ => eq_refl) Hm) as (r' & w1' & f & E1' & R & _).
    rewrite E1 in E1'. injection E1' as <- <-. unfold result_nth_err in N0. rewrite failed_nth_get in N0. unfold clear in C.
    pose proof (testbit_get _ _ i (proj2 (proj1 R))) as Z. rewrite C in Z. unfold fget in N0. now rewrite N0 in Z.
  Qed.

  Section Query.
    Context {P : Type} (reads : Identifier -> outcome DecodeError (list MemoryRead))
            (parse : Identifier -> list (list N) -> outcome DecodeError P)
            (Hlen : forall id rds, reads id = Ok rds -> Forall (fun rd => 1 <= rd_len rd <= 255) rds).
    Context (V : N -> slot)
            (Hp : forall rds e, reads (slot_kind (V i)) = Ok rds -> parse (slot_kind (V i)) (map (contents (sl_cell (V i))) rds) <> Err e).
    Lemma fail_other (s s' : parsing P) j e : parse_fail s j e = Ok s' -> j <> i -> N.testbit (ps_failed s) i = false -> N.testbit (ps_failed s') i = false.
    Proof.
      unfold parse_fail, m_clear, m_set, MAX_INDEX. destruct (64 <=? j); [discriminate|]. cbn [ounwrap obind]. intros [= <-] Hj Hs.
      cbn [ps_failed]. rewrite N.lor_spec, Hs, shiftl_bit. cbn. now apply N.eqb_neq.
    Qed.
    Lemma open_parse id mk rds rs : reads id = Ok rds -> Forall2 (tells V mk) rds rs -> first_err rs i = None -> forall l s s',
      (forall j, In j l -> N.testbit mk j = true /\ id = slot_kind (V j)) ->
      parse_each parse id rs l s = Ok s' -> N.testbit (ps_failed s) i = false -> N.testbit (ps_failed s') i = false.
    Proof.
      intros Hr F Fe. induction l as [|j l IH]; intros s s' Hl E C; cbn [parse_each] in E; [now injection E as <-|].
      destruct (parse_one parse id rs s j) as [s1| |] eqn:E1; cbn [obind] in E; try discriminate.
      destruct (Hl j (or_introl eq_refl)) as (Hj & Hid).
      eapply IH; [|exact E|]; [intros j' Hj'; apply Hl; now right|]. clear E IH.
      unfold parse_one in E1. destruct (first_err rs j) as [e|] eqn:F1; [eapply fail_other; [exact E1|congruence|exact C]|].
      revert E1. match goal with |- context [omapM ?g rs] => destruct (omapM g rs) as [ds| |] eqn:Ed end; intros E1; cbn [obind] in E1; try discriminate.
      pose proof (told_data V mk j rds rs Hj F ds Ed) as ->.
      destruct (parse id _) as [x|e|] eqn:Ep; [now injection E1 as <-| |discriminate].
      eapply fail_other; [exact E1| |exact C]. intros ->. subst id. now apply (Hp _ e Hr).
    Qed.
    Lemma open_groups gs : forall w w' s s',
      Forall (fun g => mask_ok (snd g) = true /\ forall j, N.testbit (snd g) j = true -> fst g = slot_kind (V j)) gs ->
      (forall j, view (w_sp w) j = V j) ->
      parse_groups sp reads parse gs s w = (w', Ok s') -> N.testbit (ps_failed s) i = false -> N.testbit (ps_failed s') i = false.
    Proof.
      induction gs as [|[id mk] gs IH]; intros w w' s s' Hg Hv E C; cbn [parse_groups] in E; [now injection E as _ <-|].
      pose proof (Forall_inv Hg) as [Hm Hid]. apply Forall_inv_tail in Hg. cbn [fst snd] in *.
      apply cbind_inv in E. destruct E as (w1 & rds & E1 & E). injection E1 as <- E1.
      destruct (reads id) as [rds'| |] eqn:Er; cbn in E1; try discriminate. injection E1 as ->.
      apply cbind_inv in E. destruct E as (w1 & rs & E1 & E). destruct (live_each a view Hok Hd V mk rds Hm (Hlen _ _ Er) _ _ _ Hv E1) as [F V1].
      apply cbind_inv in E. destruct E as (w2 & s1 & E2 & E). injection E2 as <- E2.
      eapply IH; [exact Hg|exact V1|exact E|]. eapply open_parse; [exact Er|exact F|eapply open_each; [exact Hm|exact (Hlen _ _ Er)|exact E1]| |exact E2|exact C].
      intros j Hj. apply in_to_indices in Hj. split; [tauto|]. apply Hid. tauto.
    Qed.
    Lemma open_query w w' m r : mask_ok m = true -> (forall j, view (w_sp w) j = V j) ->
      parse_modules_by_identifier sp reads parse m w = (w', Ok r) -> clear r.
    Proof.
      intros Hm Hv E. unfold parse_modules_by_identifier in E. apply cbind_inv in E. destruct E as (w1 & ri & E1 & E).
      destruct (live_identifier a view Hok Hd w m V Hv Hm) as (ri' & w1' & f & E1' & R & T & V1).
      rewrite E1 in E1'. injection E1' as <- <-. pose proof R as [[Ai _] _].
      apply cbind_inv in E. destruct E as (w1' & gs & Eg & E). injection Eg as <- Eg.
      destruct (split_groups _ _ Ai) as (gs' & Eg' & Hgs). rewrite Eg in Eg'. injection Eg' as <-.
      apply cbind_inv in E. destruct E as (w2 & s & E2 & E). injection E as <- <-.
      assert (Hz : forall j x, In (j, x) (zip_data (mr_modules ri) (mr_data ri)) -> N.testbit m j = true /\ x = slot_kind (V j)).
      { intros j x Hx. apply in_zip_get in Hx. exact (rrep_true _ _ _ _ j x R T Hx). }
      assert (H64 : Forall (fun p : N * Identifier => fst p < 64) (zip_data (mr_modules ri) (mr_data ri))).
      { apply Forall_forall. intros [j x] H. apply Hz in H. cbn. apply (proj1 (mask_ok_testbit m) Hm). tauto. }
      destruct Hgs as (_ & Hg2 & _). unfold clear. cbn [mr_failures fm_modules].
      eapply open_groups; [|exact V1|exact E2|].
      - apply Forall_forall. intros [k mk] Hin. cbn [fst snd]. destruct (Hg2 _ _ Hin) as [_ Hb]. split.
        + eapply group_mask_lt; [exact Hb|exact H64].
        + intros j Hj. apply Hb, Hz in Hj. tauto.
      - cbn [ps_failed]. destruct (honest_identifier a Hok w m Hm) as (ri2 & w2' & E2' & R2 & _). rewrite E1 in E2'. injection E2' as <- <-.
        apply (clear_rrep _ _ _ R2). intros e. destruct (Ho (w_sp w) (HRead m ident_read) None eq_refl) as [x Hx]. unfold ids_seen, told. now rewrite Hx.
    Qed.
  End Query.

  Lemma power_parses (c : Page -> N -> N) id rds e : power_reads id = Ok rds -> power_parse id (map (contents c) rds) <> Err e.
  Proof.
    intros Hr. unfold power_reads in Hr. unfold power_parse. destruct (is_sff id) eqn:Es.
    - change (read_new (PageSff SffLower) 93 1) with (@Ok MgmtError _ (mkRead (PageSff SffLower) 93 1)) in Hr. cbn [ounwrap obind] in Hr. injection Hr as <-. discriminate.
    - destruct (is_cmis id) eqn:Ec; [|discriminate].
      change (read_new (PageCmis CmisLower) 26 1) with (@Ok MgmtError _ (mkRead (PageCmis CmisLower) 26 1)) in Hr. cbn [ounwrap obind] in Hr. injection Hr as <-. discriminate.
  Qed.
  Lemma open_power m w w' r : mask_ok m = true -> power sp m w = (w', Ok r) -> clear r.
  Proof.
    intros Hm E. unfold power in E. apply cbind_inv in E. destruct E as (w1 & s & E1 & E).
    destruct (live_status a view Hok Hd _ _ _ _ Hm E1) as (_ & As & _ & V1).
    destruct (honest_status a Hok w m Hm) as (r' & E' & _ & R). rewrite E1 in E'. injection E' as -> ->.
    assert (Cs : clear r').
    { apply (clear_rrep _ _ _ R). intros e. destruct (Ho (w_sp w) (HStatus m) None eq_refl) as [x Hx]. unfold told, vd. now rewrite Hx. }
    destruct (filter_module_data (mr_modules r') (mr_data r') _) as [powered pst] eqn:EP.
    destruct (filter_eq _ _ _ _ _ (proj1 As) EP) as [Ap _].
    destruct (filter_module_data powered pst _) as [in_reset irst].
    destruct (remove_module_data powered pst in_reset) as [rdb rst] eqn:ED.
    destruct (remove_eq _ _ _ _ _ Ap ED) as [Ad _].
    apply cbind_inv in E. destruct E as (w2 & r2 & E2 & E).
    assert (T2 : clear r2).
    { destruct (Nat.eqb (m_count rdb) 0) eqn:Z.
      - injection E2 as _ <-. apply N.bits_0.
      - apply cbind_inv in E2. destruct E2 as (w3 & rc & E3 & E2).
        apply (open_query power_reads power_parse power_lengths (view (w_sp w))) in E3; [|intros rds e; apply power_parses|apply Ad|exact V1].
        destruct (filter_module_data rdb rst _) as [mm rs']. injection E2 as _ <-. exact E3. }
    destruct (merge_module_data _ _ _ _) as [m1 d1]. injection E as _ <-. unfold clear in *. cbn [mr_failures]. now rewrite failed_merge_bit, T2, Cs.
  Qed.
  (** So its power mode is reported. *)
  Lemma open_power_told m w w' r : mask_ok m = true -> N.testbit m i = true -> power sp m w = (w', Ok r) ->
    exists x, rget r i = Some x /\ slot_mode (view (w_sp w) i) = Some x.
  Proof.
    intros Hm Hi E. pose proof (open_power _ _ _ _ Hm E) as C. pose proof (power_told_of a view Hok Hd _ _ _ _ Hm E) as [_ T].
    destruct (live_power a view Hok Hd _ _ _ _ Hm E) as [Al Hr]. destruct (T i Hi) as [K|K]; [|unfold clear in C; congruence].
    rewrite (testbit_get _ _ i Al) in K. unfold rget in *. destruct (get (mr_modules r) (mr_data r) i) as [x|] eqn:G; [|discriminate].
    exists x. split; [reflexivity|]. now apply Hr.
  Qed.
End Open.
