(** Proofs for C38: what [set_power] does and reports, for any mixture of states of modules of one kind. *)
From Verif Require Import SpecExact ControllerProofs8.
From Verif Require Import Tac.

Lemma ports_where_bit m P i : mask_ok m = true -> N.testbit (ports_where m P) i = N.testbit m i && P i.
Proof.
  intros Hm. unfold ports_where. rewrite port_mask_spec. apply eq_true_iff_eq.
  rewrite existsb_eqb_in, filter_In, in_to_indices_ok, andb_true_iff by exact Hm. reflexivity.
Qed.
Lemma sub_mok a b : (forall i, N.testbit a i = true -> N.testbit b i = true) -> mask_ok b = true -> mask_ok a = true.
Proof. intros S B. apply mask_ok_testbit. intros i Hi. apply (proj1 (mask_ok_testbit b) B). auto. Qed.
Lemma ports_where_mok m P : mask_ok m = true -> mask_ok (ports_where m P) = true.
Proof. intros H. apply (sub_mok _ m); [|exact H]. intros i. rewrite ports_where_bit by exact H. now destruct (N.testbit m i). Qed.

Section Exact.
  Context {St : Type} (a : honest St) (Hok : honest_ok a).
  Context (v : HostRequest -> option (list N) -> N -> verdict) (Hv : steady a v).
  Context (mem : N -> MemoryRead -> verdict) (Hmem : forall m rd i, v (HRead m rd) None i = mem i rd).
  Implicit Type w : world St.
  Local Notation sp := (honest_sp a).

  (** The modules that failed so far are those of [B]. *)
  Definition fails_at (B : N -> bool) (f : Failures) : Prop :=
    faligned f /\ forall i, N.testbit (fm_modules f) i = B i.
  Definition bad (x : N) (f : N -> verdict) (i : N) : bool := N.testbit x i && negb (is_good (f i)).

  Lemma fails_rrep {P} x (F : N -> P + TransceiverError) r : rrep x F r ->
    fails_at (fun i => N.testbit x i && match F i with inl _ => false | inr _ => true end) (mr_failures r).
  Proof. intros R. split; [apply R|]. intros i. rewrite (rrep_failed _ _ _ i R). destruct (N.testbit x i); [|reflexivity]. now destruct (F i). Qed.
  Lemma fails_merge B C f g : fails_at B f -> fails_at C g -> fails_at (fun i => B i || C i) (failed_merge f g).
  Proof.
    intros [F1 B1] [F2 B2]. destruct (failed_merge_spec _ _ F1 F2) as (Fm & Em & _). split; [exact Fm|].
    intros i. now rewrite Em, m_merge_spec, B1, B2.
  Qed.
  Lemma fails_told {P} (dec : list N -> P) x F r : rrep x (told dec F) r -> fails_at (bad x F) (mr_failures r).
  Proof.
    intros R. destruct (fails_rrep _ _ _ R) as [A B]. split; [exact A|]. intros i. rewrite B. unfold bad, told.
    destruct (F i); reflexivity.
  Qed.
  Lemma fails_ext B C f : (forall i, B i = C i) -> fails_at B f -> fails_at C f.
  Proof. intros E [A H]. split; [exact A|]. intros i. now rewrite H. Qed.

  (** One request about pins. *)
  Lemma ack_step w q B f : request_unit q = 0%nat -> (forall x y, response_to q x y = SAck x y) ->
    mask_ok (request_modules q) = true -> fails_at B f ->
    exists r, no_payload_request sp q w = (next a w q None, Ok r) /\ mr_modules r = good_mask (request_modules q) (v q None) /\
      fails_at (fun i => B i || bad (request_modules q) (v q None) i) (failed_merge f (mr_failures r)).
  Proof.
    intros Hu Hr Mo Hf. destruct (honest_ack a Hok w q Hu Hr Mo) as (r & E & Er & R).
    exists r. split; [exact E|]. split.
    - rewrite Er. apply mask_ext. intros i. rewrite !good_mask_bit by exact Mo. unfold vd. now rewrite Hv.
    - apply fails_merge; [exact Hf|]. eapply fails_ext; [|exact (fails_told _ _ _ _ R)].
      intros i. unfold bad, vd. now rewrite Hv.
  Qed.
  Lemma write_step w x wr data B f : wr_len wr = Nlen data -> mask_ok x = true -> fails_at B f ->
    exists r, write_impl sp x wr data w = (next a w (HWrite x wr) (Some data), Ok r) /\
      mr_modules r = good_mask x (v (HWrite x wr) (Some data)) /\
      m_remove x (fm_modules (mr_failures r)) = good_mask x (v (HWrite x wr) (Some data)) /\
      fails_at (fun i => B i || bad x (v (HWrite x wr) (Some data)) i) (failed_merge f (mr_failures r)).
  Proof.
    intros Hl Mo Hf. destruct (honest_write a Hok w x wr data Hl Mo) as (r & E & Er & R).
    assert (F : fails_at (bad x (v (HWrite x wr) (Some data))) (mr_failures r)).
    { eapply fails_ext; [|exact (fails_told _ _ _ _ R)]. intros i. unfold bad, vd. now rewrite Hv. }
    exists r. split; [exact E|]. split; [|split].
    - rewrite Er. apply mask_ext. intros i. rewrite !good_mask_bit by exact Mo. unfold vd. now rewrite Hv.
    - apply mask_ext. intros i. rewrite m_remove_spec by exact Mo. destruct F as [_ F]. rewrite F, good_mask_bit by exact Mo.
      unfold bad. destruct (N.testbit x i); [|reflexivity]. cbn [andb]. now destruct (is_good _).
    - now apply fails_merge.
  Qed.

  (** The software part. *)
  Lemma software_exact w k st mk modes f B (soft : N -> bool) : st <> PowerOff -> supported_kind k = true ->
    mask_ok mk = true -> (forall i id, N.testbit mk i = true -> ident_told mem i = inl id -> id = k) ->
    aligned mk modes -> (forall i x, get mk modes i = Some x -> overridden x = soft i) -> fails_at B f ->
    let mi := good_mask mk (fun i => mem i ident_read) in
    let so := ports_where mi soft in
    let pi := ports_where mi (fun i => negb (soft i)) in
    let wt := v (HWrite so (soft_place k)) (Some [soft_word k true st]) in
    let wp := v (HWrite pi (soft_place k)) (Some [soft_word k false st]) in
    exists w' f', set_software_power_state sp (mkResult mk modes f) st w = (w', Ok (ack_new (good_mask pi wp) f')) /\
      fails_at (fun i => B i || bad mk (fun i => mem i ident_read) i || bad so wt i || bad pi wp i) f' /\
      grew w w' (ident_request mk ++
        if mi =? 0 then []
        else [DRequest (HWrite so (soft_place k)) (Some [soft_word k true st]);
              DRequest (HWrite pi (soft_place k)) (Some [soft_word k false st])]).
  Proof.
    intros Hst Hk Mo Hall Ha Hov Hf mi so pi wt wp.
    destruct (honest_identifier_mem a Hok w mk mem Mo (steady_reads a v Hv mem Hmem _)) as (ri & w1 & E1 & R1 & L1 & _).
    pose proof R1 as [[Ai Fi] RI].
    assert (M4 : mr_modules ri = mi).
    { apply mask_ext. intros i. unfold mi. rewrite good_mask_bit by exact Mo. rewrite (rrep_modules _ _ _ i R1).
      unfold ident_told, told. destruct (mem i ident_read); reflexivity. }
    assert (Mo4 : mask_ok mi = true) by now apply good_mask_mok.
    assert (MoS : mask_ok so = true) by now apply ports_where_mok.
    assert (MoP : mask_ok pi = true) by now apply ports_where_mok.
    assert (Hgr : split_modules_by_identifier (mr_modules ri) (mr_data ri) = Ok (if mi =? 0 then [] else [(k, mi)])).
    { rewrite <- M4. apply uniform_groups; [exact Ai|]. intros i x Hx. destruct (RI i) as [G _]. unfold rget in G.
      rewrite G in Hx. destruct (N.testbit mk i) eqn:Em; [|discriminate]. apply (Hall i); [exact Em|].
      destruct (ident_told mem i); [congruence|discriminate]. }
    destruct (keep_module_data mk modes (mr_modules ri)) as [su mo] eqn:EK.
    destruct (keep_eq _ _ _ _ _ Ha EK) as [Ak Gk].
    assert (su = mi) as ->.
    { apply mask_ext. intros i. rewrite (testbit_get _ _ i Ak), Gk, M4. unfold mi. rewrite good_mask_bit by exact Mo.
      rewrite (testbit_get _ _ i Ha). destruct (get mk modes i), (is_good (mem i ident_read)); reflexivity. }
    assert (Hov' : forall i x, get mi mo i = Some x -> overridden x = soft i).
    { intros i x Hx. rewrite Gk in Hx. destruct (N.testbit (mr_modules ri) i); [eauto|discriminate]. }
    set (f4 := failed_merge f (mr_failures ri)) in *.
    assert (F4 : fails_at (fun i => B i || bad mk (fun i => mem i ident_read) i) f4).
    { apply fails_merge; [exact Hf|]. eapply fails_ext; [|exact (fails_rrep _ _ _ R1)]. intros i. unfold bad, ident_told, told.
      now destruct (mem i ident_read). }
    assert (Start : forall X, X = set_software_power_state sp (mkResult mk modes f) st w ->
       X = cbind (soft_groups sp st (if mi =? 0 then [] else [(k, mi)]) (mi, mo, f4)) (fun s =>
        cret (Ok (ack_new (fst (fst s)) (snd s)))) w1).
    { intros X ->. unfold set_software_power_state. cbn [mr_modules mr_data mr_failures].
      destruct st; [congruence| |]; (erewrite cbind_ok by exact E1; rewrite Hgr;
        erewrite cbind_ok by reflexivity; rewrite EK; reflexivity). }
    rewrite (Start _ eq_refl). clear Start.
    destruct (N.eqb_spec mi 0) as [Hz|Hz].
    - assert (S0 : so = 0) by (apply mask_ext; intros i; unfold so; rewrite ports_where_bit, Hz, N.bits_0 by exact Mo4; reflexivity).
      assert (P0 : pi = 0) by (apply mask_ext; intros i; unfold pi; rewrite ports_where_bit, Hz, N.bits_0 by exact Mo4; reflexivity).
      assert (M5 : good_mask pi wp = 0) by (apply mask_ext; intros i; rewrite good_mask_bit, P0, N.bits_0 by exact MoP; reflexivity).
      exists w1, f4. split.
      { cbn [soft_groups]. erewrite cbind_ok by reflexivity. cbn [fst snd]. now rewrite M5, Hz. }
      split; [|rewrite app_nil_r; exact L1].
      eapply fails_ext; [|exact F4]. intros i. cbv beta. unfold bad at 3 4. now rewrite S0, P0, !N.bits_0, !orb_false_r.
    - cbn [soft_groups].
      assert (ES : fst (filter_module_data mi mo (fun i x => m_contains mi i && overridden x)) = so).
      { destruct (filter_module_data mi mo _) as [x y] eqn:EF. destruct (filter_eq _ _ _ _ _ Mo4 EF) as [A' G'].
        cbn [fst]. apply mask_ext. intros i. unfold so. rewrite ports_where_bit by exact Mo4.
        rewrite (testbit_get _ _ i A'), G', (testbit_get _ _ i Ak). pose proof (Hov' i) as O. pose proof (testbit_get _ _ i Ak) as TG.
        destruct (get mi mo i) as [z|]; [|reflexivity]. rewrite m_contains_testbit, TG, (O z eq_refl). now destruct (soft i). }
      assert (EP : fst (filter_module_data mi mo (fun i x => m_contains mi i && negb (overridden x))) = pi).
      { destruct (filter_module_data mi mo (fun i x => m_contains mi i && negb (overridden x))) as [x y] eqn:EF. destruct (filter_eq _ _ _ _ _ Mo4 EF) as [A' G'].
        cbn [fst]. apply mask_ext. intros i. unfold pi. rewrite ports_where_bit by exact Mo4.
        rewrite (testbit_get _ _ i A'), G', (testbit_get _ _ i Ak). pose proof (Hov' i) as O. pose proof (testbit_get _ _ i Ak) as TG.
        destruct (get mi mo i) as [z|]; [|reflexivity]. rewrite m_contains_testbit, TG, (O z eq_refl). now destruct (soft i). }
      destruct (filter_module_data mi mo (fun i x => m_contains mi i && overridden x)) as [so' y1]. cbn [fst] in ES. subst so'.
      destruct (filter_module_data mi mo (fun i x => m_contains mi i && negb (overridden x))) as [pi' y2]. cbn [fst] in EP. subst pi'.
      destruct (write_step w1 so (soft_place k) [soft_word k true st] _ _ eq_refl MoS F4) as (r1 & Ew1 & _ & D1 & F5).
      fold wt in D1, F5. set (w2 := next a w1 (HWrite so (soft_place k)) (Some [soft_word k true st])) in *.
      destruct (write_step w2 pi (soft_place k) [soft_word k false st] _ _ eq_refl MoP F5) as (r2 & Ew2 & _ & D2 & F6).
      fold wp in D2, F6. set (w3 := next a w2 (HWrite pi (soft_place k)) (Some [soft_word k false st])) in *.
      assert (S1 : exists s1, soft_write sp k st true so (mi, mo, f4) w1 = (w2, Ok s1) /\ snd s1 = failed_merge f4 (mr_failures r1)).
      { unfold soft_write. rewrite (word_eq k true st Hk). erewrite cbind_ok by reflexivity. cbn [fst snd].
        erewrite cbind_ok by exact Ew1. unfold remove_module_data. eexists. split; reflexivity. }
      destruct S1 as ([[x1 y3] g1] & S1 & G1). cbn [snd] in G1. subst g1.
      assert (S2 : exists y, soft_write sp k st false pi (x1, y3, failed_merge f4 (mr_failures r1)) w2 =
                   (w3, Ok (good_mask pi wp, y, failed_merge (failed_merge f4 (mr_failures r1)) (mr_failures r2)))).
      { unfold soft_write. rewrite (word_eq k false st Hk). erewrite cbind_ok by reflexivity. cbn [fst snd].
        erewrite cbind_ok by exact Ew2. unfold remove_module_data. rewrite D2. eexists. reflexivity. }
      destruct S2 as (y4 & S2).
      exists w3. eexists. split; [|split].
      + erewrite cbind_ok; [|erewrite cbind_ok by exact S1; erewrite cbind_ok by exact S2; reflexivity].
        cbn [fst snd]. reflexivity.
      + exact F6.
      + eapply grew_trans; [exact L1|].
        change [?x; ?y] with ([x] ++ [y]). eapply grew_trans; apply grew_next.
  Qed.

  Lemma mode_get w m r C : (forall i, v (HStatus m) None i = hs_verdict a (w_sp w) (HStatus m) None i) ->
    rrep m (power_says (hs_verdict a (w_sp w) (HStatus m) None) C) r ->
    (forall i c, N.testbit m i = true -> readable (hs_verdict a (w_sp w) (HStatus m) None) i = true ->
       (C i = inl c <-> control_says mem i = inl c)) ->
    forall i, rget r i = if N.testbit m i then match mode_at v mem m i with inl x => Some x | inr _ => None end else None.
  Proof.
    intros Es R Cs i. destruct R as [_ R]. destruct (R i) as [G _]. rewrite G. destruct (N.testbit m i) eqn:Em; [|reflexivity].
    specialize (Cs i). unfold mode_at, power_says. unfold readable in Cs. rewrite Es.
    destruct (hs_verdict a (w_sp w) (HStatus m) None i) as [d|] eqn:E; [|reflexivity].
    destruct (negb (supplied (hd 0 d)) || held_in_reset (hd 0 d)) eqn:Off; [reflexivity|].
    assert (Rd : supplied (hd 0 d) && negb (held_in_reset (hd 0 d)) = true).
    { destruct (supplied (hd 0 d)), (held_in_reset (hd 0 d)); try discriminate. reflexivity. }
    specialize (fun c => Cs c Em Rd).
    destruct (C i) as [c|e].
    - rewrite (proj1 (Cs c) eq_refl). reflexivity.
    - destruct (control_says mem i) as [c|e']; [|reflexivity]. specialize (proj2 (Cs c) eq_refl). discriminate.
  Qed.

  (** The steps before the software part. *)
  Lemma pins_exact w m st : st <> PowerOff -> m < 2 ^ 64 ->
    (forall i id, member i m -> ident_told mem i = inl id -> supported_kind id = true) ->
    (st = PowerHigh -> forall i x, member i m -> mode_at v mem m i = inl x -> pm_state x <> PowerOff) ->
    exists w' modes f ds, set_power sp m st w = set_software_power_state sp (mkResult (awake v mem st m) modes f) st w' /\
      mask_ok (awake v mem st m) = true /\ (forall i, N.testbit (awake v mem st m) i = true -> N.testbit m i = true) /\
      aligned (awake v mem st m) modes /\
      (forall i x, get (awake v mem st m) modes i = Some x -> mode_at v mem m i = inl x) /\
      fails_at (fun i => (N.testbit m i && negb (N.testbit (known v mem m) i)) || bad (known v mem m) (status_at v mem m) i ||
        bad (to_reset v mem m) (v (HAssertReset (to_reset v mem m)) None) i ||
        bad (to_raise v mem m) (v (HEnablePower (to_raise v mem m)) None) i ||
        bad (treated v mem m) (v (lpmode_request st (treated v mem m)) None) i ||
        bad (to_raise v mem m) (v (HDeassertReset (to_raise v mem m)) None) i) f /\
      Forall only_looks ds /\
      grew w w' (DRequest (HStatus m) None :: ds ++ DRequest (HStatus (known v mem m)) None ::
        (if to_reset v mem m =? 0 then [] else [DRequest (HAssertReset (to_reset v mem m)) None; DSleep 10]) ++
        (if to_raise v mem m =? 0 then [] else [DRequest (HEnablePower (to_raise v mem m)) None]) ++
        [DRequest (lpmode_request st (treated v mem m)) None] ++
        (if to_raise v mem m =? 0 then [] else [DRequest (HDeassertReset (to_raise v mem m)) None; DSleep 2000000])).
  Proof.
    intros Hst Hm Hall Hoff. assert (Hm' := Hm). rewrite <- mask_ok_lt in Hm'.
    set (m1 := known v mem m). set (m2 := looked_at v mem m). set (ra := to_raise v mem m). set (re := to_reset v mem m).
    set (m3 := treated v mem m). set (m4 := pinned v mem st m). set (m5 := awake v mem st m).
    destruct (power_rrep a Hok w m mem Hm' (steady_reads a v Hv mem Hmem _)) as (rp & w1 & C & ds & Ep & _ & Lp & Od & Rp & Cs & _).
    { intros i id Hi _ Hid. apply (Hall i id); [now apply member_testbit|exact Hid]. }
    pose proof (mode_get w m rp C (fun i => eq_sym (Hv _ _ _ i)) Rp Cs) as Gp.
    pose proof Rp as [[Ap Fp] _].
    assert (M1 : mr_modules rp = m1).
    { apply mask_ext. intros i. unfold m1, known. rewrite passed_bit by exact Hm'.
      rewrite (testbit_get _ _ i Ap). fold (rget rp i). rewrite Gp. destruct (N.testbit m i); [|reflexivity].
      destruct (mode_at v mem m i); reflexivity. }
    rewrite M1 in Ap. assert (Mo1 : mask_ok m1 = true) by apply Ap.
    assert (Sub1 : forall i, N.testbit m1 i = true -> N.testbit m i = true).
    { intros i. unfold m1, known. rewrite passed_bit by exact Hm'. now destruct (N.testbit m i). }
    assert (F1 : fails_at (fun i => N.testbit m i && negb (N.testbit m1 i)) (mr_failures rp)).
    { split; [exact Fp|]. intros i. rewrite (rrep_failed _ _ _ i Rp). rewrite <- M1, (rrep_modules _ _ _ i Rp).
      destruct (N.testbit m i); [|reflexivity]. now destruct (power_says _ C i). }
    assert (NoOff : (match st with PowerHigh => true | _ => false end) && existsb is_off (mr_data rp) = false).
    { destruct st; try reflexivity. cbn [andb].
      destruct (existsb is_off (mr_data rp)) eqn:X; [|reflexivity]. apply existsb_exists in X.
      destruct X as (x & Hx & Ho). apply in_data_rget in Hx; [|apply Rp]. destruct Hx as [i Hx].
      rewrite Gp in Hx. destruct (N.testbit m i) eqn:Em; [|discriminate]. destruct (mode_at v mem m i) as [y|] eqn:Ey; [|discriminate].
      injection Hx as ->. destruct (Hoff eq_refl i x (proj2 (member_testbit _ _) Em) Ey). now apply is_off_state. }
    (* second status *)
    destruct (honest_status a Hok w1 m1 Mo1) as (rs & Es & Ms & Rs). set (w2 := next a w1 (HStatus m1) None) in *.
    assert (M2 : mr_modules rs = m2).
    { rewrite Ms. apply mask_ext. intros i. unfold m2, looked_at. fold m1. rewrite !good_mask_bit by exact Mo1.
      unfold vd, status_at. fold m1. now rewrite Hv. }
    assert (F2 : fails_at (fun i => N.testbit m i && negb (N.testbit m1 i) || bad m1 (status_at v mem m) i)
                   (failed_merge (mr_failures rp) (mr_failures rs))).
    { apply fails_merge; [exact F1|]. eapply fails_ext; [|exact (fails_told _ _ _ _ Rs)]. intros i. unfold bad, vd, status_at.
      fold m1. now rewrite Hv. }
    set (f2 := failed_merge (mr_failures rp) (mr_failures rs)) in *.
    assert (Sub2 : forall i, N.testbit m2 i = true -> N.testbit m1 i = true).
    { intros i. unfold m2, looked_at. fold m1. rewrite good_mask_bit by exact Mo1. now destruct (N.testbit m1 i). }
    assert (Mo2 : mask_ok m2 = true) by (exact (sub_mok _ _ Sub2 Mo1)).
    pose proof Rs as [[As _] RS]. rewrite M2 in As.
    assert (GS : forall i, get m2 (mr_data rs) i = if N.testbit m1 i then match status_at v mem m i with inl d => Some (hd 0 d) | _ => None end else None).
    { intros i. destruct (RS i) as [G _]. unfold rget in G. rewrite M2 in G. rewrite G.
      destruct (N.testbit m1 i) eqn:Em; [|reflexivity]. unfold told, vd, status_at. fold m1. rewrite Hv. now destruct (v (HStatus m1) None i). }
    assert (NE : fst (filter_module_data m2 (mr_data rs) (fun _ s => negb (st_contains s (N.lor ST_POWER_GOOD ST_ENABLED))
                    || st_contains s ST_RESET)) = ra).
    { destruct (filter_module_data m2 (mr_data rs) _) as [x y] eqn:EF. destruct (filter_eq _ _ _ _ _ Mo2 EF) as [A' G'].
      cbn [fst]. apply mask_ext. intros i. unfold ra, to_raise. fold m2. rewrite ports_where_bit by exact Mo2.
      rewrite (testbit_get _ _ i A'), (testbit_get _ _ i As), G', GS.
      destruct (N.testbit m1 i); [|reflexivity]. destruct (status_at v mem m i) as [d|]; [|reflexivity].
      rewrite contains_supplied, contains_reset. now destruct (negb (supplied (hd 0 d)) || held_in_reset (hd 0 d)). }
    assert (Sra : forall i, N.testbit ra i = true -> N.testbit m2 i = true).
    { intros i. unfold ra, to_raise. fold m2. rewrite ports_where_bit by exact Mo2. now destruct (N.testbit m2 i). }
    assert (Mra : mask_ok ra = true) by exact (sub_mok _ _ Sra Mo2).
    assert (NR : m_remove ra (fst (filter_module_data m2 (mr_data rs) (fun _ s => st_contains s ST_RESET))) = re).
    { destruct (filter_module_data m2 (mr_data rs) (fun _ s => st_contains s ST_RESET)) as [x y] eqn:EF. destruct (filter_eq _ _ _ _ _ Mo2 EF) as [A' G'].
      cbn [fst]. apply mask_ext. intros i. rewrite m_remove_spec by exact Mra. unfold re, to_reset. fold ra. rewrite ports_where_bit by exact Mra.
      specialize (Sra i). destruct (N.testbit ra i) eqn:Er; [|reflexivity]. specialize (Sra eq_refl). cbn [andb].
      rewrite (testbit_get _ _ i A'), G', GS. rewrite (Sub2 i Sra).
      unfold m2, looked_at in Sra. fold m1 in Sra. rewrite good_mask_bit, andb_true_iff in Sra by exact Mo1.
      destruct Sra as [_ Sra]. destruct (status_at v mem m i) as [d|]; [|discriminate]. rewrite contains_reset.
      now destruct (held_in_reset (hd 0 d)). }
    assert (Sre : forall i, N.testbit re i = true -> N.testbit ra i = true).
    { intros i. unfold re, to_reset. fold ra. rewrite ports_where_bit by exact Mra. now destruct (N.testbit ra i). }
    assert (Mre : mask_ok re = true) by exact (sub_mok _ _ Sre Mra).
    assert (Z : ra = 0 -> re = 0).
    { intros E. apply mask_ext. intros i. rewrite N.bits_0. specialize (Sre i). rewrite E, N.bits_0 in Sre.
      destruct (N.testbit re i); [now rewrite Sre|reflexivity]. }
    (* reset asserted where it is not *)
    set (B2 := fun i => N.testbit m i && negb (N.testbit m1 i) || bad m1 (status_at v mem m) i) in *.
    set (b3 := bad re (v (HAssertReset re) None)).
    assert (S1 : exists w3 f3 mx, (if Nat.ltb 0 (m_count re)
              then cbind (assert_reset sp re) (fun a0 => cbind (sleep T_RESET_INIT) (fun _ =>
                   cret (Ok (mr_modules a0, failed_merge f2 (mr_failures a0)))))
              else cret (Ok (m2, f2))) w2 = (w3, Ok (mx, f3)) /\ fails_at (fun i => B2 i || b3 i) f3 /\ (re = 0 -> mx = m2) /\
              grew w2 w3 (if re =? 0 then [] else [DRequest (HAssertReset re) None; DSleep T_RESET_INIT])).
    { rewrite (ltb_count v mem Hmem) by exact Mre. destruct (N.eqb_spec re 0) as [Hz|Hz]; cbn [negb].
      - exists w2, f2, m2. split; [reflexivity|]. split; [|split; [auto|apply grew_refl]].
        eapply fails_ext; [|exact F2]. intros i. unfold b3, bad. now rewrite Hz, N.bits_0, orb_false_r.
      - destruct (ack_step w2 (HAssertReset re) B2 f2 eq_refl (fun _ _ => eq_refl) Mre F2) as (rr & Ea & Ma & Fa).
        eexists _, _, _. unfold assert_reset. erewrite cbind_ok by exact Ea. erewrite cbind_ok by reflexivity.
        split; [reflexivity|]. split; [exact Fa|]. split; [now intros|].
        change [DRequest (HAssertReset re) None; DSleep T_RESET_INIT] with ([DRequest (HAssertReset re) None] ++ [DSleep T_RESET_INIT]).
        eapply grew_trans; [apply grew_next|apply grew_sleep]. }
    destruct S1 as (w3 & f3 & mx & E3 & F3 & Hmx & L3). set (B3 := fun i => B2 i || b3 i) in *.
    (* power *)
    set (b4 := bad ra (v (HEnablePower ra) None)).
    assert (S2 : exists w4 f4, (if Nat.ltb 0 (m_count ra)
              then cbind (enable_power sp ra) (fun a0 =>
                   cret (Ok (mr_modules a0, failed_merge f3 (mr_failures a0))))
              else cret (Ok (mx, f3))) w3 = (w4, Ok (m3, f4)) /\ fails_at (fun i => B3 i || b4 i) f4 /\
              grew w3 w4 (if ra =? 0 then [] else [DRequest (HEnablePower ra) None])).
    { rewrite (ltb_count v mem Hmem) by exact Mra. unfold m3, treated. fold ra m2. destruct (N.eqb_spec ra 0) as [Hz|Hz]; cbn [negb].
      - exists w3, f3. split; [now rewrite (Hmx (Z Hz))|]. split; [|apply grew_refl].
        eapply fails_ext; [|exact F3]. intros i. unfold b4, bad. now rewrite Hz, N.bits_0, orb_false_r.
      - destruct (ack_step w3 (HEnablePower ra) B3 f3 eq_refl (fun _ _ => eq_refl) Mra F3) as (rr & Ea & Ma & Fa).
        eexists _, _. unfold enable_power. erewrite cbind_ok by exact Ea. rewrite Ma.
        split; [reflexivity|]. split; [exact Fa|apply grew_next]. }
    destruct S2 as (w4 & f4 & E4 & F4 & L4). set (B4 := fun i => B3 i || b4 i) in *.
    assert (Sub3 : forall i, N.testbit m3 i = true -> N.testbit m2 i = true).
    { intros i. unfold m3, treated. fold ra m2. destruct (ra =? 0); [auto|]. rewrite good_mask_bit by exact Mra.
      rewrite andb_true_iff. intros [H _]. auto. }
    assert (Mo3 : mask_ok m3 = true) by exact (sub_mok _ _ Sub3 Mo2).
    (* low power *)
    set (b5 := bad m3 (v (lpmode_request st m3) None)).
    assert (Hlp : exists rl w5, match st with PowerLow => assert_lpmode sp m3 | _ => deassert_lpmode sp m3 end w4 = (w5, Ok rl) /\
       mr_modules rl = m4 /\ fails_at (fun i => B4 i || b5 i) (failed_merge f4 (mr_failures rl)) /\
       grew w4 w5 [DRequest (lpmode_request st m3) None]).
    { destruct (ack_step w4 (lpmode_request st m3) B4 f4) as (rl & El & Ml & Fl);
        [destruct st; reflexivity|destruct st; reflexivity|destruct st; exact Mo3|exact F4|].
      replace (request_modules (lpmode_request st m3)) with m3 in * by (destruct st; reflexivity).
      exists rl, (next a w4 (lpmode_request st m3) None). split; [destruct st; [congruence|exact El|exact El]|].
      split; [exact Ml|]. split; [exact Fl|apply grew_next]. }
    destruct Hlp as (rl & w5 & El & M4 & F5 & L5). set (B5 := fun i => B4 i || b5 i) in *.
    set (f5 := failed_merge f4 (mr_failures rl)) in *.
    (* out of reset *)
    set (b6 := bad ra (v (HDeassertReset ra) None)).
    assert (S4 : exists w6 f6, (if Nat.ltb 0 (m_count ra)
              then cbind (deassert_reset sp ra) (fun a0 => cbind (sleep T_RESET) (fun _ =>
                   cret (Ok (mr_modules a0, failed_merge f5 (mr_failures a0)))))
              else cret (Ok (mr_modules rl, f5))) w5 = (w6, Ok (m5, f6)) /\ fails_at (fun i => B5 i || b6 i) f6 /\
              grew w5 w6 (if ra =? 0 then [] else [DRequest (HDeassertReset ra) None; DSleep T_RESET])).
    { rewrite (ltb_count v mem Hmem) by exact Mra. unfold m5, awake. fold ra m4. destruct (N.eqb_spec ra 0) as [Hz|Hz]; cbn [negb].
      - exists w5, f5. split; [now rewrite M4|]. split; [|apply grew_refl].
        eapply fails_ext; [|exact F5]. intros i. unfold b6, bad. now rewrite Hz, N.bits_0, orb_false_r.
      - destruct (ack_step w5 (HDeassertReset ra) B5 f5 eq_refl (fun _ _ => eq_refl) Mra F5) as (rr & Ea & Ma & Fa).
        eexists _, _. unfold deassert_reset. erewrite cbind_ok by exact Ea. erewrite cbind_ok by reflexivity. rewrite Ma.
        split; [reflexivity|]. split; [exact Fa|].
        change [DRequest (HDeassertReset ra) None; DSleep T_RESET] with ([DRequest (HDeassertReset ra) None] ++ [DSleep T_RESET]).
        eapply grew_trans; [apply grew_next|apply grew_sleep]. }
    destruct S4 as (w6 & f6 & E6 & F6 & L6).
    assert (Sub5 : forall i, N.testbit m5 i = true -> N.testbit m1 i = true).
    { intros i. unfold m5, awake. fold ra m4. destruct (ra =? 0).
      - unfold m4, pinned. fold m3. rewrite good_mask_bit by exact Mo3. rewrite andb_true_iff. intros [H _]. auto.
      - rewrite good_mask_bit by exact Mra. rewrite andb_true_iff. intros [H _]. auto. }
    assert (Mo5 : mask_ok m5 = true) by exact (sub_mok _ _ Sub5 Mo1).
    destruct (keep_module_data m1 (mr_data rp) m5) as [kk modes] eqn:EK.
    destruct (keep_eq _ _ _ _ _ Ap EK) as [Ak Gk].
    assert (kk = m5) as ->.
    { apply mask_ext. intros i. rewrite (testbit_get _ _ i Ak), Gk. pose proof (testbit_get _ _ i Ap) as T.
      specialize (Sub5 i). destruct (N.testbit m5 i); [|reflexivity]. rewrite Sub5 in T by reflexivity.
      destruct (get m1 (mr_data rp) i); [reflexivity|discriminate]. }
    exists w6, modes, f6, ds. split.
    { assert (set_power sp m st w = set_power_on sp m st w) as -> by (destruct st; [congruence|reflexivity|reflexivity]).
      unfold set_power_on. erewrite cbind_ok by exact Ep. rewrite NoOff. rewrite M1.
      erewrite cbind_ok by exact Es. fold f2. rewrite M2.
      destruct (filter_module_data m2 (mr_data rs) (fun _ s => negb _ || _)) as [ne ned]. cbn [fst] in NE. subst ne.
      destruct (filter_module_data m2 (mr_data rs) (fun _ s => st_contains s ST_RESET)) as [nr nrd]. cbn [fst] in NR.
      cbv zeta. rewrite NR. erewrite cbind_ok by exact E3. cbn [fst snd].
      erewrite cbind_ok by exact E4. cbn [fst snd]. erewrite cbind_ok by exact El. fold f5.
      erewrite cbind_ok by exact E6. cbn [fst snd]. now rewrite EK. }
    split; [exact Mo5|]. split; [intros i H; auto|]. split; [exact Ak|]. split.
    { intros i x Hx. rewrite Gk in Hx. destruct (N.testbit m5 i) eqn:E5; [|discriminate].
      assert (rget rp i = Some x) as Hx' by (unfold rget; now rewrite M1). rewrite Gp in Hx'.
      destruct (N.testbit m i); [|discriminate]. destruct (mode_at v mem m i); [congruence|discriminate]. }
    split; [exact F6|]. split.
    { eapply Forall_impl; [|exact Od]. intros [q [d|]|]; cbn; try tauto; destruct q; tauto. }
    change (DRequest (HStatus m) None :: ds ++ ?t) with ((DRequest (HStatus m) None :: ds) ++ t).
    eapply grew_trans; [exact Lp|].
    change (DRequest (HStatus m1) None :: ?t) with ([DRequest (HStatus m1) None] ++ t).
    eapply grew_trans; [apply grew_next|]. eapply grew_trans; [exact L3|]. eapply grew_trans; [exact L4|].
    eapply grew_trans; [exact L5|exact L6].
  Qed.

  Lemma bad_refuses x f i : bad x f i = true <-> refuses x f i.
  Proof. unfold bad, refuses. now rewrite member_testbit, andb_true_iff, negb_true_iff. Qed.

  Lemma set_power_exact w m k st : st <> PowerOff -> m < 2 ^ 64 -> supported_kind k = true -> all_kind k m mem ->
    (st = PowerHigh -> forall i x, member i m -> mode_at v mem m i = inl x -> pm_state x <> PowerOff) ->
    exists r ds, snd (set_power sp m st w) = Ok r /\ mr_modules r = reported v mem k st m /\
      one_each (mr_modules r) (mr_data r) /\ wf_failed (mr_failures r) /\
      (forall i, failed r i <-> broke v mem k st m i) /\ Forall only_looks ds /\
      deeds (set_power sp m st) w = DRequest (HStatus m) None :: ds ++ power_deeds v mem st m ++ software_requests v mem k st m.
  Proof.
    intros Hst Hm Hk Hall Hoff.
    destruct (pins_exact w m st Hst Hm) as (w1 & modes & f & ds & E & Mo & Sub & Am & Gm & F & Od & L); [|exact Hoff|].
    { intros i id Hi Hid. now rewrite (Hall i id Hi Hid). }
    assert (Hk1 : forall i id, N.testbit (awake v mem st m) i = true -> ident_told mem i = inl id -> id = k).
    { intros i id Hi. apply Hall. apply member_testbit. auto. }
    assert (Hs : forall i x, get (awake v mem st m) modes i = Some x -> overridden x = by_software v mem m i).
    { intros i x Hx. unfold by_software. rewrite (Gm i x Hx). reflexivity. }
    destruct (software_exact w1 k st (awake v mem st m) modes f _ (by_software v mem m) Hst Hk Mo Hk1 Am Hs F) as (w2 & f' & E2 & F2 & L2).
    fold (identified v mem st m) in *. fold (soft_ones v mem st m) in *. fold (pin_ones v mem st m) in *.
    assert (MoI : mask_ok (identified v mem st m) = true) by now apply good_mask_mok.
    assert (MoP : mask_ok (pin_ones v mem st m) = true) by now apply ports_where_mok.
    exists (ack_new (reported v mem k st m) f'), ds. rewrite E, E2. split; [reflexivity|]. split; [reflexivity|].
    split. { apply one_each_aligned. split; [now apply good_mask_mok|]. apply repeat_length. }
    destruct F2 as [Fa Fb]. split; [now apply one_each_aligned|]. split; [|split; [exact Od|]].
    - intros i. unfold failed. cbn [mr_failures ack_new]. rewrite member_testbit, Fb. unfold broke, pin_refused.
      rewrite !orb_true_iff, !bad_refuses, andb_true_iff, negb_true_iff, !member_testbit.
      rewrite <- (not_true_iff_false (N.testbit (known v mem m) i)).
      unfold soft_request. tauto.
    - rewrite <- E in E2. eapply deeds_grew; [exact E2|]. unfold power_deeds, software_requests.
      match goal with |- grew _ _ ?x => match type of L with grew _ _ ?y => match type of L2 with grew _ _ ?z =>
        replace x with (y ++ z); [exact (grew_trans _ _ _ _ _ L L2)|] end end end.
      cbn [app]. rewrite <- !app_assoc. cbn [app]. rewrite <- !app_assoc. reflexivity.
  Qed.

  (** Who is reported in which way. *)
  Section Told.
    Context (m : N) (Hm : m < 2 ^ 64) (k : Identifier) (st : PowerState).
    Let m1 := known v mem m. Let m2 := looked_at v mem m. Let ra := to_raise v mem m. Let m3 := treated v mem m.
    Let m4 := pinned v mem st m. Let m5 := awake v mem st m. Let m6 := identified v mem st m.
    Lemma Mo0 : mask_ok m = true. Proof. now rewrite mask_ok_lt. Qed.
    Lemma b1 i : N.testbit m1 i = N.testbit m i && match mode_at v mem m i with inl _ => true | inr _ => false end.
    Proof. unfold m1, known. apply passed_bit. apply Mo0. Qed.
    Lemma Mo1 : mask_ok m1 = true.
    Proof. apply (sub_mok _ m); [|apply Mo0]. intros i. rewrite b1. now destruct (N.testbit m i). Qed.
    Lemma b2 i : N.testbit m2 i = N.testbit m1 i && is_good (status_at v mem m i).
    Proof. apply good_mask_bit, Mo1. Qed.
    Lemma Mo2 : mask_ok m2 = true. Proof. apply good_mask_mok, Mo1. Qed.
    Lemma Mra : mask_ok ra = true. Proof. apply ports_where_mok, Mo2. Qed.
    Lemma sra i : N.testbit ra i = true -> N.testbit m2 i = true.
    Proof. unfold ra, to_raise. rewrite ports_where_bit by apply Mo2. now destruct (N.testbit (looked_at v mem m) i) eqn:E. Qed.
    Lemma b3 i : N.testbit m3 i = if ra =? 0 then N.testbit m2 i else N.testbit ra i && is_good (v (HEnablePower ra) None i).
    Proof. unfold m3, treated. fold ra. destruct (ra =? 0); [reflexivity|]. apply good_mask_bit, Mra. Qed.
    Lemma Mo3 : mask_ok m3 = true.
    Proof. apply (sub_mok _ m2); [|apply Mo2]. intros i. rewrite b3. destruct (ra =? 0); [auto|]. rewrite andb_true_iff. intros [H _]. now apply sra. Qed.
    Lemma b4 i : N.testbit m4 i = N.testbit m3 i && is_good (v (lpmode_request st m3) None i).
    Proof. apply good_mask_bit, Mo3. Qed.
    Lemma b5 i : N.testbit m5 i = if ra =? 0 then N.testbit m4 i else N.testbit ra i && is_good (v (HDeassertReset ra) None i).
    Proof. unfold m5, awake. fold ra. destruct (ra =? 0); [reflexivity|]. apply good_mask_bit, Mra. Qed.
    Lemma s5 i : N.testbit m5 i = true -> N.testbit m2 i = true.
    Proof.
      rewrite b5. destruct (ra =? 0) eqn:E; rewrite ?b4, ?b3, ?E, !andb_true_iff; [tauto|]. intros [H _]. now apply sra.
    Qed.
    Lemma Mo5 : mask_ok m5 = true. Proof. exact (sub_mok _ _ s5 Mo2). Qed.
    Lemma b6 i : N.testbit m6 i = N.testbit m5 i && is_good (mem i ident_read).
    Proof. apply good_mask_bit, Mo5. Qed.
    Lemma Mo6 : mask_ok m6 = true. Proof. apply good_mask_mok, Mo5. Qed.
    Lemma bs i : N.testbit (soft_ones v mem st m) i = N.testbit m6 i && by_software v mem m i.
    Proof. apply ports_where_bit, Mo6. Qed.
    Lemma bp i : N.testbit (pin_ones v mem st m) i = N.testbit m6 i && negb (by_software v mem m i).
    Proof. apply ports_where_bit, Mo6. Qed.
    Lemma br i : N.testbit (reported v mem k st m) i =
      N.testbit (pin_ones v mem st m) i && is_good (soft_request v k st false (pin_ones v mem st m) i).
    Proof. apply good_mask_bit. apply ports_where_mok, Mo6. Qed.

    Lemma reported_pin i : member i (reported v mem k st m) -> (broke v mem k st m i <-> pin_refused v mem st m i).
    Proof.
      rewrite member_testbit, br, bp, b6, !andb_true_iff, negb_true_iff. intros (((H5 & Hi) & Hs) & Hw).
      split; [|unfold broke; tauto]. unfold broke, refuses. rewrite !member_testbit.
      pose proof (s5 i H5) as H2. pose proof H2 as H2'. rewrite b2, andb_true_iff in H2'. destruct H2' as [H1 H2s].
      fold m1 ra m5. rewrite bs, Hs, andb_false_r.
      intros [[_ H]|[[_ H]|[H|[[H H']|[[_ H]|[[H _]|[_ H]]]]]]]; try congruence; try tauto.
      exfalso. rewrite b5 in H5. destruct (N.eqb_spec ra 0) as [Z|Z]; [now rewrite Z, N.bits_0 in H|].
      rewrite H' in H5. now rewrite andb_false_r in H5.
    Qed.
    Lemma unreported i : member i m -> ~ broke v mem k st m i ->
      (~ member i (reported v mem k st m) <-> (ra <> 0 /\ ~ member i ra) \/ by_software v mem m i = true).
    Proof.
      rewrite !member_testbit. unfold broke, pin_refused, refuses. rewrite !member_testbit. fold m1 ra m3 m5.
      rewrite br, bs, bp, b6. intros H0 B.
      assert (G : forall b, ~ b = false <-> b = true) by (intros []; intuition congruence).
      assert (H1 : N.testbit m1 i = true) by (destruct (N.testbit m1 i) eqn:E; [reflexivity|]; exfalso; apply B; left; split; congruence).
      rewrite H1 in B.
      assert (Gs : is_good (status_at v mem m i) = true) by (destruct (is_good (status_at v mem m i)) eqn:E; [reflexivity|]; exfalso; apply B; auto).
      assert (H2 : N.testbit m2 i = true) by (now rewrite b2, H1, Gs).
      rewrite b5, b4, b3 in *. destruct (N.eqb_spec ra 0) as [Z|Z].
      - rewrite H2 in *. cbn [andb] in *.
        destruct (is_good (v (lpmode_request st m3) None i)) eqn:E4; [|exfalso; apply B; tauto].
        cbn [andb] in *. destruct (is_good (mem i ident_read)) eqn:E6; [|exfalso; apply B; tauto].
        cbn [andb] in *. destruct (by_software v mem m i) eqn:Eb; cbn [negb andb] in *.
        + split; [now right|discriminate].
        + destruct (is_good (soft_request v k st false (pin_ones v mem st m) i)) eqn:E7; [|exfalso; apply B; tauto].
          split; [congruence|]. intros [[H _]|H]; congruence.
      - destruct (N.testbit ra i) eqn:Er; cbn [andb] in *.
        + destruct (is_good (v (HDeassertReset ra) None i)) eqn:E5; [|exfalso; apply B; tauto].
          cbn [andb] in *. destruct (is_good (mem i ident_read)) eqn:E6; [|exfalso; apply B; tauto].
          cbn [andb] in *. destruct (by_software v mem m i) eqn:Eb; cbn [negb andb] in *.
          * split; [now right|discriminate].
          * destruct (is_good (soft_request v k st false (pin_ones v mem st m) i)) eqn:E7; [|exfalso; apply B; tauto].
            split; [congruence|]. intros [[_ H]|H]; congruence.
        + split; [|discriminate]. intros _. left. split; [exact Z|discriminate].
    Qed.
  End Told.

  Lemma power_reports w m k st : st <> PowerOff -> m < 2 ^ 64 -> supported_kind k = true -> all_kind k m mem ->
    (st = PowerHigh -> forall i x, member i m -> mode_at v mem m i = inl x -> pm_state x <> PowerOff) ->
    exists r, snd (set_power sp m st w) = Ok r /\
      (forall i, told_twice r i <-> member i (reported v mem k st m) /\ pin_refused v mem st m i) /\
      (forall i, member i m -> (told_never r i <->
         ~ broke v mem k st m i /\
         ((to_raise v mem m <> 0 /\ ~ member i (to_raise v mem m)) \/ by_software v mem m i = true))) /\
      ((to_raise v mem m = 0 \/ to_raise v mem m = looked_at v mem m) ->
       (forall i, member i m -> by_software v mem m i = false) -> (forall i, ~ pin_refused v mem st m i) ->
       forall i, member i m -> told_once r i).
  Proof.
    intros Hst Hm Hk Hall Hoff.
    destruct (set_power_exact w m k st Hst Hm Hk Hall Hoff) as (r & ds & E & Er & _ & _ & Ef & _).
    exists r. split; [exact E|].
    assert (Two : forall i, told_twice r i <-> member i (reported v mem k st m) /\ pin_refused v mem st m i).
    { intros i. unfold told_twice. rewrite Er, Ef. split; intros [A B]; (split; [exact A|]); now apply (reported_pin m Hm k st i A). }
    assert (Nev : forall i, member i m -> (told_never r i <-> ~ broke v mem k st m i /\
         ((to_raise v mem m <> 0 /\ ~ member i (to_raise v mem m)) \/ by_software v mem m i = true))).
    { intros i Hi. unfold told_never. rewrite Er, Ef. split; intros [A B].
      - split; [exact B|]. now apply (unreported m Hm k st i Hi B).
      - split; [|exact A]. now apply (unreported m Hm k st i Hi A). }
    split; [exact Two|]. split; [exact Nev|]. intros Hr Hs Hp i Hi.
    specialize (Two i). specialize (Nev i Hi). unfold told_once, told_twice, told_never in *. unfold failed in *. rewrite !member_testbit in *.
    destruct (N.testbit (mr_modules r) i) eqn:A, (N.testbit (fm_modules (mr_failures r)) i) eqn:B; try (intuition congruence).
    - exfalso. destruct (proj1 Two (conj eq_refl eq_refl)) as [_ P]. exact (Hp i P).
    - exfalso. destruct (proj1 Nev) as [NB [[Z N]|S]]; [split; discriminate| |].
      + destruct Hr as [Hr|Hr]; [congruence|]. rewrite Hr in N. apply NB. unfold broke, refuses.
        destruct (N.testbit (known v mem m) i) eqn:E1.
        * right. left. rewrite member_testbit. split; [exact E1|]. destruct (is_good (status_at v mem m i)) eqn:G; [|reflexivity].
          exfalso. apply N. pose proof (b2 m Hm i) as X. rewrite X, E1, G. reflexivity.
        * left. rewrite !member_testbit. split; congruence.
      + rewrite (Hs i) in S; [discriminate|]. now apply member_testbit.
  Qed.
End Exact.
