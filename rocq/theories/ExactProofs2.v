(** Proofs for C38: [set_power] for modules of several kinds, none under software control. *)
From Verif Require Import SpecExact ControllerProofs8 ExactProofs.
From Verif Require Import Tac.

Lemma zip_firstn {A} m (d : list A) : zip_data m d = zip_data m (firstn (length (to_indices m)) d).
Proof. unfold zip_data. apply combine_firstn_l. Qed.
Lemma keep_all g (mo : list PowerMode) : mask_ok g = true -> (length (to_indices g) <= length mo)%nat ->
  Forall (fun x => overridden x = false) mo ->
  fst (filter_module_data g mo (fun i x => m_contains g i && negb (overridden x))) = g.
Proof.
  intros Hg Hl Hf. unfold filter_module_data. rewrite zip_firstn. set (d := firstn _ mo).
  assert (A : aligned g d) by (split; [exact Hg|]; unfold d; now rewrite count_to_indices, firstn_length_le).
  fold (filter_module_data g d (fun i x => m_contains g i && negb (overridden x))).
  destruct (filter_module_data g d (fun i x => m_contains g i && negb (overridden x))) as [x y] eqn:E.
  destruct (filter_eq _ _ _ _ _ Hg E) as [A' G']. cbn [fst]. apply mask_ext. intros i.
  rewrite (testbit_get _ _ i A'), G', (testbit_get _ _ i A). pose proof (testbit_get _ _ i A) as T.
  destruct (get g d i) as [z|] eqn:Ez; [|reflexivity]. rewrite m_contains_testbit, T. cbn [andb].
  apply in_zip_get in Ez. unfold zip_data in Ez. apply in_combine_r in Ez.
  rewrite Forall_forall in Hf. rewrite (Hf z); [reflexivity|].
  unfold d in Ez. revert Ez. generalize (length (to_indices g)). clear. intros n H. rewrite <- (firstn_skipn n mo). apply in_or_app. now left.
Qed.
Lemma keep_none m g (mo : list PowerMode) : Forall (fun x => overridden x = false) mo ->
  filter_module_data m mo (fun i x => m_contains g i && overridden x) = (0, []).
Proof.
  intros Hf. unfold filter_module_data.
  replace (filter _ (zip_data m mo)) with (@nil (N * PowerMode)); [reflexivity|]. symmetry.
  unfold zip_data. revert mo Hf. induction (to_indices m) as [|i l IH]; intros [|x mo] Hf; try reflexivity.
  cbn [combine filter fst snd]. rewrite (Forall_inv Hf), andb_false_r. apply IH. exact (Forall_inv_tail Hf).
Qed.

Section Kinds.
  Context {St : Type} (a : honest St) (Hok : honest_ok a).
  Context (v : HostRequest -> option (list N) -> N -> verdict) (Hv : steady a v).
  Context (mem : N -> MemoryRead -> verdict) (Hmem : forall m rd i, v (HRead m rd) None i = mem i rd).
  Implicit Type w : world St.
  Local Notation sp := (honest_sp a).

  (** A write to a group. *)
  Lemma soft_write_step w k st ov x su mo B f : supported_kind k = true -> mask_ok x = true -> fails_at B f ->
    let wf := v (HWrite x (soft_place k)) (Some [soft_word k ov st]) in
    exists mo' f', soft_write sp k st ov x (su, mo, f) w =
        (next a w (HWrite x (soft_place k)) (Some [soft_word k ov st]), Ok (good_mask x wf, mo', f')) /\
      fails_at (fun i => B i || bad x wf i) f' /\ (mo = [] \/ x = 0 -> mo' = []).
  Proof.
    intros Hk Hx Hf wf. destruct (write_step a Hok v Hv w x (soft_place k) [soft_word k ov st] B f eq_refl Hx Hf) as (r & E & _ & D & F).
    unfold soft_write. rewrite (word_eq k ov st Hk). erewrite cbind_ok by reflexivity. cbn [fst snd].
    erewrite cbind_ok by exact E. unfold remove_module_data. rewrite D. eexists. eexists. split; [reflexivity|]. split; [exact F|].
    intros [->| ->]; [|reflexivity]. unfold zip_data. now rewrite combine_nil.
  Qed.
  Lemma bad_none f i : bad 0 f i = false. Proof. unfold bad. now rewrite N.bits_0. Qed.
  Lemma good_none f : good_mask 0 f = 0.
  Proof. apply mask_ext. intros i. now rewrite good_mask_bit, N.bits_0. Qed.

  Lemma groups_rest st gs : forall w su B f, (forall k g, In (k, g) gs -> supported_kind k = true) -> fails_at B f ->
    exists w' f' rest, soft_groups sp st gs (su, [], f) w = (w', Ok (match gs with [] => su | _ => 0 end, [], f')) /\
      fails_at B f' /\ Forall idle_write rest /\ grew w w' rest.
  Proof.
    induction gs as [|[k g] gs IH]; intros w su B f Hs Hf; cbn [soft_groups].
    - exists w, f, []. repeat split; try assumption; try apply Hf; [constructor|apply grew_refl].
    - rewrite keep_none by constructor.
      assert (filter_module_data g [] (fun i m0 => m_contains g i && negb (overridden m0)) = (0, [])) as ->.
      { unfold filter_module_data, zip_data. now rewrite combine_nil. }
      assert (Hk : supported_kind k = true) by (apply (Hs k g); now left).
      destruct (soft_write_step w k st true 0 su [] B f Hk eq_refl Hf) as (y1 & f1 & E1 & F1 & Y1).
      rewrite (Y1 (or_introl eq_refl)), good_none in E1. clear Y1 y1.
      set (w1 := next a w _ _) in E1.
      destruct (soft_write_step w1 k st false 0 0 [] _ f1 Hk eq_refl F1) as (y2 & f2 & E2 & F2 & Y2).
      rewrite (Y2 (or_introl eq_refl)), good_none in E2. clear Y2 y2.
      set (w2 := next a w1 _ _) in E2.
      destruct (IH w2 0 B f2) as (w' & f' & rest & E & F & R & L).
      { intros k' g' H. apply (Hs k' g'). now right. }
      { eapply fails_ext; [|exact F2]. intros i. cbv beta. now rewrite !bad_none, !orb_false_r. }
      exists w', f', (DRequest (HWrite 0 (soft_place k)) (Some [soft_word k true st]) ::
                      DRequest (HWrite 0 (soft_place k)) (Some [soft_word k false st]) :: rest).
      split. { erewrite cbind_ok by exact E1. erewrite cbind_ok by exact E2. etransitivity; [exact E|now destruct gs]. }
      split; [exact F|]. split; [constructor; [|constructor; [|exact R]]; eexists; eexists; reflexivity|].
      change (?x :: ?y :: rest) with ([x] ++ [y] ++ rest). eapply grew_trans; [apply grew_next|]. eapply grew_trans; [apply grew_next|exact L].
  Qed.

  Lemma supported_code k : supported_kind k = true -> exists c, k = Named c.
  Proof.
    unfold supported_kind, sff_kind, cmis_kind. rewrite !orb_true_iff, !benum_eqb_eq.
    intros [[->| ->]|[->| ->]]; eexists; reflexivity.
  Qed.

  Lemma software_kinds w st mk modes f B : st <> PowerOff -> mask_ok mk = true ->
    (forall i id, N.testbit mk i = true -> ident_told mem i = inl id -> supported_kind id = true) ->
    aligned mk modes -> (forall i x, get mk modes i = Some x -> overridden x = false) -> fails_at B f ->
    let mi := good_mask mk (fun i => mem i ident_read) in
    let grp k := ports_where mi (fun i => match ident_told mem i with inl x => benum_eqb x k | inr _ => false end) in
    let wf k := v (HWrite (grp k) (soft_place k)) (Some [soft_word k false st]) in
    (exists i j x y, N.testbit mi i = true /\ N.testbit mi j = true /\ ident_told mem i = inl x /\ ident_told mem j = inl y /\ x <> y) ->
    exists k w' f' rest, set_software_power_state sp (mkResult mk modes f) st w = (w', Ok (ack_new 0 f')) /\
      supported_kind k = true /\ grp k <> 0 /\
      (forall i id, N.testbit mi i = true -> ident_told mem i = inl id -> id = k \/ lower_code k id) /\
      fails_at (fun i => B i || bad mk (fun i => mem i ident_read) i || bad (grp k) (wf k) i) f' /\
      Forall idle_write rest /\
      grew w w' (ident_request mk ++
        DRequest (HWrite 0 (soft_place k)) (Some [soft_word k true st]) ::
        DRequest (HWrite (grp k) (soft_place k)) (Some [soft_word k false st]) :: rest).
  Proof.
    intros Hst Mo Hall Ha Hov Hf mi grp wf Two.
    destruct (honest_identifier_mem a Hok w mk mem Mo (steady_reads a v Hv mem Hmem _)) as (ri & w1 & E1 & R1 & L1 & _).
    pose proof R1 as [[Ai Fi] RI].
    assert (M4 : mr_modules ri = mi).
    { apply mask_ext. intros i. unfold mi. rewrite good_mask_bit by exact Mo. rewrite (rrep_modules _ _ _ i R1).
      unfold ident_told, told. destruct (mem i ident_read); reflexivity. }
    assert (Mo4 : mask_ok mi = true) by now apply good_mask_mok.
    assert (Gi : forall i x, get mi (mr_data ri) i = Some x <-> N.testbit mi i = true /\ ident_told mem i = inl x).
    { intros i x. destruct (RI i) as [G _]. unfold rget in G. rewrite M4 in G. rewrite G. unfold mi. rewrite good_mask_bit by exact Mo.
      destruct (N.testbit mk i); [|split; [discriminate|intros [H _]; discriminate]].
      unfold ident_told, told. destruct (mem i ident_read); cbn [is_good andb]; split; intros H; try match type of H with _ /\ _ => destruct H as [? H] end; try split; congruence. }
    rewrite M4 in Ai. destruct (split_groups mi (mr_data ri) Ai) as (gs & Egs & Hs & Hg & He).
    assert (Gk : forall k g, In (k, g) gs -> g = grp k /\ supported_kind k = true).
    { intros k g Hin. destruct (Hg _ _ Hin) as [Hz Hb]. split.
      - apply mask_ext. intros i. apply eq_true_iff_eq. unfold grp. rewrite ports_where_bit, andb_true_iff, Hb, in_zip_get, Gi by exact Mo4.
        split; intros [H H']; (split; [exact H|]).
        + rewrite H'. now apply benum_eqb_eq.
        + destruct (ident_told mem i); [|discriminate]. apply benum_eqb_eq in H'. now subst.
      - assert (N.testbit g (N.log2 g) = true) as Hl by now apply N.bit_log2.
        apply Hb, in_zip_get, Gi in Hl. destruct Hl as [T1 T2]. apply (Hall (N.log2 g) k); [|exact T2].
        unfold mi in T1. rewrite good_mask_bit, andb_true_iff in T1 by exact Mo. tauto. }
    destruct (keep_module_data mk modes (mr_modules ri)) as [su mo] eqn:EK.
    destruct (keep_eq _ _ _ _ _ Ha EK) as [Ak Gkk].
    assert (su = mi) as ->.
    { apply mask_ext. intros i. rewrite (testbit_get _ _ i Ak), Gkk, M4. unfold mi. rewrite good_mask_bit by exact Mo.
      rewrite (testbit_get _ _ i Ha). destruct (get mk modes i), (is_good (mem i ident_read)); reflexivity. }
    assert (Hov' : Forall (fun x => overridden x = false) mo).
    { apply Forall_forall. intros x Hx. destruct Ak as [_ Ak].
      rewrite count_to_indices in Ak by exact Mo4.
      assert (exists i, In (i, x) (zip_data mi mo)) as [i Hi].
      { unfold zip_data. revert Hx Ak. generalize (to_indices mi). clear. induction mo as [|y mo IH]; [intros l []|].
        intros [|i l] Hx Hl; [discriminate|]. cbn [combine]. destruct Hx as [->|Hx]; [exists i; now left|].
        destruct (IH l Hx) as [j Hj]; [now injection Hl|]. exists j. now right. }
      apply in_zip_get in Hi. rewrite Gkk in Hi. destruct (N.testbit (mr_modules ri) i); [eauto|discriminate]. }
    set (f4 := failed_merge f (mr_failures ri)) in *.
    assert (F4 : fails_at (fun i => B i || bad mk (fun i => mem i ident_read) i) f4).
    { apply fails_merge; [exact Hf|]. eapply fails_ext; [|exact (fails_rrep _ _ _ R1)]. intros i. unfold bad, ident_told, told.
      now destruct (mem i ident_read). }
    assert (Start : forall X, X = set_software_power_state sp (mkResult mk modes f) st w ->
       X = cbind (soft_groups sp st gs (mi, mo, f4)) (fun s => cret (Ok (ack_new (fst (fst s)) (snd s)))) w1).
    { intros X ->. unfold set_software_power_state. cbn [mr_modules mr_data mr_failures].
      rewrite M4 in EK. destruct st; [congruence| |]; (erewrite cbind_ok by exact E1; rewrite M4, Egs;
        erewrite cbind_ok by reflexivity; rewrite EK; reflexivity). }
    rewrite (Start _ eq_refl). clear Start.
    destruct Two as (i0 & j0 & x0 & y0 & Hi0 & Hj0 & Hx0 & Hy0 & Hne).
    destruct (He i0 x0) as [gx Hgx]; [now apply in_zip_get, Gi|]. destruct (He j0 y0) as [gy Hgy]; [now apply in_zip_get, Gi|].
    destruct gs as [|[k g] gs]; [destruct Hgx|].
    assert (Hnil : gs <> []).
    { intros ->. destruct Hgx as [X|[]], Hgy as [Y|[]]. congruence. }
    destruct (Gk k g (or_introl eq_refl)) as [-> Hk].
    assert (Mog : mask_ok (grp k) = true) by now apply ports_where_mok.
    cbn [soft_groups]. rewrite keep_none by exact Hov'.
    assert (Lg : (length (to_indices (grp k)) <= length mo)%nat).
    { rewrite <- (aligned_length _ _ Ak). apply NoDup_incl_length; [apply to_indices_nodup|].
      intros i. rewrite !in_to_indices_ok by assumption. unfold grp. rewrite ports_where_bit by exact Mo4. now destruct (N.testbit mi i). }
    pose proof (keep_all (grp k) mo Mog Lg Hov') as KA.
    destruct (filter_module_data (grp k) mo (fun i m0 => m_contains (grp k) i && negb (overridden m0))) as [wo y1]. cbn [fst] in KA. subst wo.
    destruct (soft_write_step w1 k st true 0 mi mo _ f4 Hk eq_refl F4) as (y2 & f5 & E2 & F5 & Y2).
    rewrite (Y2 (or_intror eq_refl)), good_none in E2. clear Y2 y2.
    set (w2 := next a w1 _ _) in E2.
    destruct (soft_write_step w2 k st false (grp k) 0 [] _ f5 Hk Mog F5) as (y3 & f6 & E3 & F6 & Y3).
    rewrite (Y3 (or_introl eq_refl)) in E3. clear Y3 y3.
    set (w3 := next a w2 _ _) in E3.
    assert (Hgs : forall k' g', In (k', g') gs -> supported_kind k' = true) by (intros k' g' H; apply (Gk k' g'); now right).
    destruct (groups_rest st gs w3 (good_mask (grp k) (v (HWrite (grp k) (soft_place k)) (Some [soft_word k false st]))) _ f6 Hgs F6)
      as (w4 & f7 & rest & E4 & F7 & R7 & L7).
    exists k, w4, f7, rest. split.
    { erewrite cbind_ok; [|erewrite cbind_ok by exact E2; erewrite cbind_ok by exact E3; exact E4]. destruct gs; [congruence|reflexivity]. }
    split; [exact Hk|]. split. { apply (Hg k (grp k)). now left. }
    split.
    { intros i id Hi Hid. destruct (He i id) as [g' Hg']; [now apply in_zip_get, Gi|].
      destruct Hg' as [X|Hin]; [left; congruence|]. right. inversion Hs as [|? ? _ Hlt]; subst. rewrite Forall_forall in Hlt.
      specialize (Hlt _ Hin). cbn [fst] in Hlt. destruct (Gk id g' (or_intror Hin)) as [_ Hk'].
      destruct (supported_code k Hk) as [c ->], (supported_code id Hk') as [c' ->]. cbn in Hlt |- *. now apply N.ltb_lt. }
    split. { eapply fails_ext; [|exact F7]. intros i. cbv beta. now rewrite bad_none, orb_false_r. }
    split; [exact R7|].
    change (?x :: ?y :: rest) with ([x] ++ [y] ++ rest). eapply grew_trans; [exact L1|].
    eapply grew_trans; [apply grew_next|]. eapply grew_trans; [apply grew_next|exact L7].
  Qed.

  Lemma set_power_kinds w m st : st <> PowerOff -> m < 2 ^ 64 ->
    (forall i id, member i m -> ident_told mem i = inl id -> supported_kind id = true) ->
    (forall i, member i m -> by_software v mem m i = false) ->
    (st = PowerHigh -> forall i x, member i m -> mode_at v mem m i = inl x -> pm_state x <> PowerOff) ->
    (exists i j x y, member i (identified v mem st m) /\ member j (identified v mem st m) /\
       ident_told mem i = inl x /\ ident_told mem j = inl y /\ x <> y) ->
    exists r k ds rest, snd (set_power sp m st w) = Ok r /\ mr_modules r = 0 /\ mr_data r = [] /\
      first_kind v mem k st m /\ supported_kind k = true /\ wf_failed (mr_failures r) /\
      (forall i, failed r i <-> broke_kinds v mem k st m i) /\ Forall only_looks ds /\ Forall idle_write rest /\
      deeds (set_power sp m st) w = DRequest (HStatus m) None :: ds ++ power_deeds v mem st m ++
        DRequest (HWrite 0 (soft_place k)) (Some [soft_word k true st]) ::
        DRequest (HWrite (of_kind v mem k st m) (soft_place k)) (Some [soft_word k false st]) :: rest.
  Proof.
    intros Hst Hm Hall Hsw Hoff Two.
    destruct (pins_exact a Hok v Hv mem Hmem w m st Hst Hm Hall Hoff) as (w1 & modes & f & ds & E & Mo & Sub & Am & Gm & F & Od & L).
    assert (Hk1 : forall i id, N.testbit (awake v mem st m) i = true -> ident_told mem i = inl id -> supported_kind id = true).
    { intros i id Hi. apply Hall. apply member_testbit. auto. }
    assert (Hs : forall i x, get (awake v mem st m) modes i = Some x -> overridden x = false).
    { intros i x Hx. assert (Hi : member i m). { apply member_testbit, Sub. apply (get_some _ _ _ Am). eauto. }
      rewrite <- (Hsw i Hi). unfold by_software. rewrite (Gm i x Hx). reflexivity. }
    destruct (software_kinds w1 st (awake v mem st m) modes f _ Hst Mo Hk1 Am Hs F) as (k & w2 & f' & rest & E2 & Hk & Nz & Lo & F2 & R2 & L2).
    { destruct Two as (i & j & x & y & A & B & C). rewrite member_testbit in A, B. exists i, j, x, y. auto. }
    fold (identified v mem st m) in *. fold (of_kind v mem k st m) in *.
    exists (ack_new 0 f'), k, ds, rest. rewrite E, E2. split; [reflexivity|]. split; [reflexivity|]. split; [reflexivity|].
    split. { split; [exact Nz|]. intros i id Hi. apply Lo. now apply member_testbit. }
    split; [exact Hk|]. destruct F2 as [Fa Fb]. split; [now apply one_each_aligned|]. split; [|split; [exact Od|split; [exact R2|]]].
    - intros i. unfold failed. cbn [mr_failures ack_new]. rewrite member_testbit, Fb. unfold broke_kinds, pin_refused.
      rewrite !orb_true_iff, !bad_refuses, andb_true_iff, negb_true_iff, !member_testbit.
      rewrite <- (not_true_iff_false (N.testbit (known v mem m) i)).
      unfold soft_request. tauto.
    - rewrite <- E in E2. eapply deeds_grew; [exact E2|]. unfold power_deeds.
      match goal with |- grew _ _ ?x => match type of L with grew _ _ ?y => match type of L2 with grew _ _ ?z =>
        replace x with (y ++ z); [exact (grew_trans _ _ _ _ _ L L2)|] end end end.
      cbn [app]. rewrite <- !app_assoc. cbn [app]. rewrite <- !app_assoc. reflexivity.
  Qed.
End Kinds.
