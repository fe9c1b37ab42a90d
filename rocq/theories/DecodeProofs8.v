(** Proofs about the lane status of CMIS modules (C42, C49). *)
From Verif Require Import Tac SpecDecode DecodeProofs DecodeProofs2 DecodeProofs3 DecodeProofs7.
From Coq Require Import Lia.
Open Scope N_scope.

Lemma datapath_reads_cmis id : is_sff id = false -> is_cmis id = true ->
  datapath_reads id = Ok [mkRead (cmis_up 0) 203 7; mkRead p11 206 8; mkRead cmis_low 85 1; mkRead (cmis_up 1) 176 8;
    mkRead cmis_low 86 8; mkRead cmis_low 94 8; mkRead cmis_low 102 8; mkRead cmis_low 110 8;
    mkRead (cmis_up 1) 155 4; mkRead p10 129 4; mkRead p10 134 6; mkRead p11 128 4; mkRead p11 132 2;
    mkRead p11 135 4; mkRead p11 147 2].
Proof. intros H1 H2. unfold datapath_reads. rewrite H1, H2. vm_compute. reflexivity. Qed.

Lemma dps_state n : dps_try_from n = match state_of_nibble n with Some s => Ok s | None => Err DeInvalidBitField end.
Proof.
  unfold dps_try_from, state_of_nibble. change 7 with (N.ones 3). rewrite N.land_ones. change (2 ^ 3) with 8.
  pose proof (N.mod_lt n 8 ltac:(lia)) as H. revert H. generalize (n mod 8). clear n. intros m H.
  assert (Hc : m = 0 \/ m = 1 \/ m = 2 \/ m = 3 \/ m = 4 \/ m = 5 \/ m = 6 \/ m = 7) by lia.
  destruct Hc as [ -> | [ -> | [ -> | [ -> | [ -> | [ -> | [ -> | -> ]]]]]]]; reflexivity.
Qed.

Lemma nibble_as_coded mem k : byte_memory mem -> k < 8 ->
  N.shiftr (N.land (mem p11 (128 + k / 2)) (N.shiftl 0x0f (if k mod 2 =? 1 then 0 else 4))) (if k mod 2 =? 1 then 0 else 4)
  = other_nibble mem k.
Proof.
  intros Hb Hk. unfold other_nibble.
  replace (N.even k) with (negb (k mod 2 =? 1)).
  2: { assert (Hc : k = 0 \/ k = 1 \/ k = 2 \/ k = 3 \/ k = 4 \/ k = 5 \/ k = 6 \/ k = 7) by lia.
       destruct Hc as [ -> | [ -> | [ -> | [ -> | [ -> | [ -> | [ -> | -> ]]]]]]]; reflexivity. }
  destruct (k mod 2 =? 1); cbn [negb].
  - change (N.shiftl 0x0f 0) with 0x0f. rewrite N.shiftr_0_r. apply low_nibble.
  - change (N.shiftl 0x0f 4) with 0xf0. apply high_nibble. apply Hb.
Qed.
Lemma cmis_lane_ok mem k : byte_memory mem -> k < 8 ->
  cmis_lane (area mem (cmis_up 1) 155 4) (area mem p10 129 4) (area mem p10 134 6) (area mem p11 128 4)
            (area mem p11 132 2) (area mem p11 135 4) (area mem p11 147 2) k =
  match lane_with other_nibble mem k with Some s => Ok s | None => Err DeInvalidBitField end.
Proof.
  intros Hb Hk. unfold cmis_lane, byte_at.
  assert (Hd : k / 2 < 4) by (apply N.div_lt_upper_bound; lia).
  rewrite !area_nth by lia. cbn [opt_unwrap obind]. cbv zeta. rewrite N2Nat.id, nibble_as_coded by assumption.
  rewrite dps_state. unfold lane_with. destruct (state_of_nibble (other_nibble mem k)) as [s|]; [|reflexivity].
  cbn [obind]. f_equal. rewrite !supported_bit by lia. rewrite !shown_map. unfold output_status. rewrite !land_bit.
  reflexivity.
Qed.

Lemma lxor_ff b : b < 256 -> N.lxor b 0xff = 255 - b.
Proof.
  intros H. assert (G : forallb (fun b => N.lxor b 0xff =? 255 - b) (nrange 0 256) = true) by (vm_compute; reflexivity).
  rewrite forallb_forall in G. apply N.eqb_eq. apply G. apply in_nrange. cbn. lia.
Qed.
Lemma descriptors_area mem :
  quads (contents mem (mkRead cmis_low 86 8)) ++ quads (contents mem (mkRead cmis_low 94 8)) ++
  quads (contents mem (mkRead cmis_low 102 8)) ++ quads (contents mem (mkRead cmis_low 110 8)) =
  map (desc_bytes mem) (nrange (N.of_nat 0 + 1) 8).
Proof. reflexivity. Qed.

Definition all_lanes : list N := [0; 1; 2; 3; 4; 5; 6; 7].
Lemma in_lanes k : In k all_lanes <-> k < 8.
Proof. unfold all_lanes. cbn. lia. Qed.
Lemma lane_configs mem i : byte_memory mem -> (i < 8)%nat ->
  exists c, nth_error (map lane_config_from (area mem p11 206 8)) i = Some c /\
    lc_app_select_code c = app_of mem (0 + N.of_nat i).
Proof.
  intros Hb Hi. exists (lane_config_from (mem p11 (206 + N.of_nat i))). split.
  - apply map_nth_error. now apply area_nth.
  - unfold app_of. cbn [lane_config_from lc_app_select_code]. rewrite high_nibble by apply Hb. reflexivity.
Qed.

Lemma datapath_steps id mem : byte_memory mem -> is_sff id = false -> is_cmis id = true ->
  decoded datapath_reads datapath_parse id mem =
  (apps <-? supported_applications (enum_of tbl_MediaType (mem cmis_low 85)) (area mem (cmis_up 1) 176 8) 0
              (map (desc_bytes mem) (nrange (N.of_nat 0 + 1) 8)) ;;
   act <-? active_applications apps 0 (map lane_config_from (area mem p11 206 8)) [] ;;
   dps <-? add_applications (cmis_lane (area mem (cmis_up 1) 155 4) (area mem p10 129 4) (area mem p10 134 6)
             (area mem p11 128 4) (area mem p11 132 2) (area mem p11 135 4) (area mem p11 147 2)) act [] ;;
   Ok (DpCmis (enum_of tbl_ConnectorType (mem (cmis_up 0) 203)) (255 - mem (cmis_up 0) 209) dps)).
Proof.
  intros Hb H1 H2. unfold decoded. rewrite datapath_reads_cmis by assumption. unfold datapath_parse. rewrite H1, H2.
  cbn [map]. unfold cmis_datapath. cbn [read_at nth_error opt_unwrap obind].
  rewrite descriptors_area. rewrite !contents_mk.
  change (N.to_nat 7) with 7%nat. change (N.to_nat 8) with 8%nat. change (N.to_nat 1) with 1%nat.
  change (N.to_nat 4) with 4%nat. change (N.to_nat 6) with 6%nat. change (N.to_nat 2) with 2%nat.
  unfold assert_len. rewrite !area_length. cbn [Nat.eqb obind]. unfold byte_at.
  rewrite !area_nth by lia. cbn [opt_unwrap obind]. cbv zeta.
  rewrite lxor_ff by apply Hb. rewrite !N.add_0_r. reflexivity.
Qed.

(** Every assigned lane names a listed application exactly when it finds its descriptor. *)
Lemma listed_found mem apps a : known_media mem -> a < 16 ->
  (forall j d, nth_error apps j = Some d <->
       (j < 8)%nat /\ listed_from mem (N.of_nat 0 + 1) (N.of_nat 0 + 1 + N.of_nat j) /\ app_desc mem (N.of_nat 0 + 1 + N.of_nat j) = Some d) ->
  a <> 0 ->
  (listed mem a -> exists d, app_at apps a = Some d /\ app_desc mem a = Some d) /\
  (~ listed mem a -> app_at apps a = None).
Proof.
  intros Hk Ha Hn H0. unfold app_at. split.
  - intros (Hr & Hl). destruct (app_desc_some mem a Hk) as (d & Hd). exists d. split; [|exact Hd]. apply Hn.
    replace (N.of_nat 0 + 1 + N.of_nat (N.to_nat (a - 1))) with a by lia. split; [lia|]. split; [|exact Hd].
    intros i Hi. apply Hl. lia.
  - intros Hl. destruct (nth_error apps (N.to_nat (a - 1))) as [d|] eqn:E; [|reflexivity]. exfalso. apply Hl.
    apply Hn in E. replace (N.of_nat 0 + 1 + N.of_nat (N.to_nat (a - 1))) with a in E by lia.
    destruct E as (E1 & E2 & _). split; [lia|]. intros j Hj. apply E2. lia.
Qed.

Lemma app_of_lt mem k : byte_memory mem -> app_of mem k < 16.
Proof. intros H. unfold app_of. apply N.div_lt_upper_bound; [lia|]. specialize (H p11 (206 + k)). lia. Qed.

(** [listed] is decidable on the lanes in use. *)
Lemma listed_dec mem a : {listed mem a} + {~ listed mem a}.
Proof.
  destruct ((1 <=? a) && (a <=? 8)) eqn:E.
  2: { right. intros (H & _). apply Bool.andb_false_iff in E. lia. }
  apply andb_prop in E. destruct E as [E1 E2].
  destruct (forallb (fun j => negb (mem cmis_low (82 + 4 * j) =? 0xff)) (nrange 1 (N.to_nat a))) eqn:F.
  - left. split; [lia|]. intros j Hj He. rewrite forallb_forall in F. specialize (F j). rewrite He in F.
    discriminate F. apply in_nrange. lia.
  - right. intros (H & Hl). assert (forallb (fun j => negb (mem cmis_low (82 + 4 * j) =? 0xff)) (nrange 1 (N.to_nat a)) = true); [|congruence].
    apply forallb_forall. intros j Hj. apply in_nrange in Hj. apply Bool.negb_true_iff, N.eqb_neq. apply Hl. lia.
Qed.
Lemma assignments_dec mem : assignments_listed mem \/ exists k, k < 8 /\ app_of mem k <> 0 /\ ~ listed mem (app_of mem k).
Proof.
  destruct (existsb (fun k => negb (app_of mem k =? 0) && (if listed_dec mem (app_of mem k) then false else true)) all_lanes) eqn:E.
  - right. apply existsb_exists in E. destruct E as (k & Hk & E). apply andb_prop in E. destruct E as [E1 E2].
    exists k. split; [now apply in_lanes|]. split; [now apply N.eqb_neq, Bool.negb_true_iff|].
    now destruct (listed_dec mem (app_of mem k)).
  - left. intros k Hk H0. destruct (listed_dec mem (app_of mem k)) as [H|H]; [exact H|]. exfalso.
    assert (existsb (fun k => negb (app_of mem k =? 0) && (if listed_dec mem (app_of mem k) then false else true)) all_lanes = true); [|congruence].
    apply existsb_exists. exists k. split; [now apply in_lanes|]. apply andb_true_intro. split; [now apply Bool.negb_true_iff, N.eqb_neq|].
    now destruct (listed_dec mem (app_of mem k)).
Qed.

Lemma datapath_unknown_media id mem : byte_memory mem -> is_sff id = false -> is_cmis id = true ->
  ~ known_media mem -> decoded datapath_reads datapath_parse id mem = Panic.
Proof.
  intros Hb H1 H2 Hk. rewrite datapath_steps by assumption.
  rewrite (supported_unknown mem) by (try reflexivity; try assumption; lia). reflexivity.
Qed.
Lemma datapath_unlisted id mem k : byte_memory mem -> is_sff id = false -> is_cmis id = true ->
  in_use mem k -> ~ listed mem (app_of mem k) -> decoded datapath_reads datapath_parse id mem = Panic.
Proof.
  intros Hb H1 H2 (Hk & H0) Hl.
  assert (Hm : known_media mem \/ ~ known_media mem) by (unfold known_media; lia).
  destruct Hm as [Hm|Hm]; [|now apply datapath_unknown_media]. rewrite datapath_steps by assumption.
  destruct (supported_spec mem _ _ Hb Hm eq_refl eq_refl 8 0 ltac:(lia)) as (apps & Ea & Hn). rewrite Ea. cbn [obind].
  destruct (active_spec apps (app_of mem) (map lane_config_from (area mem p11 206 8)) 0 [] []) as [_ G].
  - intros i Hi. rewrite map_length, area_length in Hi. now apply lane_configs.
  - split; [constructor|]. intros a. cbn. now right.
  - rewrite G; [reflexivity|]. exists (N.to_nat k). rewrite map_length, area_length. rewrite N2Nat.id, N.add_0_l.
    split; [lia|]. split; [exact H0|].
    apply (proj2 (listed_found mem apps (app_of mem k) Hm (app_of_lt mem k Hb) Hn H0)). exact Hl.
Qed.

Lemma datapath_listed id mem : byte_memory mem -> is_sff id = false -> is_cmis id = true ->
  known_media mem -> assignments_listed mem ->
  ((forall k, in_use mem k -> lane_with other_nibble mem k <> None) ->
   exists dps, decoded datapath_reads datapath_parse id mem =
     Ok (DpCmis (enum_of tbl_ConnectorType (mem (cmis_up 0) 203)) (255 - mem (cmis_up 0) 209) dps) /\
     datapath_map_of other_nibble mem dps) /\
  ((exists k, in_use mem k /\ lane_with other_nibble mem k = None) ->
   decoded datapath_reads datapath_parse id mem = Err DeInvalidBitField).
Proof.
  intros Hb H1 H2 Hm Hl. rewrite datapath_steps by assumption.
  destruct (supported_spec mem _ _ Hb Hm eq_refl eq_refl 8 0 ltac:(lia)) as (apps & Ea & Hn). rewrite Ea. cbn [obind].
  pose proof (fun a Ha => listed_found mem apps a Hm Ha Hn) as Hfound.
  destruct (active_spec apps (app_of mem) (map lane_config_from (area mem p11 206 8)) 0 [] []) as [G _].
  { intros i Hi. rewrite map_length, area_length in Hi. now apply lane_configs. }
  { split; [constructor|]. intros a. cbn. now right. }
  destruct G as (act & Eact & Sact & Hact).
  { intros i Hi H0. rewrite map_length, area_length in Hi.
    destruct (proj1 (Hfound _ (app_of_lt mem _ Hb) H0)) as (d & Hd & _); [apply Hl; [lia|exact H0]|]. congruence. }
  rewrite map_length, area_length in Hact. cbn [app] in Hact. change (nrange 0 8) with all_lanes in Hact.
  rewrite Eact. cbn [obind]. set (status := cmis_lane _ _ _ _ _ _ _).
  assert (Hst : forall a app ls, In (a, (app, ls)) act ->
    ls <> [] /\ Forall (status_at status (lane_with other_nibble mem) DeInvalidBitField) ls /\ ls = users (app_of mem) all_lanes a /\
    a <> 0 /\ app_at apps a = Some app).
  { intros a app ls Hin. apply in_lookup in Hin; [|now apply sorted_nodup]. specialize (Hact a). rewrite Hin in Hact.
    destruct Hact as (A0 & A1 & A2 & A3). repeat split; try assumption. rewrite A2. apply Forall_forall. intros k Hk.
    unfold users in Hk. apply filter_In in Hk. destruct Hk as [Hk _]. apply in_lanes in Hk.
    unfold status_at, status. now apply cmis_lane_ok. }
  assert (Huse : forall a app ls k, In (a, (app, ls)) act -> In k ls -> in_use mem k /\ app_of mem k = a).
  { intros a app ls k Hin Hk. destruct (Hst a app ls Hin) as (_ & _ & -> & A0 & _). unfold users in Hk.
    apply filter_In in Hk. destruct Hk as [Hk Hk']. apply in_lanes in Hk. apply N.eqb_eq in Hk'.
    repeat split; congruence. }
  assert (Hall : forall k, in_use mem k -> exists app ls, In (app_of mem k, (app, ls)) act /\ In k ls).
  { intros k (Hk & H0). assert (Hu : In k (users (app_of mem) all_lanes (app_of mem k))).
    { unfold users. apply filter_In. split; [now apply in_lanes|apply N.eqb_refl]. }
    specialize (Hact (app_of mem k)). destruct (lookup (app_of mem k) act) as [[app ls]|] eqn:E.
    - destruct Hact as (_ & _ & -> & _). exists app, (users (app_of mem) all_lanes (app_of mem k)). split; [now apply lookup_in|exact Hu].
    - destruct Hact as [A|A]; [contradiction|]. rewrite A in Hu. destruct Hu. }
  split.
  - intros Hok. destruct (add_apps_ok status (lane_with other_nibble mem) DeInvalidBitField act [] Sact) as (dps & Ed & Sd & Hd).
    { constructor. }
    { intros a app ls Hin. destruct (Hst a app ls Hin) as (A1 & A2 & _). repeat split; try assumption.
      intros k Hk. apply Hok. now apply (Huse a app ls k). }
    rewrite Ed. cbn [obind]. exists dps. split; [reflexivity|]. split; [exact Sd|]. split.
    + intros a. specialize (Hd a). specialize (Hact a). destruct (lookup a act) as [[app ls]|] eqn:E.
      * destruct Hd as (d & Hd & _). destruct Hact as (A0 & _ & A2 & A3). split.
        -- intros _. destruct ls as [|k ls]; [congruence|]. exists k. apply lookup_in in E. apply (Huse a app (k :: ls) k E). now left.
        -- intros _. apply lookup_in in Hd. apply in_map_iff. now exists (a, d).
      * cbn in Hd. apply lookup_none in Hd. split; [contradiction|]. intros (k & Hk & <-). exfalso.
        destruct (Hall k Hk) as (app & ls & Hin & _). apply in_lookup in Hin; [|now apply sorted_nodup]. congruence.
    + intros a d Hld. pose proof (Hd a) as Hda. destruct (lookup a act) as [[app ls]|] eqn:E.
      2: { cbn in Hda. congruence. }
      destruct Hda as (d' & Hd' & Happ & Hsd & Hent). rewrite Hld in Hd'. injection Hd' as <-.
      apply lookup_in in E. destruct (Hst a app ls E) as (A1 & A2 & A3 & A4 & A5).
      split.
      * rewrite Happ. assert (Hlist : listed mem a).
        { destruct ls as [|k ls]; [congruence|]. destruct (Huse a app (k :: ls) k E (or_introl eq_refl)) as ((U1 & U2) & U3).
          rewrite <- U3. now apply Hl. }
        assert (Ha16 : a < 16).
        { destruct Hlist as (Hr & _). lia. }
        destruct (proj1 (Hfound a Ha16 A4) Hlist) as (x & X1 & X2). rewrite A5 in X1. injection X1 as <-.
        now apply app_desc_is.
      * split; [exact Hsd|]. intros n st. rewrite Hent. unfold entry_of.
        destruct (existsb (fun k => 1 + k =? n) ls) eqn:Ex.
        -- apply existsb_exists in Ex. destruct Ex as (k & Hk & Hkn). apply N.eqb_eq in Hkn. subst n.
           replace (1 + k - 1) with k by lia. destruct (Huse a app ls k E Hk) as (U1 & U2). split.
           ++ intros Hs. exists k. split; [lia|]. exact (conj U1 (conj U2 Hs)).
           ++ intros (k' & K1 & _ & _ & K2). replace k with k' by lia. exact K2.
        -- split; [discriminate|]. intros (k & -> & K1 & K2 & K3). exfalso.
           assert (existsb (fun k' => 1 + k' =? k + 1) ls = true); [|congruence]. apply existsb_exists. exists k.
           split; [|apply N.eqb_eq; lia]. rewrite A3. unfold users. apply filter_In. split; [apply in_lanes, K1|now apply N.eqb_eq].
  - intros (k & Hk & Hnone). rewrite (add_apps_err status (lane_with other_nibble mem) DeInvalidBitField act []); try exact Sact.
    + reflexivity.
    + constructor.
    + intros a app ls Hin. destruct (Hst a app ls Hin) as (A1 & A2 & _). now repeat split.
    + destruct (Hall k Hk) as (app & ls & Hin & Hkl). exists (app_of mem k), app, ls, k. now repeat split.
Qed.
