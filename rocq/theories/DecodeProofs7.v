(** Proofs about lane status (C42, C49): maps, applications and lanes. *)
From Verif Require Import Tac SpecDecode DecodeProofs DecodeProofs2 DecodeProofs3.
From Coq Require Import Lia.
Open Scope N_scope.

(** ** Sorted association lists *)
Lemma lookup_above {A} k (l : list (N * A)) : Forall (N.lt k) (map fst l) -> lookup k l = None.
Proof.
  intros H. apply lookup_none. intros Hi. rewrite Forall_forall in H. apply H in Hi. lia.
Qed.
Lemma entry_lookup {A} k (new : A) f l b : sorted_keys l ->
  lookup b (entry_update k new f l) =
  if b =? k then Some (f (match lookup k l with Some x => x | None => new end)) else lookup b l.
Proof.
  unfold sorted_keys. induction l as [|[k' x] r IH]; intros Hs; cbn [entry_update map fst] in *.
  - cbn [lookup]. reflexivity.
  - inversion Hs as [|? ? Hr Hf]; subst. destruct (N.eqb_spec k k') as [->|Hn].
    + cbn [lookup]. rewrite N.eqb_refl. destruct (b =? k'); reflexivity.
    + destruct (N.ltb_spec k k') as [Hlt|Hge].
      * cbn [lookup]. destruct (N.eqb_spec k k'); [lia|].
        rewrite (lookup_above k r); [reflexivity|]. eapply Forall_impl; [|exact Hf]. cbv beta. intros; lia.
      * cbn [lookup]. rewrite (IH Hr). destruct (N.eqb_spec k k'); [lia|].
        destruct (N.eqb_spec b k'), (N.eqb_spec b k); try reflexivity; lia.
Qed.
Lemma entry_keys {A} k (new : A) f l b : In b (map fst (entry_update k new f l)) <-> b = k \/ In b (map fst l).
Proof.
  induction l as [|[k' x] r IH]; cbn [entry_update map fst]; [cbn; intuition|].
  destruct (N.eqb_spec k k') as [->|Hn]; [cbn; intuition|].
  destruct (N.ltb_spec k k'); cbn [map fst In]; [intuition|]. rewrite IH. intuition.
Qed.
Lemma entry_sorted {A} k (new : A) f l : sorted_keys l -> sorted_keys (entry_update k new f l).
Proof.
  unfold sorted_keys. induction l as [|[k' x] r IH]; intros Hs; cbn [entry_update map fst] in *.
  - repeat constructor.
  - inversion Hs as [|? ? Hr Hf]; subst. destruct (N.eqb_spec k k') as [->|Hn]; [now constructor|].
    destruct (N.ltb_spec k k') as [Hlt|Hge]; cbn [map fst].
    + constructor; [exact Hs|]. constructor; [exact Hlt|]. eapply Forall_impl; [|exact Hf]. cbv beta. intros; lia.
    + constructor; [now apply IH|]. apply Forall_forall. intros y Hy. apply entry_keys in Hy.
      rewrite Forall_forall in Hf. destruct Hy as [->|Hy]; [lia|now apply Hf].
Qed.
Lemma sorted_nodup {A} (l : list (N * A)) : sorted_keys l -> NoDup (map fst l).
Proof. apply sorted_lt_nodup. Qed.

(** ** Bits *)
Lemma extract_ok w k : k < 8 -> extract_bit w k = Ok (N.testbit w k).
Proof.
  intros H. unfold extract_bit. destruct (N.ltb_spec 7 k); [lia|]. now rewrite land_bit.
Qed.
Lemma supported_bit s i c k : i < 8 -> k < 8 ->
  supported_bit_is_set s i c k = shown (N.testbit s i) (N.testbit c k).
Proof.
  intros Hi Hk. unfold supported_bit_is_set. rewrite !extract_ok by assumption. now destruct (N.testbit s i).
Qed.
Lemma shown_map {A B} (f : A -> B) c x : option_map f (shown c x) = shown c (f x).
Proof. now destruct c. Qed.

(** ** SFF-8636 *)
Lemma datapath_reads_sff id : is_sff id = true ->
  datapath_reads id = Ok [mkRead sff_low 86 1; mkRead sff_low 3 3; mkRead sff_low 98 1;
    mkRead (sff_up 0) 130 2; mkRead (sff_up 0) 192 1].
Proof. intros H. unfold datapath_reads. rewrite H. vm_compute. reflexivity. Qed.
Lemma sff_lane_ok a b c d e k : k < 4 -> sff_lane a b c d e k =
  Ok (mkSffLane (negb (N.testbit a k)) (N.testbit b (4 + k)) (N.testbit b k) (N.testbit c (4 + k))
        (N.testbit c k) (N.testbit d (4 + k)) (N.testbit d k) (N.testbit e (4 + k)) (N.testbit e k)).
Proof.
  intros Hk. unfold sff_lane. cbv zeta. rewrite !extract_ok by lia. cbn [obind]. rewrite (N.add_comm k 4). reflexivity.
Qed.
Lemma sff_datapath_correct id mem : is_sff id = true ->
  decoded datapath_reads datapath_parse id mem =
  Ok (DpSff (enum_of tbl_ConnectorType (mem (sff_up 0) 130)) (sff_compliance_of mem)
        (map (sff_lane_of mem) [0; 1; 2; 3])).
Proof.
  intros H. unfold decoded. rewrite datapath_reads_sff by assumption. unfold datapath_parse. rewrite H.
  cbn [map]. rewrite !cont1.
  change (contents mem (mkRead sff_low 3 3)) with [mem sff_low 3; mem sff_low 4; mem sff_low 5].
  change (contents mem (mkRead (sff_up 0) 130 2)) with [mem (sff_up 0) 130; mem (sff_up 0) 131].
  unfold sff_datapath. cbn [read_at byte_at nth_error opt_unwrap obind assert_len length Nat.eqb].
  change (nrange 0 4) with [0; 1; 2; 3]. cbn [omapM]. rewrite !sff_lane_ok by lia. cbn [obind].
  reflexivity.
Qed.

(** ** CMIS: the applications a module lists *)
Definition desc_bytes (mem : memory) (a : N) : N * N * N * N :=
  (mem cmis_low (82 + 4 * a), mem cmis_low (82 + 4 * a + 1), mem cmis_low (82 + 4 * a + 2), mem cmis_low (82 + 4 * a + 3)).
Lemma media_known mem x : media_interface_from_u8 (enum_of tbl_MediaType (mem cmis_low 85)) x = media_of mem x.
Proof.
  unfold media_of. destruct (N.leb_spec (mem cmis_low 85) 5) as [H|H].
  - assert (Hc : mem cmis_low 85 = 0 \/ mem cmis_low 85 = 1 \/ mem cmis_low 85 = 2 \/ mem cmis_low 85 = 3 \/
                 mem cmis_low 85 = 4 \/ mem cmis_low 85 = 5) by lia.
    destruct Hc as [ -> | [ -> | [ -> | [ -> | [ -> | -> ]]]]]; reflexivity.
  - assert (Ho : exists i, enum_of tbl_MediaType (mem cmis_low 85) = Other i (mem cmis_low 85)).
    { generalize (mem cmis_low 85) H. intros b Hb. unfold enum_of, enum_from_u8.
      assert (Hl : lookup b (et_named tbl_MediaType) = None).
      { apply lookup_none. cbn. lia. }
      rewrite Hl. cbn [find_other et_other tbl_MediaType]. destruct (in_ranges b _); [now eexists|].
      destruct (in_ranges b _); now eexists. }
    destruct Ho as (i & ->). revert H. generalize (mem cmis_low 85). intros b Hb. cbn [media_interface_from_u8].
    destruct b as [|[[[q|q|]|[q|q|]|]|[[q|q|]|[q|q|]|]|]]; try reflexivity; lia.
Qed.
Lemma media_of_none mem x : media_of mem x = None <-> ~ known_media mem.
Proof.
  unfold media_of, known_media. generalize (mem cmis_low 85). intros b.
  destruct b as [|[[[q|q|]|[q|q|]|]|[[q|q|]|[q|q|]|]|]]; (split; intros H; [first [discriminate|lia]|first [reflexivity|exfalso; lia]]).
Qed.
Lemma end_sweep : forallb (fun b => Bool.eqb (benum_eqb (enum_of tbl_HostElectricalInterfaceId b) (Named 0xff)) (b =? 0xff))
  (nrange 0 256) = true.
Proof. vm_compute. reflexivity. Qed.
Lemma end_of_list b : b < 256 -> benum_eqb (enum_of tbl_HostElectricalInterfaceId b) (Named 0xff) = (b =? 0xff).
Proof.
  intros H. pose proof end_sweep as G. rewrite forallb_forall in G. apply Bool.eqb_prop. apply G.
  apply in_nrange. cbn. lia.
Qed.
Lemma high_nibble b : b < 256 -> N.shiftr (N.land b 0xf0) 4 = b / 16.
Proof.
  intros H. rewrite N.shiftr_land. change (N.shiftr 0xf0 4) with (N.ones 4). rewrite N.land_ones, N.shiftr_div_pow2.
  change (2 ^ 4) with 16. apply N.mod_small. apply N.div_lt_upper_bound; lia.
Qed.
Lemma low_nibble b : N.land b 0x0f = b mod 16.
Proof. change 0x0f with (N.ones 4). now rewrite N.land_ones. Qed.

(** The descriptor of application [a]. *)
Definition app_desc (mem : memory) (a : N) : option ApplicationDescriptor :=
  app_from_bytes (enum_of tbl_MediaType (mem cmis_low 85)) (desc_bytes mem a) (mem (cmis_up 1) (175 + a)).
Lemma app_desc_is mem a d : byte_memory mem -> app_desc mem a = Some d -> descriptor_is mem a d.
Proof.
  intros Hb. unfold app_desc, app_from_bytes, desc_bytes, descriptor_is. rewrite media_known.
  destruct (media_of mem _) as [m|] eqn:E; [|discriminate]. intros G. injection G as <-.
  cbn [ap_host_id ap_media_id ap_host_lane_count ap_media_lane_count ap_host_lane_options ap_media_lane_options].
  rewrite N.add_0_r, high_nibble, low_nibble by apply Hb. repeat split.
Qed.
Lemma app_desc_none mem a : app_desc mem a = None <-> ~ known_media mem.
Proof.
  unfold app_desc, app_from_bytes, desc_bytes. rewrite media_known.
  pose proof (media_of_none mem (mem cmis_low (82 + 4 * a + 1))) as H. destruct (media_of mem _).
  - split; [discriminate|]. intros Hk. apply H in Hk. discriminate.
  - split; [|reflexivity]. intros _. now apply H.
Qed.
Lemma app_desc_some mem a : known_media mem -> exists d, app_desc mem a = Some d.
Proof. intros H. destruct (app_desc mem a) eqn:E; [now eexists|]. apply app_desc_none in E. contradiction. Qed.
Lemma desc_host mem a d : app_desc mem a = Some d -> ap_host_id d = enum_of tbl_HostElectricalInterfaceId (mem cmis_low (82 + 4 * a)).
Proof.
  unfold app_desc, app_from_bytes, desc_bytes. destruct (media_interface_from_u8 _ _); [|discriminate].
  intros H. injection H as <-. reflexivity.
Qed.

(** Applications [a], [a+1], .. : [listed_from a j] when none of [a .. j] ends the list. *)
Definition listed_from (mem : memory) (a j : N) : Prop := forall i, a <= i <= j -> mem cmis_low (82 + 4 * i) <> 0xff.
Lemma supported_spec mem mt opts : byte_memory mem -> known_media mem -> mt = enum_of tbl_MediaType (mem cmis_low 85) ->
  opts = area mem (cmis_up 1) 176 8 ->
  forall n i, (i + n <= 8)%nat ->
  exists apps, supported_applications mt opts i (map (desc_bytes mem) (nrange (N.of_nat i + 1) n)) = Ok apps /\
    (forall j d, nth_error apps j = Some d <->
       (j < n)%nat /\ listed_from mem (N.of_nat i + 1) (N.of_nat i + 1 + N.of_nat j) /\ app_desc mem (N.of_nat i + 1 + N.of_nat j) = Some d).
Proof.
  intros Hb Hk Hmt Hop. induction n as [|n IH]; intros i Hi.
  - exists []. split; [reflexivity|]. intros j d. destruct j; cbn; split; try discriminate; intros (H & _); lia.
  - cbn [nrange map supported_applications].
    unfold byte_at. rewrite Hop, area_nth by lia. cbn [opt_unwrap obind].
    replace (app_from_bytes mt (desc_bytes mem (N.of_nat i + 1)) (mem (cmis_up 1) (176 + N.of_nat i)))
      with (app_desc mem (N.of_nat i + 1)) by (unfold app_desc; rewrite Hmt; do 2 f_equal; lia).
    destruct (app_desc_some mem (N.of_nat i + 1) Hk) as (d & Hd). rewrite Hd. cbn [opt_unwrap obind].
    rewrite (desc_host _ _ _ Hd), end_of_list by apply Hb.
    destruct (N.eqb_spec (mem cmis_low (82 + 4 * (N.of_nat i + 1))) 0xff) as [He|He].
    + exists []. split; [reflexivity|]. intros j d'. split; [destruct j; discriminate|].
      intros (_ & Hl & _). exfalso. apply (Hl (N.of_nat i + 1)); [lia|exact He].
    + rewrite <- Hop. destruct (IH (S i) ltac:(lia)) as (apps & Ha & Hn).
      replace (N.of_nat (S i) + 1) with (N.of_nat i + 1 + 1) in * by lia.
      rewrite Ha. cbn [obind]. exists (d :: apps). split; [reflexivity|]. intros j d'. destruct j as [|j]; cbn [nth_error].
      * rewrite N.add_0_r, Hd. split.
        -- intros G. injection G as <-. split; [lia|]. split; [|reflexivity]. intros x Hx. replace x with (N.of_nat i + 1) by lia. exact He.
        -- intros (_ & _ & G). exact G.
      * rewrite Hn. replace (N.of_nat i + 1 + N.of_nat (S j)) with (N.of_nat i + 1 + 1 + N.of_nat j) by lia.
        split; intros (G1 & G2 & G3); (split; [lia|]); (split; [|exact G3]); intros x Hx.
        -- destruct (N.eq_dec x (N.of_nat i + 1)) as [->|]; [exact He|]. apply G2. lia.
        -- apply G2. lia.
Qed.
Lemma supported_unknown mem mt opts i n : ~ known_media mem -> mt = enum_of tbl_MediaType (mem cmis_low 85) ->
  opts = area mem (cmis_up 1) 176 8 -> (i < 8)%nat ->
  supported_applications mt opts i (map (desc_bytes mem) (nrange (N.of_nat i + 1) (S n))) = Panic.
Proof.
  intros Hk -> -> Hi. cbn [nrange map supported_applications]. unfold byte_at. rewrite area_nth by lia. cbn [opt_unwrap obind].
  replace (176 + N.of_nat i) with (175 + (N.of_nat i + 1)) by lia.
  apply (app_desc_none mem (N.of_nat i + 1)) in Hk. unfold app_desc in Hk. now rewrite Hk.
Qed.

(** ** CMIS: the lanes of each application *)
Section Active.
  Context (apps : list ApplicationDescriptor) (sel : N -> N).
  Definition app_at (a : N) : option ApplicationDescriptor := nth_error apps (N.to_nat (a - 1)).
  Definition users (ks : list N) (a : N) : list N := filter (fun k => sel k =? a) ks.
  Definition active_inv (ks : list N) (m : active) : Prop :=
    sorted_keys m /\ forall a, match lookup a m with
      | Some (d, ls) => a <> 0 /\ app_at a = Some d /\ ls = users ks a /\ ls <> []
      | None => a = 0 \/ users ks a = []
      end.
  Lemma users_app ks k a : users (ks ++ [k]) a = users ks a ++ (if sel k =? a then [k] else []).
  Proof. unfold users. rewrite filter_app. cbn. now destruct (sel k =? a). Qed.
  Lemma active_spec cfgs : forall lane ks m,
    (forall i, (i < length cfgs)%nat -> exists c, nth_error cfgs i = Some c /\ lc_app_select_code c = sel (lane + N.of_nat i)) ->
    active_inv ks m ->
    ((forall i, (i < length cfgs)%nat -> sel (lane + N.of_nat i) <> 0 -> app_at (sel (lane + N.of_nat i)) <> None) ->
     exists m', active_applications apps lane cfgs m = Ok m' /\ active_inv (ks ++ nrange lane (length cfgs)) m') /\
    ((exists i, (i < length cfgs)%nat /\ sel (lane + N.of_nat i) <> 0 /\ app_at (sel (lane + N.of_nat i)) = None) ->
     active_applications apps lane cfgs m = Panic).
  Proof.
    induction cfgs as [|c cfgs IH]; intros lane ks m Hc Hi.
    - split; [|intros (i & H & _); cbn in H; lia]. intros _. exists m. split; [reflexivity|]. now rewrite app_nil_r.
    - destruct (Hc 0%nat ltac:(cbn; lia)) as (c' & E & Hsel). injection E as <-. rewrite N.add_0_r in Hsel.
      assert (Hc' : forall i, (i < length cfgs)%nat -> exists c, nth_error cfgs i = Some c /\ lc_app_select_code c = sel (lane + 1 + N.of_nat i)).
      { intros i Hl. destruct (Hc (S i) ltac:(cbn; lia)) as (x & Hx & Hy). exists x. split; [exact Hx|].
        rewrite Hy. f_equal. lia. }
      cbn [active_applications length nrange]. unfold is_assigned. rewrite Hsel.
      destruct (N.eqb_spec (sel lane) 0) as [H0|H0]; cbn [negb].
      + cbn [obind].
        assert (Hi' : active_inv (ks ++ [lane]) m).
        { destruct Hi as [Hs Hl]. split; [exact Hs|]. intros a. specialize (Hl a). rewrite users_app, H0.
          destruct (N.eqb_spec 0 a) as [<-|Hn].
          - destruct (lookup 0 m) as [[d ls]|]; [tauto|]. now left.
          - rewrite app_nil_r. exact Hl. }
        destruct (IH (lane + 1) (ks ++ [lane]) m Hc' Hi') as [G1 G2]. split.
        * intros H. rewrite <- app_assoc in G1. apply G1. intros i Hl. specialize (H (S i) ltac:(lia)).
          replace (lane + 1 + N.of_nat i) with (lane + N.of_nat (S i)) by lia. exact H.
        * intros (i & Hl & Hn & Ha). destruct i as [|i]; [rewrite N.add_0_r in Hn; contradiction|]. apply G2. exists i.
          replace (lane + 1 + N.of_nat i) with (lane + N.of_nat (S i)) by lia. split; [lia|now split].
      + fold (app_at (sel lane)). destruct (app_at (sel lane)) as [d|] eqn:Ed; cbn [opt_unwrap obind].
        * assert (Hi' : active_inv (ks ++ [lane]) (entry_update (sel lane) (d, []) (fun x => (fst x, snd x ++ [lane])) m)).
          { destruct Hi as [Hs Hl]. split; [now apply entry_sorted|]. intros a. rewrite entry_lookup by exact Hs.
            rewrite users_app. destruct (N.eqb_spec a (sel lane)) as [->|Hn].
            - rewrite N.eqb_refl. specialize (Hl (sel lane)). destruct (lookup (sel lane) m) as [[d' ls]|]; cbn [fst snd].
              + destruct Hl as (L1 & L2 & L3 & L4). repeat split; try assumption; [now rewrite L3|]. destruct ls; discriminate.
              + destruct Hl as [L|L]; [contradiction|]. rewrite L. repeat split; try assumption. discriminate.
            - destruct (N.eqb_spec (sel lane) a); [congruence|]. rewrite app_nil_r. apply Hl. }
          destruct (IH (lane + 1) (ks ++ [lane]) _ Hc' Hi') as [G1 G2]. split.
          -- intros H. rewrite <- app_assoc in G1. apply G1. intros i Hl. specialize (H (S i) ltac:(lia)).
             replace (lane + 1 + N.of_nat i) with (lane + N.of_nat (S i)) by lia. exact H.
          -- intros (i & Hl & Hn & Ha). destruct i as [|i]; [rewrite N.add_0_r in Ha; congruence|]. apply G2. exists i.
             replace (lane + 1 + N.of_nat i) with (lane + N.of_nat (S i)) by lia. split; [lia|now split].
        * split; [|reflexivity]. intros H. exfalso. specialize (H 0%nat ltac:(lia)). rewrite N.add_0_r in H. now apply H.
  Qed.
End Active.

(** ** CMIS: collecting the status of the lanes *)
Section Collect.
  Context (status : N -> outcome DecodeError CmisLaneStatus) (st : N -> option CmisLaneStatus) (err : DecodeError).
  Definition status_at (k : N) : Prop :=
    status k = match st k with Some s => Ok s | None => Err err end.
  (** What the lanes [ls] contribute to entry [n]. *)
  Definition entry_of (ls : list N) (n : N) : option CmisLaneStatus :=
    if existsb (fun k => 1 + k =? n) ls then st (n - 1) else None.

  Lemma add_lanes_err a app ls : forall m, Forall status_at ls -> (exists k, In k ls /\ st k = None) ->
    add_lanes status a app ls m = Err err.
  Proof.
    induction ls as [|k ls IH]; intros m Hf (x & Hx & Hn); [destruct Hx|].
    inversion Hf as [|? ? Hk Hr]; subst. cbn [add_lanes]. unfold status_at in Hk. rewrite Hk.
    destruct (st k) as [s|] eqn:E; [|reflexivity]. cbn [obind]. apply IH; [exact Hr|].
    exists x. split; [|exact Hn]. destruct Hx as [->|Hx]; [congruence|exact Hx].
  Qed.
  Lemma add_lanes_ok a app ls : forall m, Forall status_at ls -> (forall k, In k ls -> st k <> None) -> sorted_keys m ->
    (forall d, lookup a m = Some d -> sorted_keys (cd_lane_status d) /\ cd_application d = app) ->
    exists m', add_lanes status a app ls m = Ok m' /\ sorted_keys m' /\
      (forall b, b <> a -> lookup b m' = lookup b m) /\
      (ls = [] -> m' = m) /\
      (ls <> [] -> exists d, lookup a m' = Some d /\ cd_application d = app /\ sorted_keys (cd_lane_status d) /\
         forall n, lookup n (cd_lane_status d) =
           match entry_of ls n with
           | Some s => Some s
           | None => match lookup a m with Some d0 => lookup n (cd_lane_status d0) | None => None end
           end).
  Proof.
    induction ls as [|k ls IH]; intros m Hf Hs Hm Ha.
    - exists m. cbn. repeat split; try tauto; congruence.
    - inversion Hf as [|? ? Hk Hr]; subst. cbn [add_lanes]. unfold status_at in Hk. rewrite Hk.
      destruct (st k) as [s|] eqn:E; [|exfalso; apply (Hs k); [now left|exact E]]. cbn [obind].
      set (m1 := entry_update _ _ _ m).
      assert (H1 : sorted_keys m1) by (now apply entry_sorted).
      assert (L1 : exists d1, lookup a m1 = Some d1 /\ cd_application d1 = app /\ sorted_keys (cd_lane_status d1) /\
        forall n, lookup n (cd_lane_status d1) = if n =? 1 + k then Some s else
          match lookup a m with Some d0 => lookup n (cd_lane_status d0) | None => None end).
      { unfold m1. rewrite entry_lookup by exact Hm. rewrite N.eqb_refl. eexists. split; [reflexivity|].
        destruct (lookup a m) as [d0|] eqn:El.
        - destruct (Ha d0 eq_refl) as [S0 A0]. cbn [cd_application cd_lane_status]. split; [exact A0|].
          split; [now apply entry_sorted|]. intros n. unfold entry_set. rewrite entry_lookup by exact S0. reflexivity.
        - cbn [cd_application cd_lane_status]. split; [reflexivity|]. split; [repeat constructor|].
          intros n. unfold entry_set. rewrite entry_lookup by constructor. reflexivity. }
      destruct L1 as (d1 & Ed1 & A1 & S1 & N1).
      destruct (IH m1 Hr ltac:(intros x Hx; apply Hs; now right) H1) as (m' & E' & S' & B' & Nil' & Ne').
      { intros d Hd. rewrite Ed1 in Hd. injection Hd as <-. now split. }
      exists m'. split; [exact E'|]. split; [exact S'|]. split.
      { intros b Hb. rewrite B' by exact Hb. unfold m1. rewrite entry_lookup by exact Hm.
        destruct (N.eqb_spec b a); [contradiction|reflexivity]. }
      split; [discriminate|]. intros _. destruct ls as [|k' ls].
      + rewrite (Nil' eq_refl). exists d1. split; [exact Ed1|]. split; [exact A1|]. split; [exact S1|].
        intros n. rewrite N1. unfold entry_of. cbn [existsb]. rewrite Bool.orb_false_r, (N.eqb_sym n (1 + k)).
        destruct (N.eqb_spec (1 + k) n) as [<-|]; [|reflexivity]. replace (1 + k - 1) with k by lia. now rewrite E.
      + destruct (Ne' ltac:(discriminate)) as (d & Ed & Ad & Sd & Nd). exists d. repeat (split; [assumption|]).
        intros n. rewrite Nd, Ed1, N1. unfold entry_of. cbn [existsb].
        destruct (N.eqb_spec n (1 + k)) as [->|Hn].
        * rewrite N.eqb_refl. cbn [orb]. replace (1 + k - 1) with k by lia. rewrite E. now destruct (_ || _).
        * destruct (N.eqb_spec (1 + k) n); [congruence|]. reflexivity.
  Qed.

  (** Lanes are distinct within each entry of [l], keys are distinct. *)
  Lemma add_apps_ok l : forall m, sorted_keys l -> sorted_keys m ->
    (forall a app ls, In (a, (app, ls)) l -> lookup a m = None /\ ls <> [] /\ Forall status_at ls /\ forall k, In k ls -> st k <> None) ->
    exists m', add_applications status l m = Ok m' /\ sorted_keys m' /\
      forall a, match lookup a l with
        | None => lookup a m' = lookup a m
        | Some (app, ls) => exists d, lookup a m' = Some d /\ cd_application d = app /\ sorted_keys (cd_lane_status d) /\
            forall n, lookup n (cd_lane_status d) = entry_of ls n
        end.
  Proof.
    induction l as [|[a [app ls]] l IH]; intros m Hl Hm Hin.
    - exists m. cbn. repeat split; assumption.
    - cbn [add_applications]. destruct (Hin a app ls (or_introl eq_refl)) as (Ha & Hne & Hf & Hs).
      destruct (add_lanes_ok a app ls m Hf Hs Hm) as (m1 & E1 & S1 & B1 & _ & D1); [intros d Hd; congruence|].
      destruct (D1 Hne) as (d & Ed & Ad & Sd & Nd). rewrite E1. cbn [obind].
      unfold sorted_keys in Hl. cbn [map fst] in Hl. apply StronglySorted_inv in Hl. destruct Hl as [Hl' Hf'].
      destruct (IH m1 Hl' S1) as (m' & E' & S' & L').
      { intros b app' ls' Hb. destruct (Hin b app' ls' (or_intror Hb)) as (G1 & G2).
        split; [|exact G2]. rewrite B1; [exact G1|]. rewrite Forall_forall in Hf'.
        assert (a < b) by (apply Hf'; apply in_map_iff; now exists (b, (app', ls'))). lia. }
      exists m'. split; [exact E'|]. split; [exact S'|]. intros b. cbn [lookup].
      destruct (N.eqb_spec b a) as [->|Hb].
      + specialize (L' a). rewrite (lookup_above a l Hf') in L'. exists d. rewrite L'. split; [exact Ed|].
        split; [exact Ad|]. split; [exact Sd|]. intros n. rewrite Nd, Ha. now destruct (entry_of ls n).
      + specialize (L' b). destruct (lookup b l) as [[app' ls']|]; [exact L'|]. rewrite L'. now apply B1.
  Qed.
  Lemma add_apps_err l : forall m, sorted_keys l -> sorted_keys m ->
    (forall a app ls, In (a, (app, ls)) l -> lookup a m = None /\ ls <> [] /\ Forall status_at ls) ->
    (exists a app ls k, In (a, (app, ls)) l /\ In k ls /\ st k = None) ->
    add_applications status l m = Err err.
  Proof.
    induction l as [|[a [app ls]] l IH]; intros m Hl Hm Hin (b & app' & ls' & k & Hb & Hk & Hn); [destruct Hb|].
    cbn [add_applications]. destruct (Hin a app ls (or_introl eq_refl)) as (Ha & Hne & Hf).
    destruct (existsb (fun k => match st k with None => true | _ => false end) ls) eqn:Ex.
    - apply existsb_exists in Ex. destruct Ex as (x & Hx & Hx').
      rewrite add_lanes_err; [reflexivity|exact Hf|]. exists x. split; [exact Hx|]. now destruct (st x).
    - assert (Hs : forall x, In x ls -> st x <> None).
      { intros x Hx Hnone. assert (existsb (fun k => match st k with None => true | _ => false end) ls = true); [|congruence].
        apply existsb_exists. exists x. split; [exact Hx|]. now rewrite Hnone. }
      destruct (add_lanes_ok a app ls m Hf Hs Hm) as (m1 & E1 & S1 & B1 & _ & _); [intros d Hd; congruence|].
      rewrite E1. cbn [obind]. unfold sorted_keys in Hl. cbn [map fst] in Hl. apply StronglySorted_inv in Hl. destruct Hl as [Hl' Hf'].
      apply IH; [exact Hl'|exact S1| |].
      + intros c app2 ls2 Hc. destruct (Hin c app2 ls2 (or_intror Hc)) as (G1 & G2).
        split; [|exact G2]. rewrite B1; [exact G1|]. rewrite Forall_forall in Hf'.
        assert (a < c) by (apply Hf'; apply in_map_iff; now exists (c, (app2, ls2))). lia.
      + destruct Hb as [Hb|Hb]; [injection Hb as <- <- <-; exfalso; now apply (Hs k Hk)|]. now exists b, app', ls', k.
  Qed.
End Collect.
