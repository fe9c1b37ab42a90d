(** Proofs about vendor data and memory models (C42, C43, C46). *)
From Verif Require Import Tac SpecDecode DecodeProofs.
From Coq Require Import Lia.

(** ** Areas of memory *)
Lemma nrange_app s a b : nrange s (a + b) = nrange s a ++ nrange (s + N.of_nat a) b.
Proof.
  revert s. induction a as [|a IH]; intros s.
  - cbn [Nat.add nrange app]. f_equal. lia.
  - cbn [Nat.add nrange app]. rewrite IH. f_equal. f_equal. f_equal. lia.
Qed.
Lemma area_app mem p k a b : area mem p k (a + b) = area mem p k a ++ area mem p (k + N.of_nat a) b.
Proof. unfold area. now rewrite nrange_app, map_app. Qed.
Lemma area_length mem p k n : length (area mem p k n) = n.
Proof. unfold area. now rewrite map_length, nrange_length. Qed.
Lemma area_slice mem p k n s l : (s + l <= n)%nat ->
  slice (area mem p k n) s l = Some (area mem p (k + N.of_nat s) l).
Proof.
  intros H. unfold slice. rewrite area_length. replace (Nat.leb (s + l) n) with true by (symmetry; now apply PeanoNat.Nat.leb_le).
  f_equal. replace n with (s + (l + (n - s - l)))%nat by lia. rewrite area_app, area_app.
  destruct (firstn_skipn_app_len (area mem p k s) (area mem p (k + N.of_nat s) l ++ area mem p (k + N.of_nat s + N.of_nat l) (n - s - l)) s (area_length _ _ _ _)) as [_ ->].
  now destruct (firstn_skipn_app_len (area mem p (k + N.of_nat s) l) (area mem p (k + N.of_nat s + N.of_nat l) (n - s - l)) l (area_length _ _ _ _)) as [-> _].
Qed.
Lemma area_nth mem p k n i : (i < n)%nat -> nth_error (area mem p k n) i = Some (mem p (k + N.of_nat i)).
Proof.
  intros H. unfold area. replace n with (i + S (n - i - 1))%nat by lia. rewrite nrange_app, map_app.
  rewrite nth_error_app2; rewrite map_length, nrange_length; [|lia].
  now rewrite PeanoNat.Nat.sub_diag.
Qed.
Lemma area_bytes mem p k n : byte_memory mem -> Forall (fun b => b < 256) (area mem p k n).
Proof. intros H. apply Forall_forall. intros x Hx. apply in_map_iff in Hx. destruct Hx as (i & <- & _). apply H. Qed.

(** ** Vendor data *)
Lemma vendor_fields_area id mem p k n nm ou pa re se da :
  (nm + 16 <= n)%nat -> (ou + 3 <= n)%nat -> (pa + 16 <= n)%nat -> (re + 2 <= n)%nat ->
  (se + 16 <= n)%nat -> (da + 8 <= n)%nat ->
  vendor_fields id (area mem p k n) nm ou pa re se da =
  Ok (mkVendorInfo id
        (mkVendor (ascii_to_string (area mem p (k + N.of_nat nm) 16))
                  (mkOui (mem p (k + N.of_nat ou)) (mem p (k + N.of_nat ou + 1)) (mem p (k + N.of_nat ou + 2)))
                  (ascii_to_string (area mem p (k + N.of_nat pa) 16))
                  (ascii_to_string (area mem p (k + N.of_nat re) 2))
                  (ascii_to_string (area mem p (k + N.of_nat se) 16))
                  (from_utf8 (area mem p (k + N.of_nat da) 8)))).
Proof.
  intros. unfold vendor_fields, sub_slice. rewrite !area_slice by assumption. cbn [opt_unwrap obind].
  replace (area mem p (k + N.of_nat ou) 3) with
    [mem p (k + N.of_nat ou); mem p (k + N.of_nat ou + 1); mem p (k + N.of_nat ou + 2)].
  - reflexivity.
  - unfold area. cbn [nrange map]. now replace (k + N.of_nat ou + 1 + 1) with (k + N.of_nat ou + 2) by lia.
Qed.
Lemma vendor_value mem v id : vendor_says mem v
        (mkVendor (ascii_to_string (area mem (vp_page v) (vp_name v) 16))
                  (mkOui (mem (vp_page v) (vp_oui v)) (mem (vp_page v) (vp_oui v + 1)) (mem (vp_page v) (vp_oui v + 2)))
                  (ascii_to_string (area mem (vp_page v) (vp_part v) 16))
                  (ascii_to_string (area mem (vp_page v) (vp_rev v) 2))
                  (ascii_to_string (area mem (vp_page v) (vp_serial v) 16))
                  (from_utf8 (area mem (vp_page v) (vp_date v) 8))) /\ id = id :> Identifier.
Proof.
  split; [|reflexivity]. unfold vendor_says. cbn [v_name v_oui v_part v_revision v_serial v_date].
  split; [apply ascii_to_string_stored|]. split; [reflexivity|].
  split; [apply ascii_to_string_stored|]. split; [apply ascii_to_string_stored|].
  split; [apply ascii_to_string_stored|]. intros t. apply from_utf8_spec.
Qed.

Lemma contents_mk mem p k n : contents mem (mkRead p k n) = area mem p k (N.to_nat n).
Proof. reflexivity. Qed.
Lemma vendor_reads_sff id : is_sff id = true -> vendor_reads id = Ok [mkRead (sff_up 0) 148 72].
Proof. intros H. unfold vendor_reads. now rewrite H. Qed.
Lemma vendor_reads_cmis id : is_sff id = false -> is_cmis id = true ->
  vendor_reads id = Ok (map (fun k => mkRead (cmis_up 0) k 8) [129; 137; 145; 153; 161; 169; 177; 185]).
Proof. intros H1 H2. unfold vendor_reads. rewrite H1, H2. vm_compute. reflexivity. Qed.

Lemma vendor_correct id mem : supported_kind id = true ->
  exists v, decoded vendor_reads vendor_parse id mem = Ok (mkVendorInfo id v) /\
    vendor_says mem (vendor_at id) v.
Proof.
  intros H. unfold decoded. destruct (kinds id H) as [[Hs Hk]|(Hs & Hk & Hc & Hk')]; eexists.
  - rewrite vendor_reads_sff by assumption. unfold vendor_parse, vendor_at. rewrite Hs, Hk. cbn [map].
    rewrite contents_mk, vendor_fields_area by (cbn; lia). split; [reflexivity|].
    apply (vendor_value mem (mkPlaces (sff_up 0) 148 165 168 184 196 212) id).
  - rewrite vendor_reads_cmis by assumption. unfold vendor_parse, vendor_at. rewrite Hs, Hk, Hc. cbn [map].
    rewrite !contents_mk.
    replace (concat _) with (area mem (cmis_up 0) 129 64)
      by (change 64%nat with (8 + (8 + (8 + (8 + (8 + (8 + (8 + 8)))))))%nat; rewrite !area_app; cbn [concat];
          now rewrite app_nil_r).
    rewrite vendor_fields_area by (cbn; lia). split; [reflexivity|].
    apply (vendor_value mem (mkPlaces (cmis_up 0) 129 145 148 164 166 182) id).
Qed.
Lemma vendor_unique mem v x y : vendor_says mem v x -> vendor_says mem v y -> x = y.
Proof.
  intros (A1 & A2 & A3 & A4 & A5 & A6) (B1 & B2 & B3 & B4 & B5 & B6). destruct x, y. cbn in *.
  f_equal; try (eapply stored_unique; eassumption); [now rewrite A2, B2|].
  destruct v_date as [t|] eqn:E.
  - symmetry. apply B6. now apply A6.
  - destruct v_date0 as [t|]; [|reflexivity]. apply A6. now apply B6.
Qed.
Lemma vendor_unsupported id reads : supported_kind id = false ->
  vendor_parse id reads = Err (DeUnsupportedIdentifier id) /\
  memory_parse id reads = Err (DeUnsupportedIdentifier id) /\
  monitor_parse id reads = Err (DeUnsupportedIdentifier id) /\
  datapath_parse id reads = Err (DeUnsupportedIdentifier id) /\
  power_parse id reads = Err (DeUnsupportedIdentifier id).
Proof.
  intros H. destruct (unsupported id H) as [H1 H2].
  unfold vendor_parse, memory_parse, monitor_parse, datapath_parse, power_parse. rewrite H1, H2. auto.
Qed.

(** ** Memory models *)
Lemma memory_reads_sff id : is_sff id = true ->
  memory_reads id = Ok [mkRead sff_low 2 1; mkRead (sff_up 0) 195 1].
Proof. intros H. unfold memory_reads. now rewrite H. Qed.
Lemma memory_reads_cmis id : is_sff id = false -> is_cmis id = true ->
  memory_reads id = Ok [mkRead cmis_low 2 1; mkRead (cmis_up 1) 142 1].
Proof. intros H1 H2. unfold memory_reads. now rewrite H1, H2. Qed.

Ltac solve_in :=
  split; intros Hin;
  [ cbn [In] in Hin; decompose [or] Hin; try contradiction; subst; auto 12
  | decompose [or and] Hin; try discriminate; subst; cbn [In]; auto 12 ].

Lemma strictly l : (fix go (l : list N) := match l with a :: ((b :: _) as r) => (a <? b) && go r | _ => true end) l = true ->
  StronglySorted N.lt l.
Proof.
  intros H. apply Sorted_StronglySorted; [intros a b c; lia|]. induction l as [|a [|b l] IH]; [constructor|constructor; constructor|].
  apply andb_prop in H. destruct H as [H1 H2]. constructor; [now apply IH|]. constructor. lia.
Qed.
Lemma land3 b : N.land b 3 = b mod 4.
Proof. change 3 with (N.ones 2). now rewrite N.land_ones. Qed.

Lemma memory_sff id mem : is_sff id = true -> sff_kind id = true ->
  exists m, decoded memory_reads memory_parse id mem = Ok m /\
    (flat_memory id mem = true -> m = Flat) /\
    (flat_memory id mem = false -> exists pages, m = Paged pages /\
       StronglySorted N.lt (map page_no pages) /\
       (forall p, In p pages <-> advertises id mem p)).
Proof.
  intros Hs Hk. unfold decoded. rewrite memory_reads_sff by assumption. unfold memory_parse. rewrite Hs.
  cbn [map]. rewrite !contents_mk. change (N.to_nat 1) with 1%nat. unfold area. cbn [nrange map first_byte obind tl].
  unfold flat_memory, advertises. rewrite Hk.
  change 4 with (2 ^ 2). rewrite land_bit0, !bit_testbit.
  set (a := mem (sff_up 0) 195).
  destruct (N.testbit (mem sff_low 2) 2); cbn [negb].
  - eexists. split; [reflexivity|]. split; [reflexivity|discriminate].
  - destruct (N.testbit a 7), (N.testbit a 6), (N.testbit a 0);
      (eexists; split; [vm_compute; reflexivity|]; split; [discriminate|]; intros _;
       eexists; split; [reflexivity|]; split; [apply strictly; vm_compute; reflexivity|];
       intros p; unfold sff_up; solve_in).
Qed.
Lemma memory_cmis id mem : is_sff id = false -> sff_kind id = false -> is_cmis id = true ->
  mem (cmis_up 1) 142 mod 4 <> 3 \/ flat_memory id mem = true ->
  exists m, decoded memory_reads memory_parse id mem = Ok m /\
    (flat_memory id mem = true -> m = Flat) /\
    (flat_memory id mem = false -> exists pages, m = Paged pages /\
       StronglySorted N.lt (map page_no pages) /\
       (forall p, In p pages <-> advertises id mem p)).
Proof.
  intros Hs Hk Hc. unfold decoded. rewrite memory_reads_cmis by assumption. unfold memory_parse. rewrite Hs, Hc.
  cbn [map]. rewrite !contents_mk. change (N.to_nat 1) with 1%nat. unfold area. cbn [nrange map first_byte obind tl].
  unfold flat_memory, advertises. rewrite Hk.
  change 128 with (2 ^ 7). rewrite land_bit0, !bit_testbit, land3.
  set (a := mem (cmis_up 1) 142).
  destruct (N.testbit (mem cmis_low 2) 7); cbn [negb]; intros Hr.
  - eexists. split; [reflexivity|]. split; [reflexivity|discriminate].
  - unfold top_bank. assert (Hm : a mod 4 = 0 \/ a mod 4 = 1 \/ a mod 4 = 2).
    { pose proof (N.mod_lt a 4 ltac:(discriminate)). destruct Hr as [Hr|]; [lia|discriminate]. }
    destruct Hm as [ -> | [ -> | -> ]]; destruct (N.testbit a 2), (N.testbit a 5);
      (eexists; split; [vm_compute; reflexivity|]; split; [discriminate|]; intros _;
       eexists; split; [reflexivity|]; split; [apply strictly; vm_compute; reflexivity|];
       intros p; unfold cmis_up, cmis_up_bank; solve_in).
Qed.
Lemma memory_correct id mem : supported_kind id = true -> ~ reserved_banks id mem ->
  exists m, decoded memory_reads memory_parse id mem = Ok m /\
    (flat_memory id mem = true -> m = Flat) /\
    (flat_memory id mem = false -> exists pages, m = Paged pages /\
       StronglySorted N.lt (map page_no pages) /\
       (forall p, In p pages <-> advertises id mem p)).
Proof.
  intros H Hr. destruct (kinds id H) as [[Hs Hk]|(Hs & Hk & Hc & Hk')].
  - now apply memory_sff.
  - apply memory_cmis; try assumption. destruct (flat_memory id mem) eqn:F; [now right|]. left. intros E. apply Hr.
    now repeat split.
Qed.
Lemma memory_panics id mem : reserved_banks id mem -> decoded memory_reads memory_parse id mem = Panic.
Proof.
  intros (Hk & Hf & Hm).
  assert (Hs : sff_kind id = false).
  { destruct (sff_kind id) eqn:E; [|reflexivity]. exfalso. unfold sff_kind, cmis_kind in *.
    apply orb_prop in E. destruct E as [E|E]; apply benum_eqb_true in E; subst id; discriminate. }
  unfold flat_memory in Hf. rewrite Hs in Hf.
  unfold decoded. rewrite memory_reads_cmis by assumption. unfold memory_parse.
  change (is_sff id) with (sff_kind id). change (is_cmis id) with (cmis_kind id). rewrite Hs, Hk.
  cbn [map]. rewrite !contents_mk. change (N.to_nat 1) with 1%nat. unfold area. cbn [nrange map first_byte obind tl].
  change 128 with (2 ^ 7). rewrite land_bit0, Hf, land3. cbn [negb]. rewrite Hm. vm_compute. reflexivity.
Qed.
(** Every page listed is a defined page of the module's interface. *)
Lemma advertised_defined id mem p : supported_kind id = true -> advertises id mem p ->
  page_defined p /\ speaks id p.
Proof.
  intros H Ha. destruct (kinds id H) as [[Hs Hk]|(Hs & Hk & Hc & Hk')]; unfold advertises in Ha; rewrite Hk in Ha.
  - assert (Hp : exists n, p = sff_up n /\ n <= 0x21).
    { decompose [or and] Ha; subst; eexists; split; try reflexivity; lia. }
    destruct Hp as (n & -> & Hn). split; [left; exact Hn|]. unfold speaks, management_interface.
    change (benum_eqb id QsfpPlusSff8636 || benum_eqb id Qsfp28) with (sff_kind id). now rewrite Hk.
  - assert (Hp : (exists n, p = cmis_up n /\ n <= 4) \/ exists b n, p = cmis_up_bank b n /\ 0x10 <= n <= 0x3f /\ b <= 3).
    { assert (Hb : top_bank (mem (cmis_up 1) 142) <= 3) by (unfold top_bank; destruct (_ mod 4) as [|[q|q|]]; lia).
      decompose [or and] Ha; subst;
      solve [left; eexists; split; [reflexivity|lia] | right; eexists; eexists; split; [reflexivity|]; split; [lia|assumption]]. }
    assert (Hsp : forall c, speaks id (PageCmis c)).
    { intros c. unfold speaks, management_interface.
      change (benum_eqb id QsfpPlusSff8636 || benum_eqb id Qsfp28) with (sff_kind id).
      change (benum_eqb id QsfpPlusCmis || benum_eqb id QsfpDD) with (cmis_kind id). now rewrite Hk, Hk'. }
    destruct Hp as [(n & -> & Hn)|(b & n & -> & Hn & Hb)].
    + split; [|apply Hsp]. unfold cmis_up. cbn [page_defined cu_page cu_bank]. unfold cmis_defined, cmis_banked. lia.
    + split; [|apply Hsp]. unfold cmis_up_bank. cbn [page_defined cu_page cu_bank]. unfold cmis_defined, cmis_banked. lia.
Qed.
