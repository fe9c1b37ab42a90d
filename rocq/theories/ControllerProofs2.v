(** Proofs about the controller, part 2: responses attached to ports (C32). *)
From Verif Require Export ControllerProofs CodecProofs.

Definition faults (bad : N) (errs : list N) : Failures :=
  mkFailed bad (map (fun p => hw_fault (fst p) (snd p)) (combine (to_indices bad) errs)).

Lemma lookup_combine_map {A B} (h : N -> A -> B) ports (l : list A) i :
  lookup i (combine ports (map (fun p => h (fst p) (snd p)) (combine ports l))) =
  match lookup i (combine ports l) with Some x => Some (h i x) | None => None end.
Proof.
  revert l. induction ports as [|p ports IH]; intros [|x l]; cbn; try reflexivity.
  rewrite IH. destruct (N.eqb_spec i p) as [->|]; reflexivity.
Qed.
Lemma get_map {A B} (h : A -> B) m (l : list A) i :
  get m (map h l) i = match get m l i with Some x => Some (h x) | None => None end.
Proof.
  unfold get, zip_data. generalize (to_indices m) as ports. intros ports. revert l.
  induction ports as [|p ports IH]; intros [|x l]; cbn; try reflexivity.
  rewrite IH. destruct (i =? p); reflexivity.
Qed.
Lemma fget_faults bad errs i : fget (faults bad errs) i =
  match get bad errs i with Some b => Some (hw_fault i b) | None => None end.
Proof. unfold fget, faults, get, zip_data. apply lookup_combine_map. Qed.
Lemma faligned_faults bad errs : mask_ok bad = true -> length errs = length (to_indices bad) ->
  faligned (faults bad errs).
Proof.
  intros H1 H2. split; [exact H1|]. cbn. rewrite map_length, combine_length, count_to_indices by assumption.
  lia.
Qed.

Lemma attaches_intro {P} r (dec : list N -> P) items errs :
  resp_modules r < 2 ^ 64 -> resp_failed r < 2 ^ 64 ->
  length items = length (to_indices (resp_modules r)) ->
  length errs = length (to_indices (resp_failed r)) ->
  attaches r dec items errs (mkResult (resp_modules r) (map dec items) (faults (resp_failed r) errs)).
Proof.
  intros Hm Hf Hi He. rewrite <- mask_ok_lt in Hm, Hf. unfold attaches. cbn.
  split; [reflexivity|]. split; [reflexivity|]. split; [|split; [|split]].
  - apply one_each_aligned. split; [exact Hm|]. rewrite map_length, count_to_indices by exact Hm. exact Hi.
  - apply one_each_aligned. now apply faligned_faults.
  - intros i v. rewrite succeeds_get. setoid_rewrite at_port_get. unfold rget. cbn.
    rewrite get_map. destruct (get _ items i) as [x|]; split.
    + intros E. injection E as <-. eauto.
    + intros (y & E & ->). now injection E as <-.
    + discriminate.
    + now intros (y & E & _).
  - intros i v. rewrite fails_get. setoid_rewrite at_port_get. unfold rerr. cbn [mr_failures].
    rewrite fget_faults. destruct (get _ errs i) as [x|]; split.
    + intros E. injection E as <-. eauto.
    + intros (y & E & ->). now injection E as <-.
    + discriminate.
    + now intros (y & E & _).
Qed.

Section Raw.
  Context {St : Type} (sp : St -> Rpc -> St * reply).
  Implicit Type w : world St.

  Definition sp_state w q d := fst (sp (w_sp w) (req w q d)).

  Lemma rpc_answer w q d r : answer sp w q d = Ok r ->
    rpc sp q d w = (stepped w q d (sp_state w q d), Ok r).
  Proof. intros H. rewrite rpc_eq. unfold answer in H. unfold req in *. now rewrite H. Qed.

  (** The bytes of a documented reply, cut where the controller cuts them. *)
  Lemma documented_cut x r items errs : documented_reply x r items errs ->
    exists h msg, x = Ok (mkRpc h msg (Some (concat items ++ errs))) /\
      msg_body msg = BSpResponse r /\
      mask_ok (resp_modules r) = true /\ mask_ok (resp_failed r) = true /\
      length items = length (to_indices (resp_modules r)) /\
      Forall (fun x => length x = unit_size r) items /\
      length errs = length (to_indices (resp_failed r)) /\
      length (concat items) = (m_count (resp_modules r) * unit_size r)%nat.
  Proof.
    intros (h & msg & Hx & Hb & Hm & Hf & _ & _ & Hi & Hu & He). exists h, msg.
    rewrite <- mask_ok_lt in Hm, Hf. repeat (split; [assumption|]).
    rewrite (concat_length_const _ _ Hu), Hi, count_to_indices by assumption. reflexivity.
  Qed.

  Lemma raw_ack w q good bad errs :
    documented_reply (answer sp w q None) (SAck good bad) (repeat [] (length (to_indices good))) errs ->
    no_payload_request sp q w =
    (stepped w q None (sp_state w q None), Ok (ack_new good (faults bad errs))).
  Proof.
    intros H. apply documented_cut in H. destruct H as (h & msg & Hx & Hb & Hm & Hf & Hi & Hu & He & Hc).
    unfold no_payload_request. erewrite cbind_ok by (apply rpc_answer; exact Hx).
    cbn [rpc_message]. rewrite Hb. unfold cret. cbn [rpc_data opt_unwrap obind].
    assert (E : concat (repeat (@nil N) (length (to_indices good))) = []) by
      (clear; induction (length (to_indices good)); cbn; auto).
    rewrite E. cbn [app]. cbn [resp_failed] in *. rewrite hw_errors_ok by assumption. reflexivity.
  Qed.

  Lemma raw_write w m wr data good bad wr' errs :
    wr_len wr = Nlen data ->
    documented_reply (answer sp w (HWrite m wr) (Some data)) (SWrite good bad wr')
                     (repeat [] (length (to_indices good))) errs ->
    write_impl sp m wr data w =
    (stepped w (HWrite m wr) (Some data) (sp_state w (HWrite m wr) (Some data)),
     Ok (ack_new good (faults bad errs))).
  Proof.
    intros Hl H. apply documented_cut in H. destruct H as (h & msg & Hx & Hb & Hm & Hf & Hi & Hu & He & Hc).
    unfold write_impl. rewrite Hl, N.eqb_refl. cbn [negb].
    erewrite cbind_ok by (apply rpc_answer; exact Hx).
    cbn [rpc_message]. rewrite Hb. unfold cret. cbn [rpc_data opt_unwrap obind].
    assert (E : concat (repeat (@nil N) (length (to_indices good))) = []) by
      (clear; induction (length (to_indices good)); cbn; auto).
    rewrite E. cbn [app]. cbn [resp_failed] in *. rewrite hw_errors_ok by assumption. reflexivity.
  Qed.

  Lemma singles (items : list (list N)) : Forall (fun x => length x = 1%nat) items ->
    concat items = map (hd 0) items.
  Proof.
    induction 1 as [|x items Hx _ IH]; cbn; [reflexivity|]. rewrite IH.
    destruct x as [|b [|]]; try discriminate. reflexivity.
  Qed.

  Lemma raw_status w m good bad items errs :
    Forall (fun x => bytes x = true) items ->
    documented_reply (answer sp w (HStatus m) None) (SStatus good bad) items errs ->
    ctl_status sp m w =
    (stepped w (HStatus m) None (sp_state w (HStatus m) None),
     Ok (mkResult good (map (hd 0) items) (faults bad errs))).
  Proof.
    intros Hbs H. apply documented_cut in H. destruct H as (h & msg & Hx & Hb & Hm & Hf & Hi & Hu & He & Hc).
    unfold ctl_status. erewrite cbind_ok by (apply rpc_answer; exact Hx).
    cbn [rpc_message]. rewrite Hb. unfold cret. cbn [rpc_data opt_unwrap obind sp_expected_data_len].
    cbn [resp_failed resp_modules unit_size] in *.
    rewrite split_at_app by exact Hc. cbn [obind fst snd].
    rewrite (singles items Hu).
    rewrite (omapM_ok _ (fun x => x)).
    - cbn [obind]. rewrite map_id, hw_errors_ok by assumption. reflexivity.
    - intros x Hx'. apply in_map_iff in Hx'. destruct Hx' as (y & <- & Hy).
      rewrite Forall_forall in Hu, Hbs. specialize (Hu _ Hy). specialize (Hbs _ Hy).
      destruct y as [|b [|]]; try discriminate. cbn in *. unfold status_from_bits, u8 in *.
      rewrite andb_true_r in Hbs. change (2 ^ 8) with 256 in Hbs. now rewrite Hbs.
  Qed.

  Lemma led_chunk x : length x = 1%nat -> hd 0 x < 3 -> led_of_chunk x = Ok (led_of x).
  Proof.
    destruct x as [|b [|]]; try discriminate. cbn [hd]. intros _ H.
    assert (b = 0 \/ b = 1 \/ b = 2) as [->|[->| ->]] by lia; reflexivity.
  Qed.

  Lemma raw_leds w m good bad items errs :
    Forall (fun x => hd 0 x < 3) items ->
    documented_reply (answer sp w (HLedState m) None) (SLedState good bad) items errs ->
    leds sp m w =
    (stepped w (HLedState m) None (sp_state w (HLedState m) None),
     Ok (mkResult good (map led_of items) (faults bad errs))).
  Proof.
    intros Hbs H. apply documented_cut in H. destruct H as (h & msg & Hx & Hb & Hm & Hf & Hi & Hu & He & Hc).
    unfold leds. erewrite cbind_ok by (apply rpc_answer; exact Hx).
    cbn [rpc_message]. rewrite Hb. unfold cret. cbn [rpc_data opt_unwrap obind sp_expected_data_len].
    cbn [resp_failed resp_modules unit_size] in *.
    rewrite split_at_app by exact Hc. cbn [obind fst snd].
    rewrite chunks_concat by (auto; lia).
    rewrite (omapM_ok _ led_of).
    - cbn [obind]. rewrite hw_errors_ok by assumption. reflexivity.
    - intros x Hx'. rewrite Forall_forall in Hu, Hbs. apply led_chunk; auto.
  Qed.

  Lemma le_value_u32 x : length x = 4%nat -> bytes x = true -> u32 (le_value x) = true /\ enc_u32 (le_value x) = x.
  Proof.
    destruct x as [|a [|b [|c [|d [|]]]]]; try discriminate. intros _ H. unfold bytes, u8 in H. cbn in H.
    change (2 ^ 8) with 256 in H.
    assert (a < 256 /\ b < 256 /\ c < 256 /\ d < 256) as (Ha & Hb & Hc & Hd) by lia.
    cbn [le_value fold_right]. split.
    - unfold u32. change (2 ^ 32) with 4294967296. lia.
    - Transparent enc_u32. unfold enc_u32. cbn [enc_int]. Opaque enc_u32.
      f_equal; [lia|]. f_equal; [lia|]. f_equal; [lia|]. f_equal. lia.
  Qed.

  Lemma ext_loop items : forall rest,
    Forall (fun x => length x = 4%nat) items -> Forall (fun x => bytes x = true) items ->
    Forall (fun x => le_value x < 512) items ->
    ext_status_loop (length items) (concat items ++ rest) = Ok (map le_value items).
  Proof.
    induction items as [|x items IH]; intros rest Hu Hb Hv; [reflexivity|].
    pose proof (Forall_inv Hu) as Hu1. pose proof (Forall_inv Hb) as Hb1. pose proof (Forall_inv Hv) as Hv1.
    cbn [length ext_status_loop concat map]. unfold dec_ext_status, dbind.
    destruct (le_value_u32 x Hu1 Hb1) as [Hk Hx].
    rewrite <- app_assoc. rewrite <- Hx at 1. destruct codec_u32 as (Hrt & _). rewrite Hrt by exact Hk.
    unfold ext_status_from_bits. apply N.ltb_lt in Hv1. rewrite Hv1.
    rewrite IH; [reflexivity| | |]; eapply Forall_inv_tail; eassumption.
  Qed.

  Lemma raw_ext w m good bad items errs :
    Forall (fun x => bytes x = true) items -> Forall (fun x => le_value x < 512) items ->
    documented_reply (answer sp w (HExtendedStatus m) None) (SExtendedStatus good bad) items errs ->
    extended_status sp m w =
    (stepped w (HExtendedStatus m) None (sp_state w (HExtendedStatus m) None),
     Ok (mkResult good (map le_value items) (faults bad errs))).
  Proof.
    intros Hbs Hv H. apply documented_cut in H. destruct H as (h & msg & Hx & Hb & Hm & Hf & Hi & Hu & He & Hc).
    unfold extended_status. erewrite cbind_ok by (apply rpc_answer; exact Hx).
    cbn [rpc_message]. rewrite Hb. unfold cret. cbn [rpc_data opt_unwrap obind sp_expected_data_len].
    cbn [resp_failed resp_modules unit_size] in *.
    rewrite split_at_app by exact Hc. cbn [obind fst snd].
    rewrite count_to_indices, <- Hi by assumption.
    rewrite <- (app_nil_r (concat items)), ext_loop by assumption.
    cbn [obind]. rewrite hw_errors_ok by assumption. reflexivity.
  Qed.

  Lemma raw_read w m rd good bad rd' items errs :
    fits_in_one_message m rd = true -> rd_len rd <> 0 -> rd_len rd' = rd_len rd ->
    documented_reply (answer sp w (HRead m rd) None) (SRead good bad rd') items errs ->
    read_impl_one_message sp m rd w =
    (stepped w (HRead m rd) None (sp_state w (HRead m rd) None),
     Ok (mkResult good items (faults bad errs))).
  Proof.
    intros Hfit Hl Hr H. apply documented_cut in H. destruct H as (h & msg & Hx & Hb & Hm & Hf & Hi & Hu & He & Hc).
    unfold read_impl_one_message. rewrite Hfit. cbn [negb].
    erewrite cbind_ok by (apply rpc_answer; exact Hx).
    cbn [rpc_message]. rewrite Hb. unfold cret. cbn [rpc_data opt_unwrap obind sp_expected_data_len].
    cbn [resp_failed resp_modules unit_size] in *.
    rewrite split_at_app by exact Hc. cbn [obind fst snd].
    rewrite Hr in *. destruct (N.eqb_spec (rd_len rd) 0) as [|_]; [contradiction|].
    rewrite chunks_exact_concat by (auto; lia).
    rewrite (count_to_indices good), Hi, Nat.eqb_refl by assumption. cbn [negb].
    rewrite hw_errors_ok by assumption. reflexivity.
  Qed.

  (** Splitting *)
  Lemma chunks_fuel_one {A} k (l : list A) fuel : l <> [] -> (length l <= k)%nat -> (length l <= fuel)%nat ->
    chunks_fuel fuel k l = [l].
  Proof.
    intros Hl Hk Hf. destruct l as [|x l]; [congruence|]. destruct fuel as [|fuel]; [cbn in Hf; lia|].
    cbn [chunks_fuel]. rewrite firstn_all2 by exact Hk. rewrite skipn_all2 by exact Hk.
    destruct fuel; reflexivity.
  Qed.
  Lemma to_indices_le64 m : (length (to_indices m) <= 64)%nat.
  Proof.
    assert (H : incl (to_indices m) (nrange 0 64)).
    { intros i Hi. apply in_to_indices in Hi. apply in_nrange. change (N.of_nat 64) with 64. lia. }
    apply NoDup_incl_length in H; [|apply to_indices_nodup]. now rewrite nrange_length in H.
  Qed.

  Lemma raw_identifier w m good bad rd' items errs :
    m < 2 ^ 64 -> m <> 0 -> rd_len rd' = 1 ->
    documented_reply (answer sp w (HRead m ident_read) None) (SRead good bad rd') items errs ->
    identifier sp m w =
    (stepped w (HRead m ident_read) None (sp_state w (HRead m ident_read) None),
     Ok (mkResult good (map (fun x => ident_of_byte (hd 0 x)) items) (faults bad errs))).
  Proof.
    intros Hm Hz Hr H. rewrite <- mask_ok_lt in Hm. unfold identifier. unfold cret at 1.
    erewrite cbind_ok by reflexivity. change (mkRead (PageSff SffLower) 0 1) with ident_read.
    assert (Hn : m_count m <> 0%nat).
    { intros E. apply Hz. apply m_is_empty_spec; [assumption|]. unfold m_is_empty. now rewrite E. }
    unfold read_impl. destruct (Nat.eqb_spec (m_count m) 0) as [|_]; [contradiction|].
    cbn [orb rd_len ident_read]. change (1 =? 0) with false. cbv iota.
    assert (Hs : split_large_reads m ident_read = Ok [m]).
    { unfold split_large_reads. cbn [rd_len ident_read]. change (1 =? 0) with false. cbv iota.
      change (N.to_nat 1) with 1%nat. rewrite Nat.div_1_r. unfold chunks.
      rewrite chunks_fuel_one; [|rewrite count_to_indices in Hn by assumption; now destruct (to_indices m)
        |pose proof (to_indices_le64 m); unfold MAX_PAYLOAD_SIZE; lia|reflexivity].
      cbn [omapM]. rewrite from_to_indices by assumption. reflexivity. }
    rewrite Hs. unfold cret at 1.
    assert (Hfit : fits_in_one_message m ident_read = true).
    { unfold fits_in_one_message. rewrite count_to_indices by assumption. cbn [rd_len ident_read].
      change (N.to_nat 1) with 1%nat. pose proof (to_indices_le64 m). unfold MAX_PAYLOAD_SIZE.
      apply Nat.leb_le. lia. }
    pose proof (raw_read w m ident_read good bad rd' items errs Hfit) as Hrd.
    cbn [rd_len ident_read] in Hrd. specialize (Hrd ltac:(lia) Hr H).
    apply documented_cut in H. destruct H as (h & msg & Hx & Hb & Hgm & Hf & Hi & Hu & He & Hc).
    erewrite cbind_ok.
    2:{ erewrite cbind_ok by reflexivity. cbv beta iota. erewrite cbind_ok by exact Hrd. reflexivity. }
    cbn [mr_data mr_modules mr_failures]. unfold cret.
    rewrite (omapM_ok _ (fun x => ident_of_byte (hd 0 x))); [reflexivity|].
    intros x Hxi. rewrite Forall_forall in Hu. specialize (Hu _ Hxi). cbn [unit_size] in Hu. rewrite Hr in Hu.
    destruct x as [|b t]; [discriminate|]. reflexivity.
  Qed.
End Raw.

(** ** C32 *)
Section C32.
  Context {St : Type} (sp : St -> Rpc -> St * reply).
  Implicit Type w : world St.

  Lemma c32_attach {P} x r (dec : list N -> P) items errs : documented_reply x r items errs ->
    attaches r dec items errs (mkResult (resp_modules r) (map dec items) (faults (resp_failed r) errs)).
  Proof.
    intros (h & msg & Hx & Hb & Hm & Hf & _ & _ & Hi & Hu & He). now apply attaches_intro.
  Qed.

  Lemma status_attaches w m good bad items errs :
    Forall (fun x => bytes x = true) items ->
    documented_reply (answer sp w (HStatus m) None) (SStatus good bad) items errs ->
    exists r, snd (ctl_status sp m w) = Ok r /\ attaches (SStatus good bad) (hd 0) items errs r.
  Proof.
    intros Hb H. eexists. split; [rewrite (raw_status sp w m good bad items errs Hb H); reflexivity|].
    exact (c32_attach _ _ (hd 0) _ _ H).
  Qed.
  Lemma ext_attaches w m good bad items errs :
    Forall (fun x => bytes x = true) items -> Forall (fun x => le_value x < 512) items ->
    documented_reply (answer sp w (HExtendedStatus m) None) (SExtendedStatus good bad) items errs ->
    exists r, snd (extended_status sp m w) = Ok r /\ attaches (SExtendedStatus good bad) le_value items errs r.
  Proof.
    intros Hb Hv H. eexists. split; [rewrite (raw_ext sp w m good bad items errs Hb Hv H); reflexivity|].
    exact (c32_attach _ _ le_value _ _ H).
  Qed.
  Lemma leds_attaches w m good bad items errs :
    Forall (fun x => hd 0 x < 3) items ->
    documented_reply (answer sp w (HLedState m) None) (SLedState good bad) items errs ->
    exists r, snd (leds sp m w) = Ok r /\ attaches (SLedState good bad) led_of items errs r.
  Proof.
    intros Hb H. eexists. split; [rewrite (raw_leds sp w m good bad items errs Hb H); reflexivity|].
    exact (c32_attach _ _ led_of _ _ H).
  Qed.
  Lemma identifier_attaches w m good bad rd items errs :
    m < 2 ^ 64 -> m <> 0 -> rd_len rd = 1 ->
    documented_reply (answer sp w (HRead m ident_read) None) (SRead good bad rd) items errs ->
    exists r, snd (identifier sp m w) = Ok r /\
      attaches (SRead good bad rd) (fun x => ident_of_byte (hd 0 x)) items errs r.
  Proof.
    intros Hm Hz Hr H. eexists.
    split; [rewrite (raw_identifier sp w m good bad rd items errs Hm Hz Hr H); reflexivity|].
    exact (c32_attach _ _ (fun x => ident_of_byte (hd 0 x)) _ _ H).
  Qed.
  Lemma ack_attaches w q good bad errs :
    documented_reply (answer sp w q None) (SAck good bad) (repeat [] (length (to_indices good))) errs ->
    exists r, snd (no_payload_request sp q w) = Ok r /\
      attaches (SAck good bad) (fun _ => tt) (repeat [] (length (to_indices good))) errs r.
  Proof.
    intros H. eexists. split; [rewrite (raw_ack sp w q good bad errs H); reflexivity|].
    pose proof (c32_attach _ _ (fun _ => tt) _ _ H) as A.
    cbn [resp_modules resp_failed] in A. rewrite ack_eq in A; [exact A|].
    destruct H as (h & msg & Hx & Hb & Hm & Hf & _). cbn in Hm.
    rewrite map_length, repeat_length. symmetry. apply count_to_indices. now apply mask_ok_lt.
  Qed.
End C32.
