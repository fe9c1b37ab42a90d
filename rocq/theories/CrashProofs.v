(** Which answers crash the caller (C33). *)
From Verif Require Import IoProofs3.
From Verif Require Export ControllerProofs9 SpecCrash.

(** An answer passed on is well formed and has exactly the data it announces. *)
Lemma passed_shape resp : passed_on resp -> exists r,
  msg_body (rpc_message resp) = BSpResponse r /\ wf_sp_response r = true /\
  match r with
  | SMacAddrs _ => True
  | _ => exists data, rpc_data resp = Some data /\ bytes data = true /\ length data = announced r
  end.
Proof.
  intros (q & d & Hb & h & m & r & data & rest & E & Hwh & Hwm & Hk & Hid & Hm & Hl & ->).
  exists r. cbn [rpc_message rpc_data]. split; [exact Hm|].
  split. { unfold wf_message in Hwm. rewrite Hm in Hwm. apply andb_prop in Hwm. tauto. }
  assert (Hd : bytes data = true).
  { pose proof (bytes_firstn MAX_PACKET_SIZE d Hb) as K. rewrite E, !bytes_app, !andb_true_iff in K. tauto. }
  destruct r; try exact I; exists data; auto.
Qed.

Lemma hw_fine f d : (length (to_indices f) <= length d)%nat -> mask_ok f = true ->
  exists e, ctl_hw_errors f d = Ok e /\ fm_modules e = f.
Proof.
  intros H Hf. unfold ctl_hw_errors, deserialize_hw_errors. rewrite count_to_indices by exact Hf.
  destruct (length (to_indices f)) as [|n] eqn:En; [cbn; eauto|].
  unfold deserialized_errors_new. replace (Nat.ltb (length d) (S n)) with false by (symmetry; apply Nat.ltb_ge; exact H).
  cbn. eauto.
Qed.
Lemma split_fine {E} n d : (n <= length d)%nat -> @split_at E n d = Ok (firstn n d, skipn n d).
Proof. intros H. unfold split_at. apply Nat.leb_le in H. now rewrite H. Qed.

(** ** Pieces *)
Lemma omapM_panic {F A B} (f : A -> outcome F B) l : (forall x, In x l -> forall e, f x <> Err e) ->
  (omapM f l = Panic <-> exists x, In x l /\ f x = Panic) /\ (forall e, omapM f l <> Err e).
Proof.
  induction l as [|x l IH]; intros He; cbn [omapM].
  - split; [split; [discriminate|intros (x & [] & _)]|discriminate].
  - destruct IH as [IH1 IH2]. { intros y Hy. apply He. now right. }
    destruct (f x) as [y|e|] eqn:Ex; cbn [obind].
    + destruct (omapM f l) as [ys|e|] eqn:El; cbn [obind].
      * split; [|discriminate]. split; [discriminate|]. intros (z & [->|Hz] & Ez); [congruence|].
        assert (X : @Ok F _ ys = Panic) by (apply IH1; eauto). discriminate X.
      * now destruct (IH2 e).
      * split; [|discriminate]. split; [|reflexivity]. intros _. destruct (proj1 IH1 eq_refl) as (z & Hz & Ez).
        exists z. split; [now right|exact Ez].
    + now destruct (He x (or_introl eq_refl) e).
    + split; [|discriminate]. split; [|reflexivity]. intros _. exists x. split; [now left|exact Ex].
Qed.
Lemma nth_firstn {A} (l : list A) : forall n k, (k < n)%nat -> nth_error (firstn n l) k = nth_error l k.
Proof.
  induction l as [|x l IH]; intros [|n] [|k] H; try lia; try reflexivity; cbn [firstn nth_error]; [apply IH; lia].
Qed.

Lemma skipn_skipn {A} (l : list A) : forall x y, skipn x (skipn y l) = skipn (x + y) l.
Proof.
  intros x y. revert l. induction y as [|y IH]; intros l; [now rewrite Nat.add_0_r|].
  rewrite Nat.add_succ_r. destruct l; [now rewrite !skipn_nil|]. cbn [skipn]. apply IH.
Qed.
Lemma chunks1 (l : list N) : chunks 1 l = map (fun b => [b]) l.
Proof.
  unfold chunks. induction l as [|x l IH]; [reflexivity|]. cbn [length chunks_fuel firstn skipn map]. now rewrite IH.
Qed.
Lemma led_panics b : led_of_chunk [b] = Panic <-> 3 <= b.
Proof.
  Transparent dec_u8. unfold led_of_chunk, dec_led, dbind, dec_u8. Opaque dec_u8. cbn.
  destruct (N.eqb_spec b 0); [split; [discriminate|lia]|].
  destruct (N.eqb_spec b 1); [split; [discriminate|lia]|].
  destruct (N.eqb_spec b 2); [split; [discriminate|lia]|]. cbn. split; [lia|reflexivity].
Qed.

Lemma ext_loop_panic n : forall l, (length l = 4 * n)%nat -> bytes l = true ->
  (ext_status_loop n l = Panic <-> exists k, (k < n)%nat /\ 512 <= le_value (firstn 4 (skipn (4 * k) l))) /\
  (forall e, ext_status_loop n l <> Err e).
Proof.
  induction n as [|n IH]; intros l Hl Hb; cbn [ext_status_loop].
  - split; [|discriminate]. split; [discriminate|]. intros (k & Hk & _). lia.
  - set (x := firstn 4 l). set (r := skipn 4 l).
    assert (Hx : length x = 4%nat) by (unfold x; rewrite firstn_length; lia).
    assert (Hr : (length r = 4 * n)%nat) by (unfold r; rewrite skipn_length; lia).
    assert (El : l = x ++ r) by (unfold x, r; symmetry; apply firstn_skipn).
    assert (Hbs : bytes x = true /\ bytes r = true) by (rewrite El, bytes_app in Hb; now apply andb_prop in Hb).
    destruct Hbs as [Hbx Hbr]. destruct (le_value_u32 x Hx Hbx) as [Hk Ex].
    assert (D : dec_ext_status l = if le_value x <? 512 then Some (le_value x, r) else None).
    { unfold dec_ext_status, dbind. rewrite El. rewrite <- Ex at 1. destruct codec_u32 as (Hrt & _).
      rewrite Hrt by exact Hk. unfold ext_status_from_bits. now destruct (_ <? _). }
    rewrite D. destruct (IH r Hr Hbr) as [I1 I2]. destruct (N.ltb_spec (le_value x) 512) as [H|H].
    + split.
      * split.
        -- intros P. destruct (ext_status_loop n r) as [ys|e|] eqn:Er; try discriminate P.
           destruct (proj1 I1 eq_refl) as (k & Hk1 & Hk2). exists (S k). split; [lia|].
           replace (4 * S k)%nat with (4 * k + 4)%nat by lia. rewrite <- skipn_skipn. exact Hk2.
        -- intros (k & Hk1 & Hk2). destruct k as [|k]; [change (512 <= le_value x) in Hk2; lia|].
           assert (P : ext_status_loop n r = Panic).
           { apply I1. exists k. split; [lia|]. replace (4 * S k)%nat with (4 * k + 4)%nat in Hk2 by lia.
             rewrite <- skipn_skipn in Hk2. exact Hk2. }
           now rewrite P.
      * intros e. destruct (ext_status_loop n r) as [ys|e'|] eqn:Er; cbn; try discriminate.
        intros [= <-]. now destruct (I2 e').
    + split; [|discriminate]. split; [|reflexivity]. intros _. exists 0%nat. split; [lia|]. exact H.
Qed.

(** Full pieces of [k] elements: as many as fit, in order. *)
Lemma pieces_fuel {A} k fuel : (0 < k)%nat -> forall l : list A, (length l <= fuel)%nat ->
  let c := filter (fun c => Nat.eqb (length c) k) (chunks_fuel fuel k l) in
  length c = (length l / k)%nat /\
  forall j, (j < length l / k)%nat -> nth_error c j = Some (firstn k (skipn (k * j) l)).
Proof.
  intros Hk. induction fuel as [|fuel IH]; intros l Hl.
  - destruct l; [|cbn in Hl; lia]. cbn [chunks_fuel filter length]. rewrite Nat.div_small by lia. split; [reflexivity|lia].
  - destruct l as [|x l].
    { cbn [chunks_fuel filter length]. rewrite Nat.div_small by lia. split; [reflexivity|lia]. }
    cbn [chunks_fuel]. set (L := x :: l) in *.
    destruct (IH (skipn k L)) as [E1 E2]. { rewrite skipn_length. subst L. cbn [length] in *. lia. }
    rewrite skipn_length in E1, E2. cbv zeta. cbn [filter].
    destruct (Nat.eqb_spec (length (firstn k L)) k) as [Ef|Ef]; rewrite firstn_length in Ef.
    + assert (D : (length L / k = S ((length L - k) / k))%nat).
      { replace (length L) with (length L - k + 1 * k)%nat at 1 by lia. rewrite Nat.div_add by lia. lia. }
      rewrite D. split; [cbn [length]; now rewrite E1|]. intros [|j] Hj.
      * cbn [nth_error]. now rewrite Nat.mul_0_r.
      * cbn [nth_error]. rewrite E2 by lia. rewrite skipn_skipn. do 3 f_equal. lia.
    + assert (Hs : (length L < k)%nat) by lia. rewrite (Nat.div_small (length L)) by exact Hs.
      replace (length L - k)%nat with 0%nat in E1 by lia. rewrite Nat.div_small in E1 by lia. split; [exact E1|lia].
Qed.
Lemma pieces_exact {A} k (l : list A) : (0 < k)%nat ->
  length (chunks_exact k l) = (length l / k)%nat /\
  forall j, (j < length l / k)%nat -> nth_error (chunks_exact k l) j = Some (firstn k (skipn (k * j) l)).
Proof. intros Hk. now apply pieces_fuel. Qed.

Section Crash.
  Context {St : Type} (sp : St -> Rpc -> St * reply).
  Implicit Type w : world St.

  Local Ltac other := split; [intros H; discriminate H|intros X; unfold strange_led, strange_status, strange_read, carries in X;
    decompose [ex and] X; congruence].
  Local Ltac start A Eb :=
    erewrite cbind_ok by (apply rpc_answer; exact A); rewrite Eb.

  Lemma leds_iff w m resp : passed_on resp -> SpecController.answer sp w (HLedState m) None = Ok resp ->
    (snd (leds sp m w) = Panic <-> strange_led resp).
  Proof.
    intros P A. destruct (passed_shape resp P) as (r & Eb & W & D).
    unfold leds, unexpected. start A Eb.
    destruct r as [g b rd|g b wr|g b|g b|x|g b|g b]; cbn [cret snd]; try solve [other].
    destruct D as (data & Ed & Hb & Hl). rewrite Ed. cbn [opt_unwrap obind sp_expected_data_len].
    unfold announced in Hl. cbn [unit_size resp_modules resp_failed] in Hl.
    assert (M : mask_ok g = true /\ mask_ok b = true).
    { cbn in W. unfold u64 in W. rewrite !mask_ok_lt. lia. }
    destruct M as [Mg Mb]. rewrite count_to_indices by exact Mg.
    rewrite split_fine by lia. cbn [obind fst snd].
    destruct (hw_fine b (skipn (length (to_indices g) * 1) data)) as (fl & Ef & _); [rewrite skipn_length; lia|exact Mb|].
    rewrite Ef. clear Ef. rewrite chunks1. set (n := length (to_indices g)) in *.
    replace (n * 1)%nat with n in * by lia.
    destruct (omapM_panic led_of_chunk (map (fun b => [b]) (firstn n data))) as [O1 O2].
    { intros x Hx e. apply in_map_iff in Hx. destruct Hx as (y & <- & _). unfold led_of_chunk. now destruct (dec_led [y]) as [[]|]. }
    assert (S : (exists x, In x (map (fun b => [b]) (firstn n data)) /\ led_of_chunk x = Panic) <-> strange_led resp).
    { split.
      - intros (x & Hx & Px). apply in_map_iff in Hx. destruct Hx as (y & <- & Hy). apply led_panics in Px.
        apply In_nth_error in Hy. destruct Hy as (k & Ek).
        assert (Hk : (k < n)%nat).
        { assert (K : nth_error (firstn n data) k <> None) by congruence. apply nth_error_Some in K. rewrite firstn_length in K. lia. }
        exists g, b, data, k, y. split; [now split|]. unfold ports. split; [fold n; lia|]. split; [|exact Px].
        now rewrite <- Ek, nth_firstn.
      - intros (g' & b' & data' & k & y & [C1 C2] & Hk & Ek & Py). rewrite Eb in C1. injection C1 as <- <-.
        rewrite Ed in C2. injection C2 as <-. exists [y]. split; [|now apply led_panics].
        apply in_map with (f := fun b => [b]). apply nth_error_In with (n := k). rewrite nth_firstn; [exact Ek|].
        unfold ports in Hk. fold n in Hk. lia. }
    rewrite <- S, <- O1.
    destruct (omapM _ _) as [ys|e|]; cbn [obind]; split; try discriminate; auto.
  Qed.

  Lemma ext_iff w m resp : passed_on resp -> SpecController.answer sp w (HExtendedStatus m) None = Ok resp ->
    (snd (extended_status sp m w) = Panic <-> strange_status resp).
  Proof.
    intros P A. destruct (passed_shape resp P) as (r & Eb & W & D).
    unfold extended_status, unexpected. start A Eb.
    destruct r as [g b rd|g b wr|g b|g b|x|g b|g b]; cbn [cret snd]; try solve [other].
    destruct D as (data & Ed & Hb & Hl). rewrite Ed. cbn [opt_unwrap obind sp_expected_data_len].
    unfold announced in Hl. cbn [unit_size resp_modules resp_failed] in Hl.
    assert (M : mask_ok g = true /\ mask_ok b = true).
    { cbn in W. unfold u64 in W. rewrite !mask_ok_lt. lia. }
    destruct M as [Mg Mb]. rewrite count_to_indices by exact Mg.
    rewrite split_fine by lia. cbn [obind fst snd].
    destruct (hw_fine b (skipn (length (to_indices g) * 4) data)) as (fl & Ef & _); [rewrite skipn_length; lia|exact Mb|].
    rewrite Ef. clear Ef. set (n := length (to_indices g)) in *.
    destruct (ext_loop_panic n (firstn (n * 4) data)) as [O1 O2];
      [rewrite firstn_length; lia|now apply bytes_firstn|].
    assert (Cut : forall k, (k < n)%nat -> firstn 4 (skipn (4 * k) (firstn (n * 4) data)) = firstn 4 (skipn (4 * k) data)).
    { intros k Hk. rewrite skipn_firstn_comm, firstn_firstn. f_equal. lia. }
    assert (S : (exists k, (k < n)%nat /\ 512 <= le_value (firstn 4 (skipn (4 * k) (firstn (n * 4) data)))) <-> strange_status resp).
    { split.
      - intros (k & Hk & Pk). rewrite Cut in Pk by exact Hk. exists g, b, data, k. split; [now split|]. unfold ports. fold n.
        split; [lia|exact Pk].
      - intros (g' & b' & data' & k & [C1 C2] & Hk & Pk). rewrite Eb in C1. injection C1 as <- <-.
        rewrite Ed in C2. injection C2 as <-. unfold ports in Hk. fold n in Hk. exists k. rewrite Cut by lia. split; [lia|exact Pk]. }
    rewrite <- S, <- O1.
    destruct (ext_status_loop _ _) as [ys|e|]; cbn [obind]; split; try discriminate; auto.
  Qed.

  (** Reads: a crash, or the pieces. *)
  Lemma read_iff w m rd resp : fits_in_one_message m rd = true -> rd_len rd <> 0 ->
    passed_on resp -> SpecController.answer sp w (HRead m rd) None = Ok resp ->
    (snd (read_impl_one_message sp m rd w) = Panic <-> strange_read (rd_len rd) resp) /\
    (forall res, snd (read_impl_one_message sp m rd w) = Ok res -> cut_read (rd_len rd) resp res).
  Proof.
    intros Hf Hz P A. destruct (passed_shape resp P) as (r & Eb & W & D).
    unfold read_impl_one_message, unexpected. rewrite Hf. cbn [negb]. start A Eb.
    destruct r as [g b rd'|g b wr|g b|g b|x|g b|g b]; cbn [cret snd]; try solve [split; [other|discriminate]].
    destruct D as (data & Ed & Hb & Hl). rewrite Ed. cbn [opt_unwrap obind sp_expected_data_len].
    unfold announced in Hl. cbn [unit_size resp_modules resp_failed] in Hl.
    assert (M : mask_ok g = true /\ mask_ok b = true).
    { cbn [wf_sp_response] in W. unfold u64 in W. rewrite !andb_true_iff, !N.ltb_lt in W. rewrite !mask_ok_lt. tauto. }
    destruct M as [Mg Mb]. rewrite count_to_indices by exact Mg.
    rewrite split_fine by lia. cbn [obind fst snd].
    apply N.eqb_neq in Hz as Hz'. rewrite Hz'. clear Hz'. cbv zeta.
    destruct (hw_fine b (skipn (length (to_indices g) * N.to_nat (rd_len rd')) data)) as (fl & Ef & Efm);
      [rewrite skipn_length; lia|exact Mb|].
    rewrite Ef. clear Ef. set (n := length (to_indices g)) in *.
    set (L := firstn (n * N.to_nat (rd_len rd')) data).
    assert (HL : length L = (n * N.to_nat (rd_len rd'))%nat) by (unfold L; rewrite firstn_length; lia).
    destruct (pieces_exact (N.to_nat (rd_len rd)) L) as [P1 P2]; [lia|]. rewrite P1.
    rewrite HL in *. clear HL.
    assert (Q : ((n * N.to_nat (rd_len rd') / N.to_nat (rd_len rd))%nat = n) <->
                ports g * rd_len rd <= ports g * rd_len rd' < (ports g + 1) * rd_len rd).
    { unfold ports. fold n.
      assert (El : rd_len rd = N.of_nat (N.to_nat (rd_len rd))) by lia.
      assert (El' : rd_len rd' = N.of_nat (N.to_nat (rd_len rd'))) by lia.
      remember (N.to_nat (rd_len rd)) as l eqn:Ll. remember (N.to_nat (rd_len rd')) as l' eqn:Ll'.
      assert (Hl0 : l <> 0%nat) by lia. rewrite El, El'. clear - Hl0.
      assert (X : (N.of_nat n * N.of_nat l <= N.of_nat n * N.of_nat l' < (N.of_nat n + 1) * N.of_nat l) <->
                  (n * l <= n * l' < (n + 1) * l)%nat) by lia.
      rewrite X. clear X. pose proof (Nat.div_mod (n * l') l Hl0) as Dm.
      pose proof (Nat.mod_upper_bound (n * l') l Hl0) as Du. split; intros H.
      - rewrite H in Dm. nia.
      - symmetry. apply (Nat.div_unique (n * l') l n (n * l' - n * l)%nat); nia. }
    destruct (Nat.eqb_spec (n * N.to_nat (rd_len rd') / N.to_nat (rd_len rd)) n) as [E|E]; cbn [negb].
    - split.
      + split; [discriminate|]. intros (g' & b' & rd2 & data' & [C1 C2] & Hs). rewrite Eb in C1. injection C1 as <- <- <-.
        apply Q in E. exfalso. lia.
      + cbn [obind]. intros res [= <-]. exists g, b, rd', data. split; [now split|]. cbn [mr_modules mr_failures mr_data].
        split; [reflexivity|]. split; [exact Efm|]. rewrite P1, E. split; [reflexivity|].
        split. { apply Forall_forall. intros v Hv. apply filter_In in Hv. destruct Hv as [_ Hv]. apply Nat.eqb_eq in Hv. lia. }
        intros k Hk. unfold ports in Hk. fold n in Hk. rewrite P2 by lia. f_equal. unfold L.
        rewrite skipn_firstn_comm, firstn_firstn. f_equal. apply Nat.min_l.
        apply Q in E. unfold ports in E. fold n in E. nia.
    - split; [|discriminate]. split; [|reflexivity]. intros _. exists g, b, rd', data. split; [now split|].
      destruct (N.lt_ge_cases (ports g * rd_len rd') (ports g * rd_len rd)); [now left|right].
      destruct (N.le_gt_cases ((ports g + 1) * rd_len rd) (ports g * rd_len rd')); [assumption|].
      exfalso. apply E, Q. split; assumption.
  Qed.

  (** Calls that no answer crashes. *)
  Lemma status_never w m resp : passed_on resp -> SpecController.answer sp w (HStatus m) None = Ok resp ->
    snd (ctl_status sp m w) <> Panic.
  Proof.
    intros P A. destruct (passed_shape resp P) as (r & Eb & W & D).
    unfold ctl_status, unexpected. start A Eb.
    destruct r as [g b rd|g b wr|g b|g b|x|g b|g b]; cbn [cret snd]; try discriminate.
    destruct D as (data & Ed & Hb & Hl). rewrite Ed. cbn [opt_unwrap obind sp_expected_data_len].
    unfold announced in Hl. cbn [unit_size resp_modules resp_failed] in Hl.
    assert (M : mask_ok g = true /\ mask_ok b = true).
    { cbn in W. unfold u64 in W. rewrite !mask_ok_lt. lia. }
    destruct M as [Mg Mb]. rewrite count_to_indices by exact Mg.
    rewrite split_fine by lia. cbn [obind fst snd].
    destruct (hw_fine b (skipn (length (to_indices g) * 1) data)) as (fl & Ef & _); [rewrite skipn_length; lia|exact Mb|].
    rewrite Ef. clear Ef. rewrite (omapM_ok _ (fun x => x)); [discriminate|].
    intros x Hx. pose proof (bytes_firstn (length (to_indices g) * 1) data Hb) as Hf. unfold bytes in Hf.
    rewrite forallb_forall in Hf. specialize (Hf x Hx). unfold u8 in Hf. change (2 ^ 8) with 256 in Hf.
    unfold status_from_bits. now rewrite Hf.
  Qed.
  Lemma ack_never w q resp : passed_on resp -> SpecController.answer sp w q None = Ok resp ->
    snd (no_payload_request sp q w) <> Panic.
  Proof.
    intros P A. destruct (passed_shape resp P) as (r & Eb & W & D).
    unfold no_payload_request, unexpected. start A Eb.
    destruct r as [g b rd|g b wr|g b|g b|x|g b|g b]; cbn [cret snd]; try discriminate.
    destruct D as (data & Ed & Hb & Hl). rewrite Ed. cbn [opt_unwrap obind].
    unfold announced in Hl. cbn [unit_size resp_modules resp_failed] in Hl.
    assert (M : mask_ok b = true). { cbn in W. unfold u64 in W. rewrite !mask_ok_lt. lia. }
    destruct (hw_fine b data) as (fl & Ef & _); [lia|exact M|]. rewrite Ef. discriminate.
  Qed.
  Lemma write_never w m wr d resp : passed_on resp ->
    SpecController.answer sp w (HWrite m wr) (Some d) = Ok resp -> snd (write_impl sp m wr d w) <> Panic.
  Proof.
    intros P A. destruct (passed_shape resp P) as (r & Eb & W & D).
    unfold write_impl, unexpected. destruct (negb _); [discriminate|]. start A Eb.
    destruct r as [g b rd|g b wr'|g b|g b|x|g b|g b]; cbn [cret snd]; try discriminate.
    destruct D as (data & Ed & Hb & Hl). rewrite Ed. cbn [opt_unwrap obind].
    unfold announced in Hl. cbn [unit_size resp_modules resp_failed] in Hl.
    assert (M : mask_ok b = true).
    { cbn [wf_sp_response] in W. unfold u64 in W. rewrite !andb_true_iff, !N.ltb_lt in W. rewrite !mask_ok_lt. tauto. }
    destruct (hw_fine b data) as (fl & Ef & _); [lia|exact M|]. rewrite Ef. discriminate.
  Qed.
  Lemma macs_never w resp : SpecController.answer sp w HMacAddrs None = Ok resp -> snd (mac_addrs sp w) <> Panic.
  Proof.
    intros A. unfold mac_addrs, unexpected. erewrite cbind_ok by (apply rpc_answer; exact A).
    destruct (msg_body (rpc_message resp)) as [| |r| |]; try discriminate.
    destruct r as [| | | |[]| |]; discriminate.
  Qed.

  (** The identifiers are a read of one byte. *)
  Lemma identifier_iff w m resp : m < 2 ^ 64 -> m <> 0 ->
    passed_on resp -> SpecController.answer sp w (HRead m ident_read) None = Ok resp ->
    (snd (identifier sp m w) = Panic <-> exists good bad rd data,
       carries resp (SRead good bad rd) data /\ ports good <> 0 /\ rd_len rd <> 1).
  Proof.
    intros Hm Hz P A. rewrite <- mask_ok_lt in Hm.
    assert (Hn : m_count m <> 0%nat).
    { intros E. apply Hz. apply m_is_empty_spec; [assumption|]. unfold m_is_empty. now rewrite E. }
    assert (Hs : split_large_reads m ident_read = Ok [m]).
    { unfold split_large_reads. cbn [rd_len ident_read]. change (1 =? 0) with false. cbv iota.
      change (N.to_nat 1) with 1%nat. rewrite Nat.div_1_r. unfold chunks.
      rewrite chunks_fuel_one; [|rewrite count_to_indices in Hn by assumption; now destruct (to_indices m)
        |pose proof (to_indices_le64 m); unfold MAX_PAYLOAD_SIZE; lia|reflexivity].
      cbn [omapM]. rewrite from_to_indices by assumption. reflexivity. }
    assert (Hfit : fits_in_one_message m ident_read = true).
    { unfold fits_in_one_message. rewrite count_to_indices by assumption. cbn [rd_len ident_read].
      change (N.to_nat 1) with 1%nat. pose proof (to_indices_le64 m). unfold MAX_PAYLOAD_SIZE.
      apply Nat.leb_le. lia. }
    destruct (read_iff w m ident_read resp Hfit) as [R1 R2]; [discriminate|exact P|exact A|].
    assert (S : strange_read (rd_len ident_read) resp <-> exists good bad rd data,
       carries resp (SRead good bad rd) data /\ ports good <> 0 /\ rd_len rd <> 1).
    { cbn [rd_len ident_read]. split; intros (g & b & rd & data & C & H); exists g, b, rd, data; (split; [exact C|]).
      - destruct H as [H|H]; split; intros K; rewrite ?K in H; lia.
      - destruct (N.eq_dec (rd_len rd) 0) as [Z|Z]; [left; rewrite Z; lia|right; nia]. }
    rewrite <- S, <- R1. clear S R1.
    assert (I : read_impl sp m ident_read w = read_impl_one_message sp m ident_read w).
    { unfold read_impl. destruct (Nat.eqb_spec (m_count m) 0) as [|_]; [contradiction|].
      cbn [orb rd_len ident_read]. change (1 =? 0) with false. cbv iota. rewrite Hs. unfold cret at 1.
      erewrite cbind_ok by reflexivity. cbv beta iota. unfold cbind.
      destruct (read_impl_one_message sp m ident_read w) as [w' [x|e|]]; reflexivity. }
    unfold identifier. unfold cret at 1. erewrite cbind_ok by reflexivity.
    change (mkRead (PageSff SffLower) 0 1) with ident_read. unfold cbind. rewrite I.
    destruct (read_impl_one_message sp m ident_read w) as [w' [x|e|]] eqn:E; cbn [snd] in *; [|split; discriminate|split; reflexivity].
    split; [|discriminate]. cbn [cret snd]. intros K. exfalso.
    destruct (R2 x eq_refl) as (g & b & rd & data & _ & _ & _ & _ & Fl & _). cbn [rd_len ident_read] in Fl.
    rewrite Forall_forall in Fl.
    destruct (omapM_panic (F := Error) (fun v => match v with b :: _ => Ok (ident_of_byte b) | [] => Panic end) (mr_data x)) as [O1 _].
    { intros [|y v] _ e; discriminate. }
    destruct (omapM _ (mr_data x)) as [ys|e|]; try discriminate K.
    destruct (proj1 O1 eq_refl) as (v & Hv & Pv). specialize (Fl v Hv). destruct v; [cbn in Fl; lia|discriminate].
  Qed.
End Crash.

Lemma crashes : forall St (sp : St -> Rpc -> St * reply) w m resp, passed_on resp ->
  (SpecController.answer sp w (HLedState m) None = Ok resp -> (snd (leds sp m w) = Panic <-> strange_led resp)) /\
  (SpecController.answer sp w (HExtendedStatus m) None = Ok resp ->
     (snd (extended_status sp m w) = Panic <-> strange_status resp)) /\
  (forall rd, fits_in_one_message m rd = true -> rd_len rd <> 0 -> SpecController.answer sp w (HRead m rd) None = Ok resp ->
     (snd (read_impl_one_message sp m rd w) = Panic <-> strange_read (rd_len rd) resp) /\
     (forall res, snd (read_impl_one_message sp m rd w) = Ok res -> cut_read (rd_len rd) resp res)) /\
  (m < 2 ^ 64 -> m <> 0 -> SpecController.answer sp w (HRead m ident_read) None = Ok resp ->
     (snd (identifier sp m w) = Panic <-> exists good bad rd data,
        carries resp (SRead good bad rd) data /\ ports good <> 0 /\ rd_len rd <> 1)) /\
  (SpecController.answer sp w (HStatus m) None = Ok resp -> snd (ctl_status sp m w) <> Panic) /\
  (SpecController.answer sp w HMacAddrs None = Ok resp -> snd (mac_addrs sp w) <> Panic) /\
  (forall q, SpecController.answer sp w q None = Ok resp -> snd (no_payload_request sp q w) <> Panic) /\
  (forall wr data, SpecController.answer sp w (HWrite m wr) (Some data) = Ok resp -> snd (write_impl sp m wr data w) <> Panic).
Proof.
  intros St sp w m resp P.
  split; [now apply leds_iff|]. split; [now apply ext_iff|]. split; [intros rd Hf Hz A; now apply read_iff|].
  split; [intros Hm Hz A; now apply identifier_iff|]. split; [now apply status_never|].
  split; [apply macs_never|]. split; [intros q; now apply ack_never|]. intros wr data. now apply write_never.
Qed.
