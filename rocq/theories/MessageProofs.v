(** Proofs about memory operations, MAC ranges, hardware errors, sizes and status words. *)
From Verif Require Import Tac Spec SpecMessages ModuleIdProofs ModuleIdProps Codec Wf CodecProofs StatusText.

(** ** Wire format *)
Lemma header_roundtrip h rest : wf_header h = true -> dec_header (enc_header h ++ rest) = Some (h, rest).
Proof. apply codec_header. Qed.
Lemma message_roundtrip m rest :
  wf_message m = true -> dec_message (enc_message m ++ rest) = Some (m, rest).
Proof. apply codec_message. Qed.
Lemma header_canonical bs h rest : bytes bs = true -> dec_header bs = Some (h, rest) ->
  bs = enc_header h ++ rest /\ wf_header h = true /\ bytes rest = true.
Proof. apply codec_header. Qed.
Lemma message_canonical bs m rest : bytes bs = true -> dec_message bs = Some (m, rest) ->
  bs = enc_message m ++ rest /\ wf_message m = true /\ bytes rest = true.
Proof. apply codec_message. Qed.
Lemma message_prefix_free m m' r r' : wf_message m = true -> wf_message m' = true ->
  enc_message m ++ r = enc_message m' ++ r' -> m = m' /\ r = r'.
Proof.
  intros H H' E. pose proof (message_roundtrip m r H) as K. rewrite E in K.
  rewrite message_roundtrip in K by assumption. injection K as -> ->. now split.
Qed.
Lemma header_prefix_free m m' r r' : wf_header m = true -> wf_header m' = true ->
  enc_header m ++ r = enc_header m' ++ r' -> m = m' /\ r = r'.
Proof.
  intros H H' E. pose proof (header_roundtrip m r H) as K. rewrite E in K.
  rewrite header_roundtrip in K by assumption. injection K as -> ->. now split.
Qed.
Lemma packet_fits h m data : (length data <= MAX_PAYLOAD_SIZE)%nat ->
  (length (enc_header h ++ enc_message m) <= MAX_SIZE_header + MAX_SIZE_message)%nat /\
  (length (enc_header h ++ enc_message m ++ data) <= MAX_PACKET_SIZE)%nat.
Proof.
  intros Hd. pose proof (codec_len _ _ _ _ codec_header h).
  pose proof (codec_len _ _ _ _ codec_message m).
  rewrite !app_length. unfold MAX_PACKET_SIZE. lia.
Qed.

(** ** Memory operations *)
Lemma is_lower_spec p : is_lower p = true <-> lower_half p.
Proof.
  unfold lower_half. destruct p as [[|n]|[|u]]; cbn; split; intros H; try tauto; try discriminate;
    destruct H as [H|H]; discriminate.
Qed.

Lemma verify_window p offset len :
  ((offset <? min_offset p) || (max_offset p <? offset) || (upper_limit p <? offset + len)) = false
  <-> in_page p offset /\ offset + len <= (if is_lower p then 128 else 256).
Proof.
  unfold in_page, upper_limit, max_offset, min_offset. rewrite <- is_lower_spec.
  change (255 / 2) with 127. destruct (is_lower p); split; intros H; lia.
Qed.

Lemma window_access p offset len : 1 <= len ->
  (in_page p offset /\ offset + len <= (if is_lower p then 128 else 256)) <->
  (forall k, offset <= k < offset + len -> in_page p k).
Proof.
  intros Hl. unfold in_page. pose proof (is_lower_spec p) as Hs. revert Hs.
  generalize (lower_half p). intros L Hs. destruct (is_lower p).
  - assert (HL : L) by (apply Hs; reflexivity). split.
    + intros [[H1 H2] H3] k Hk. specialize (H1 HL). split; intros; [lia|tauto].
    + intros H. pose proof (H offset ltac:(lia)). pose proof (H (offset + len - 1) ltac:(lia)).
      split; [assumption|]. destruct H1 as [H1 _]. specialize (H1 HL). lia.
  - assert (HL : ~ L) by (intros HL; apply Hs in HL; discriminate). split.
    + intros [[H1 H2] H3] k Hk. specialize (H2 HL). split; intros; [tauto|lia].
    + intros H. pose proof (H offset ltac:(lia)). pose proof (H (offset + len - 1) ltac:(lia)).
      split; [assumption|]. destruct H1 as [_ H1]. specialize (H1 HL). lia.
Qed.

Definition access_result {R} (res : outcome MgmtError R) (v : R) (limit : N) p offset len : Prop :=
  (res = Ok v <-> access_ok limit p offset len) /\
  (res <> Ok v ->
     (res = Err (InvalidMemoryAccess offset len) /\
        ~ (in_page p offset /\ forall k, offset <= k < offset + len -> in_page p k)) \/
     (res = Err (InvalidOperationSize len (iface p)) /\ (len = 0 \/ limit < len))).

Lemma iface_eq p : page_interface p = iface p.
Proof. now destruct p. Qed.

Lemma access_generic {R} (v : R) limit p offset len :
  let res := (_ <-? (if (offset <? min_offset p) || (max_offset p <? offset)
                        || (upper_limit p <? offset + len)
                     then Err (InvalidMemoryAccess offset len)
                     else if (len <? 1) || (limit <? len)
                     then Err (InvalidOperationSize len (page_interface p))
                     else Ok tt) ;; Ok v) in
  access_result res v limit p offset len.
Proof.
  cbv zeta.
  assert (Hin : in_page p offset /\ (forall k, offset <= k < offset + len -> in_page p k) ->
                in_page p offset /\ offset + len <= (if is_lower p then 128 else 256)).
  { intros [H1 H2]. destruct (N.eq_dec len 0) as [->|Hz].
    - split; [assumption|]. unfold in_page in H1. rewrite <- is_lower_spec in H1.
      destruct (is_lower p); destruct H1 as [Ha Hb]; [specialize (Ha eq_refl)|
        specialize (Hb ltac:(discriminate))]; lia.
    - apply window_access; [lia|assumption]. }
  pose proof (verify_window p offset len) as Hw.
  destruct ((offset <? min_offset p) || (max_offset p <? offset) || (upper_limit p <? offset + len)).
  - unfold access_result, access_ok. split.
    + split; [discriminate|]. intros [Hl Hk]. exfalso.
      enough (true = false) by discriminate. apply Hw, window_access; [lia|assumption].
    + intros _. left. split; [reflexivity|]. intros H. apply Hin, Hw in H. discriminate.
  - destruct ((len <? 1) || (limit <? len)) eqn:E; cbn; unfold access_result, access_ok; split.
    + split; [discriminate|]. intros [Hl _]. lia.
    + intros _. right. rewrite iface_eq. split; [reflexivity|]. lia.
    + split; [|reflexivity]. intros _. split; [lia|]. apply window_access; [lia|]. now apply Hw.
    + congruence.
Qed.

Lemma read_new_spec p offset len :
  access_result (read_new p offset len) (mkRead p offset len) (read_limit p) p offset len.
Proof.
  assert (E : read_limit p = max_read_size p) by now destruct p. rewrite E.
  exact (access_generic (mkRead p offset len) (max_read_size p) p offset len).
Qed.
Lemma write_new_spec p offset len :
  access_result (write_new p offset len) (mkWrite p offset len) (write_limit p) p offset len.
Proof.
  assert (E : write_limit p = max_write_size p) by now destruct p. rewrite E.
  exact (access_generic (mkWrite p offset len) (max_write_size p) p offset len).
Qed.

Lemma sff_upper_new_spec p : p < 256 ->
  (sff_defined p -> sff_upper_new p = Ok (SffUpper p)) /\
  (~ sff_defined p -> sff_upper_new p = Err (InvalidPage p)).
Proof.
  intros Hp. unfold sff_defined, sff_upper_new.
  destruct (_ || _) eqn:E; split; intros H; try reflexivity; exfalso; lia.
Qed.

Lemma valid_page_spec p : p < 256 -> (is_valid_page p = true <-> cmis_defined p).
Proof. intros Hp. unfold is_valid_page, cmis_defined. lia. Qed.
Lemma accepts_bank_spec p : page_accepts_bank_number p = true <-> cmis_banked p.
Proof. unfold page_accepts_bank_number, cmis_banked. lia. Qed.

Lemma cmis_new_banked_spec p b : p < 256 ->
  (cmis_defined p -> b <= 3 -> cmis_banked p -> cmis_new_banked p b = Ok (mkCmisUpper (Some b) p)) /\
  (~ cmis_defined p -> cmis_new_banked p b = Err (InvalidPage p)) /\
  (cmis_defined p -> 3 < b -> cmis_new_banked p b = Err (InvalidBank b)) /\
  (cmis_defined p -> b <= 3 -> ~ cmis_banked p -> cmis_new_banked p b = Err (PageIsUnbanked p)).
Proof.
  intros Hp. unfold cmis_new_banked, MAX_BANK.
  rewrite <- (valid_page_spec p Hp), <- accepts_bank_spec.
  destruct (is_valid_page p), (page_accepts_bank_number p), (3 <? b) eqn:E; cbn;
    repeat split; intros; try reflexivity; try congruence; try lia.
Qed.

Lemma cmis_new_unbanked_spec p : p < 256 ->
  (~ cmis_banked p -> cmis_new_unbanked p = Ok (mkCmisUpper None p)) /\
  (cmis_banked p -> cmis_new_unbanked p = Err (PageIsBanked p)).
Proof.
  intros Hp. unfold cmis_new_unbanked. rewrite <- accepts_bank_spec.
  destruct (page_accepts_bank_number p); split; intros H; try reflexivity; congruence.
Qed.

Lemma unbanked_accepts_undefined :
  exists p u, p < 256 /\ ~ cmis_defined p /\ cmis_new_unbanked p = Ok u.
Proof.
  exists 0x05, (mkCmisUpper None 0x05). unfold cmis_defined.
  split; [lia|]. split; [lia|reflexivity].
Qed.

Lemma wire_read_invalid :
  exists bs r rest, bytes bs = true /\ dec_read bs = Some (r, rest) /\
    ~ access_ok (read_limit (rd_page r)) (rd_page r) (rd_offset r) (rd_len r) /\
    ~ page_defined (rd_page r).
Proof.
  exists [0; 1; 0x50; 10; 200], (mkRead (PageSff (SffUpper 0x50)) 10 200), [].
  repeat split; try (vm_compute; reflexivity).
  - cbn. intros [H _]. cbn in H. lia.
  - cbn. unfold sff_defined. lia.
Qed.

(** ** MAC address ranges *)
Lemma be32_bytes a b c d n : a < 256 -> b < 256 -> c < 256 -> d < 256 ->
  n = be32 a b c d ->
  n < 2 ^ 32 /\ be32_byte n 0 = a /\ be32_byte n 1 = b /\ be32_byte n 2 = c /\ be32_byte n 3 = d.
Proof.
  intros Ha Hb Hc Hd ->. unfold be32_byte, be32.
  change (256 ^ (3 - 0)) with 16777216. change (256 ^ (3 - 1)) with 65536.
  change (256 ^ (3 - 2)) with 256. change (256 ^ (3 - 3)) with 1. change (2 ^ 32) with 4294967296.
  repeat split; lia.
Qed.

Lemma mac_ok_spec m : mac_ok m = true <->
  mac0 m < 256 /\ mac1 m < 256 /\ mac2 m < 256 /\ mac3 m < 256 /\ mac4 m < 256 /\ mac5 m < 256.
Proof. Transparent mac_ok. unfold mac_ok, mac_bytes, u8. cbn. change (2 ^ 8) with 256. lia. Qed.

Definition low32 (m : Mac) : N := be32 (mac2 m) (mac3 m) (mac4 m) (mac5 m).
Definition low24 (m : Mac) : N := mac3 m * 65536 + mac4 m * 256 + mac5 m.

Lemma low32_low24 m : low32 m = mac2 m * 16777216 + low24 m.
Proof. unfold low32, low24, be32. lia. Qed.
Lemma mac_num_low24 m : mac_num m = (mac0 m * 65536 + mac1 m * 256 + mac2 m) * 2 ^ 24 + low24 m.
Proof.
  unfold mac_num, low24. change (2 ^ 40) with 1099511627776. change (2 ^ 32) with 4294967296.
  change (2 ^ 24) with 16777216. change (2 ^ 16) with 65536. change (2 ^ 8) with 256. lia.
Qed.
Lemma low24_lt m : mac_ok m = true -> low24 m < 2 ^ 24.
Proof. rewrite mac_ok_spec. unfold low24. change (2 ^ 24) with 16777216. lia. Qed.

Lemma stays_spec m k : mac_ok m = true -> (stays_in_oui m k <-> low24 m + k < 2 ^ 24).
Proof.
  intros H. pose proof (low24_lt m H) as Hl. unfold stays_in_oui. rewrite mac_num_low24.
  generalize dependent (low24 m). intros l Hl.
  generalize (mac0 m * 65536 + mac1 m * 256 + mac2 m). intros h.
  change (2 ^ 24) with 16777216 in *. lia.
Qed.

Lemma top_byte_spec m k : mac_ok m = true ->
  ((low32 m + k <? 2 ^ 32) && (be32_byte (low32 m + k) 0 =? mac2 m) = true <->
   low24 m + k < 2 ^ 24).
Proof.
  intros H. pose proof (low24_lt m H) as Hl. rewrite low32_low24.
  apply mac_ok_spec in H as (_ & _ & H2 & _).
  generalize dependent (low24 m). intros l Hl. unfold be32_byte.
  change (256 ^ (3 - 0)) with 16777216. change (2 ^ 24) with 16777216 in *.
  change (2 ^ 32) with 4294967296. lia.
Qed.

Lemma land1_even n : (N.land n 1 =? 0) = N.even n.
Proof.
  change 1 with (N.ones 1). rewrite N.land_ones. change (2 ^ 1) with 2.
  rewrite <- N.bit0_mod, N.bit0_odd, <- N.negb_even. now destruct (N.even n).
Qed.

Lemma mac_new_spec base count stride : mac_ok base = true ->
  (mac_addrs_new base count stride = Ok (mkMacAddrs base count stride) <->
     count <> 0 /\ stride <> 0 /\ unicast base /\ stays_in_oui base (count * stride)) /\
  (forall r, mac_addrs_new base count stride = Ok r -> r = mkMacAddrs base count stride) /\
  (count = 0 \/ stride = 0 ->
     mac_addrs_new base count stride = Err (mkBadRange ZeroStrideOrCount base count stride)) /\
  (count <> 0 -> stride <> 0 -> ~ unicast base ->
     mac_addrs_new base count stride = Err (mkBadRange MulticastBaseAddr base count stride)) /\
  (count <> 0 -> stride <> 0 -> unicast base -> ~ stays_in_oui base (count * stride) ->
     mac_addrs_new base count stride = Err (mkBadRange SpansMultipleOuis base count stride)).
Proof.
  intros H. rewrite (stays_spec base _ H), <- (top_byte_spec base _ H).
  unfold mac_addrs_new, unicast. cbv zeta. fold (low32 base). rewrite land1_even.
  destruct ((count =? 0) || (stride =? 0)) eqn:E1; cbn [negb].
  - repeat split; try discriminate; try (intros; lia); intros; try lia; try reflexivity.
  - destruct (N.even (mac0 base)) eqn:E2; cbn [negb].
    + destruct ((low32 base + count * stride <? 2 ^ 32) &&
                (be32_byte (low32 base + count * stride) 0 =? mac2 base)) eqn:E3;
      repeat split; try discriminate; try (intros; lia); intros; try lia; try reflexivity; try congruence.
    + repeat split; try discriminate; try (intros; lia); intros; try lia; try reflexivity; try congruence.
Qed.

Lemma mac_nth_spec base count stride n : mac_ok base = true ->
  low24 base + count * stride < 2 ^ 24 -> n < count ->
  exists a, mac_nth (mkMacAddrs base count stride) n = Ok (Some a) /\
    mac_num a = mac_num base + n * stride /\ oui_of a = oui_of base.
Proof.
  intros H Hs Hn. pose proof (low24_lt base H) as Hl. unfold mac_nth. cbn [ma_count ma_base ma_stride].
  destruct (N.leb_spec count n); [lia|]. fold (low32 base).
  assert (Hk : low24 base + n * stride < 2 ^ 24) by nia.
  pose proof (low32_low24 base) as E.
  pose proof (proj1 (mac_ok_spec _) H) as (_ & _ & H2 & _).
  destruct (N.leb_spec (2 ^ 32) (low32 base + n * stride)) as [Hc|Hc].
  { change (2 ^ 32) with 4294967296 in Hc. change (2 ^ 24) with 16777216 in *. lia. }
  eexists. split; [reflexivity|]. split; [|reflexivity].
  rewrite !mac_num_low24. cbn [mac0 mac1 mac2].
  assert (low24 (mkMac (mac0 base) (mac1 base) (mac2 base) (be32_byte (low32 base + n * stride) 1)
             (be32_byte (low32 base + n * stride) 2) (be32_byte (low32 base + n * stride) 3))
          = low24 base + n * stride) as ->; [|lia].
  unfold low24 at 1. cbn [mac3 mac4 mac5]. rewrite E. unfold be32_byte.
  change (256 ^ (3 - 1)) with 65536. change (256 ^ (3 - 2)) with 256. change (256 ^ (3 - 3)) with 1.
  change (2 ^ 24) with 16777216 in *.
  replace (mac2 base * 16777216 + low24 base + n * stride)
    with (mac2 base * 16777216 + (low24 base + n * stride)) by lia.
  revert Hk. generalize (low24 base + n * stride). intros k Hk. clear - Hk.
  lia.
Qed.

Lemma mac_nth_none m n : ma_count m <= n -> mac_nth m n = Ok None.
Proof. intros H. unfold mac_nth. destruct (N.leb_spec (ma_count m) n); [reflexivity|lia]. Qed.

Lemma mac_iter_from_spec base count stride : mac_ok base = true ->
  low24 base + count * stride < 2 ^ 24 ->
  forall fuel cur, (N.to_nat (count - cur) < fuel)%nat ->
  exists l, mac_iter_from fuel (mkMacAddrs base count stride) cur = Ok l /\
    length l = N.to_nat (count - cur) /\
    forall k a, nth_error l k = Some a ->
      mac_nth (mkMacAddrs base count stride) (cur + N.of_nat k) = Ok (Some a) /\
      mac_num a = mac_num base + (cur + N.of_nat k) * stride /\ oui_of a = oui_of base.
Proof.
  intros H Hs. induction fuel as [|fuel IH]; intros cur Hf; [lia|]. cbn [mac_iter_from].
  destruct (N.ltb_spec cur count) as [Hc|Hc].
  - destruct (mac_nth_spec base count stride cur H Hs Hc) as (a & E & En & Eo). rewrite E. cbn [obind].
    destruct (IH (cur + 1) ltac:(lia)) as (l & El & Hlen & Hl). rewrite El. cbn [obind].
    exists (a :: l). split; [reflexivity|]. split; [cbn [length]; lia|].
    intros [|k] b Hk; cbn [nth_error] in Hk.
    + injection Hk as <-. replace (cur + N.of_nat 0) with cur by lia. tauto.
    + replace (cur + N.of_nat (S k)) with (cur + 1 + N.of_nat k) by lia. now apply Hl.
  - rewrite mac_nth_none by (cbn; lia). cbn [obind]. exists []. split; [reflexivity|].
    split; [cbn; lia|]. intros [|k] b Hk; discriminate.
Qed.

Lemma sorted_of_nth {A} (f : A -> N) (l : list A) :
  (forall i j a b, (i < j)%nat -> nth_error l i = Some a -> nth_error l j = Some b -> f a < f b) ->
  StronglySorted N.lt (map f l).
Proof.
  induction l as [|x l IH]; intros H; [constructor|]. cbn. constructor.
  - apply IH. intros i j a b Hij Ha Hb. apply (H (S i) (S j) a b); [lia|assumption|assumption].
  - apply Forall_forall. intros y Hy. apply in_map_iff in Hy as (b & <- & Hb).
    apply In_nth_error in Hb as (j & Hj). apply (H 0%nat (S j) x b); [lia|reflexivity|assumption].
Qed.

Lemma mac_range_correct base count stride r : mac_ok base = true ->
  mac_addrs_new base count stride = Ok r ->
  exists l, mac_iter r = Ok l /\ length l = N.to_nat count /\
    (forall n, n < count -> exists a,
        nth_error l (N.to_nat n) = Some a /\ mac_nth r n = Ok (Some a) /\
        mac_num a = mac_num base + n * stride /\ oui_of a = oui_of base /\ unicast a) /\
    StronglySorted N.lt (map mac_num l) /\ NoDup l /\
    (forall n, count <= n -> mac_nth r n = Ok None).
Proof.
  intros H Hr. destruct (mac_new_spec base count stride H) as (H1 & H2 & _).
  assert (r = mkMacAddrs base count stride) by now apply H2. subst r.
  apply H1 in Hr as (Hc & Hst & Hu & Hs). apply (stays_spec _ _ H) in Hs.
  destruct (mac_iter_from_spec base count stride H Hs (N.to_nat (count + 1)) 0 ltac:(lia))
    as (l & El & Hlen & Hl).
  exists l. unfold mac_iter. cbn [ma_count]. split; [exact El|]. split; [rewrite Hlen; lia|].
  assert (Hsort : StronglySorted N.lt (map mac_num l)).
  { apply sorted_of_nth. intros i j a b Hij Ha Hb.
    destruct (Hl _ _ Ha) as (_ & Ea & _). destruct (Hl _ _ Hb) as (_ & Eb & _). nia. }
  split; [|split; [exact Hsort|split]].
  - intros n Hn. destruct (nth_error l (N.to_nat n)) as [a|] eqn:E.
    + exists a. destruct (Hl _ _ E) as (E1 & E2 & E3).
      replace (0 + N.of_nat (N.to_nat n)) with n in * by lia.
      repeat split; try assumption. unfold unicast, oui_of in *. now injection E3 as -> _ _.
    + apply nth_error_None in E. lia.
  - apply sorted_lt_nodup in Hsort. now apply NoDup_map_inv in Hsort.
  - intros n Hn. apply mac_nth_none. cbn. lia.
Qed.

(** A range whose every address lies in one OUI but which is rejected. *)
Lemma mac_boundary_rejected :
  exists base count stride, mac_ok base = true /\ count < 2 ^ 16 /\ stride < 2 ^ 8 /\
    count <> 0 /\ stride <> 0 /\ unicast base /\
    (forall n, n < count -> stays_in_oui base (n * stride)) /\
    mac_addrs_new base count stride = Err (mkBadRange SpansMultipleOuis base count stride).
Proof.
  exists (mkMac 0xa8 0x40 0x25 0xff 0xff 0xf0), 16, 1.
  split; [reflexivity|]. split; [reflexivity|]. split; [reflexivity|]. split; [lia|].
  split; [lia|]. split; [reflexivity|]. split; [|vm_compute; reflexivity].
  intros n Hn. apply stays_spec; [reflexivity|].
  change (low24 _) with 16777200. change (2 ^ 24) with 16777216. lia.
Qed.

(** Restricted form of the rejection property: exact except for ranges ending at the very end of
    the OUI. *)
Lemma mac_reject_spec base count stride : mac_ok base = true -> count <> 0 -> stride <> 0 ->
  unicast base ->
  ((exists n, n < count /\ ~ stays_in_oui base (n * stride)) ->
     mac_addrs_new base count stride = Err (mkBadRange SpansMultipleOuis base count stride)) /\
  (mac_addrs_new base count stride = Err (mkBadRange SpansMultipleOuis base count stride) ->
     (exists n, n <= count /\ ~ stays_in_oui base (n * stride))).
Proof.
  intros H Hc Hs Hu. destruct (mac_new_spec base count stride H) as (H1 & H2 & H3 & H4 & H5).
  split.
  - intros (n & Hn & Hst). apply H5; try assumption. intros K. apply Hst.
    apply (stays_spec _ _ H). apply (stays_spec _ _ H) in K. nia.
  - intros E. exists count. split; [lia|]. intros K. rewrite (proj2 H1) in E; [discriminate|tauto].
Qed.

(** ** Hardware errors *)
Lemma decode_hw_error_spec b : b < 256 -> error_of_byte b (decode_hw_error b).
Proof.
  intros Hb. unfold error_of_byte.
  assert (Hall : forallb (fun b =>
     match decode_hw_error b with
     | (e, None) => (b <? 14) && (hw_code e =? b)
     | (HwUnknown, Some KnownUnknown) => b =? 14
     | (HwUnknown, Some (UnknownUnknown x)) => (14 <? b) && (x =? b)
     | _ => false
     end) (nrange 0 256) = true) by (vm_compute; reflexivity).
  pose proof (forallb_sweep _ 256 Hall b Hb) as K. cbv beta in K.
  destruct (decode_hw_error b) as [e [[|x]|]].
  - destruct e; try discriminate. repeat split; intros; lia.
  - destruct e; try discriminate. assert (x = b) by lia. subst x. repeat split; intros; try lia; reflexivity.
  - assert (K' : (b <? 14) && (hw_code e =? b) = true) by (destruct e; exact K).
    repeat split; intros; cbn; lia.
Qed.

Lemma decode_hw_error_code e :
  decode_hw_error (hw_code e) =
  (e, match e with HwUnknown => Some KnownUnknown | _ => None end).
Proof. now destruct e. Qed.

Lemma hw_errors_spec failed buf : failed < 2 ^ 64 -> bytes buf = true ->
  ((length buf < length (to_indices failed))%nat ->
     deserialize_hw_errors failed buf =
       Err (PeWrongDataSize (N.of_nat (length (to_indices failed))) (N.of_nat (length buf)))) /\
  ((length (to_indices failed) <= length buf)%nat ->
     exists l, deserialize_hw_errors failed buf = Ok l /\
       forall k, (k < length (to_indices failed))%nat -> exists b r,
         nth_error buf k = Some b /\ nth_error l k = Some r /\ error_of_byte b r) /\
  (length buf = length (to_indices failed) ->
     exists l, deserialize_hw_errors failed buf = Ok l /\ length l = length (to_indices failed)).
Proof.
  intros Hf Hb. unfold deserialize_hw_errors.
  rewrite <- count_to_indices by now apply mask_ok_lt.
  unfold deserialized_errors_new, Nlen.
  destruct (m_count failed) as [|n] eqn:En.
  - repeat split; [lia| |].
    + intros _. exists []. split; [reflexivity|]. lia.
    + intros _. now exists [].
  - repeat split.
    + intros H. destruct (Nat.ltb_spec (length buf) (S n)); [reflexivity|lia].
    + intros H. destruct (Nat.ltb_spec (length buf) (S n)); [lia|]. eexists. split; [reflexivity|].
      intros k Hk. destruct (nth_error buf k) as [b|] eqn:E.
      * exists b, (decode_hw_error b). split; [reflexivity|].
        split; [now apply map_nth_error|]. apply decode_hw_error_spec.
        apply nth_error_In in E. unfold bytes in Hb. rewrite forallb_forall in Hb.
        apply Hb in E. unfold u8 in E. change (2 ^ 8) with 256 in E. lia.
      * apply nth_error_None in E. lia.
    + intros H. destruct (Nat.ltb_spec (length buf) (S n)); [lia|]. eexists. split; [reflexivity|].
      now rewrite map_length.
Qed.

Lemma hw_errors_extra_bytes :
  exists failed buf l, failed < 2 ^ 64 /\ bytes buf = true /\
    deserialize_hw_errors failed buf = Ok l /\ (length (to_indices failed) < length l)%nat.
Proof.
  exists 4, [6; 7; 8]. eexists. repeat split; try (vm_compute; reflexivity).
  vm_compute. repeat constructor.
Qed.

(** ** Sizes *)
Lemma concat_length_const {A} k (l : list (list A)) :
  Forall (fun x => length x = k) l -> length (concat l) = (length l * k)%nat.
Proof. induction 1 as [|x l Hx _ IH]; cbn; [reflexivity|]. rewrite app_length, IH, Hx. lia. Qed.

Lemma enumerates_to_indices l m : m < 2 ^ 64 -> enumerates l (fun i => member i m) ->
  l = to_indices m.
Proof.
  intros Hm [Hs Hl]. pose proof (to_indices_correct m Hm) as ([Hs' Hl'] & _).
  apply sorted_lt_ext; [assumption|assumption|]. intros x. now rewrite Hl, Hl'.
Qed.

Definition opt_len (o : option nat) : nat := match o with Some n => n | None => 0%nat end.

Lemma response_sizes r ports failed items errs :
  wf_sp_response r = true -> documented r ports failed items errs ->
  opt_len (sp_expected_data_len r) = length (concat items) /\
  opt_len (sp_expected_error_data_len r) = length errs.
Proof.
  intros Hwf (Hp & Hf & Hi & Hu & He).
  assert (Hm : resp_modules r < 2 ^ 64 /\ resp_failed r < 2 ^ 64).
  { destruct r; cbn in Hwf |- *; unfold u64 in Hwf; try (split_ands; lia); split; reflexivity. }
  destruct Hm as [Hm Hm'].
  apply (enumerates_to_indices _ _ Hm) in Hp. apply (enumerates_to_indices _ _ Hm') in Hf.
  rewrite (concat_length_const _ _ Hu), Hi, He, Hp, Hf,
    <- (count_to_indices (resp_modules r)), <- (count_to_indices (resp_failed r))
    by now apply mask_ok_lt.
  destruct r; cbn; rewrite ?Nat.mul_0_r; split; try reflexivity; rewrite ?Nat.mul_1_r; try reflexivity.
Qed.

(** The host sends the write data once (messages/src/lib.rs:76-80, controller.rs:1024-1056), so
    the number of bytes after a write request is the length of the write. *)
Definition host_bytes_sent (w : MemoryWrite) : nat := N.to_nat (wr_len w).

Lemma write_size_refuted : exists m w, wf_host_request (HWrite m w) = true /\
  host_expected_data_len (HWrite m w) <> Some (host_bytes_sent w).
Proof.
  exists 3, (mkWrite (PageSff SffLower) 93 1). split; [reflexivity|]. vm_compute. discriminate.
Qed.
Lemma write_size_single m w i : m_single i = Ok m -> i < 64 ->
  host_expected_data_len (HWrite m w) = Some (host_bytes_sent w).
Proof.
  intros Hm Hi. cbn. unfold host_bytes_sent.
  pose proof constants_correct as (_ & _ & _ & K & _). destruct (K i Hi) as (m' & E & Hj).
  rewrite E in Hm. injection Hm as ->.
  assert (Hm : m < 2 ^ 64).
  { clear - E Hi. unfold m_single in E. destruct (MAX_INDEX <=? i); [discriminate|].
    assert (m = N.shiftl 1 i) by (cbn in E; congruence). subst m.
    rewrite N.shiftl_1_l. apply N.pow_lt_mono_r; lia. }
  assert (to_indices m = [i]) as Hti.
  { symmetry. apply enumerates_to_indices; [exact Hm|]. split.
    - repeat constructor.
    - intros x. rewrite Hj. cbn. intuition. }
  rewrite count_to_indices, Hti by now apply mask_ok_lt. cbn. f_equal. lia.
Qed.

(** ** Status words *)
Lemma ext_of_status_spec s : s < 256 ->
  exists x, ext_of_status s = Ok x /\ forall i, member i x <-> member i s.
Proof.
  intros H. unfold ext_of_status, ext_status_from_bits.
  destruct (N.ltb_spec s 512); [|lia]. exists s. split; [reflexivity|]. tauto.
Qed.

Lemma constructors_valid :
  (forall p offset len r, read_new p offset len = Ok r ->
     access_ok (read_limit (rd_page r)) (rd_page r) (rd_offset r) (rd_len r)) /\
  (forall p offset len w, write_new p offset len = Ok w ->
     access_ok (write_limit (wr_page w)) (wr_page w) (wr_offset w) (wr_len w)) /\
  (forall n q, n < 256 -> sff_upper_new n = Ok q -> page_defined (PageSff q)) /\
  (forall n b u, n < 256 -> cmis_new_banked n b = Ok u -> page_defined (PageCmis (CmisUpper u))) /\
  (forall n u, n < 256 -> cmis_defined n -> cmis_new_unbanked n = Ok u ->
     page_defined (PageCmis (CmisUpper u))).
Proof.
  split; [|split; [|split; [|split]]].
  - intros p offset len r H. pose proof (read_new_spec p offset len) as [[K _] _].
    unfold read_new in *. destruct (verify_read p offset len); cbn in *; try discriminate.
    injection H as <-. cbn. now apply K.
  - intros p offset len r H. pose proof (write_new_spec p offset len) as [[K _] _].
    unfold write_new in *. destruct (verify_write p offset len); cbn in *; try discriminate.
    injection H as <-. cbn. now apply K.
  - intros n q Hn H. unfold sff_upper_new in H. destruct (_ || _) eqn:E; [|discriminate].
    injection H as <-. cbn. unfold sff_defined. lia.
  - intros n b u Hn H0. unfold cmis_new_banked in H0.
    destruct (is_valid_page n) eqn:E1; cbn in H0; [|discriminate].
    destruct (MAX_BANK <? b) eqn:E3; [discriminate|].
    destruct (page_accepts_bank_number n) eqn:E2; cbn in H0; [|discriminate]. injection H0 as <-. cbn.
    split; [now apply valid_page_spec|].
    split; [now apply accepts_bank_spec|]. unfold MAX_BANK in E3. lia.
  - intros n u Hn H0 H1. unfold cmis_new_unbanked in H1.
    destruct (page_accepts_bank_number n) eqn:E2; [discriminate|].
    injection H1 as <-. cbn. split; [exact H0|]. rewrite <- accepts_bank_spec. congruence.
Qed.

Lemma mac_reasons base count stride : mac_ok base = true ->
  (count = 0 \/ stride = 0 ->
     mac_addrs_new base count stride = Err (mkBadRange ZeroStrideOrCount base count stride)) /\
  (count <> 0 -> stride <> 0 -> ~ unicast base ->
     mac_addrs_new base count stride = Err (mkBadRange MulticastBaseAddr base count stride)) /\
  (count <> 0 -> stride <> 0 -> unicast base -> stays_in_oui base (count * stride) ->
     mac_addrs_new base count stride = Ok (mkMacAddrs base count stride)).
Proof.
  intros H. destruct (mac_new_spec base count stride H) as (H1 & H2 & H3 & H4 & H5).
  split; [exact H3|]. split; [exact H4|]. intros. apply H1. tauto.
Qed.
