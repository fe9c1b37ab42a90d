(** Decoded values have JSON forms that read back. *)
From Coq Require Import String SpecFloat Sorting.Sorted.
From Verif Require Import Json SpecDecode Tac CodeTextProofs DecodeProofs DecodeProofs2 DecodeProofs3 DecodeProofs4 DecodeProofs7
  DecodeProofs8 DecodeProofs9 JsonProofs JsonProofs2.
Import ListNotations.

Lemma unsupported_decodes {P} reads (parse : Identifier -> list (list N) -> outcome DecodeError P) id mem :
  In reads decoders -> supported_kind id = false -> decoded reads parse id mem = Err (DeUnsupportedIdentifier id).
Proof. intros H1 H2. unfold decoded. now rewrite (reads_unsupported reads id H1 H2). Qed.
Lemma supported_from_byte id : supported_kind id = true -> from_byte tbl_Identifier id.
Proof.
  intro H. assert (Hc : exists c, id = Named c /\ c < 256 /\ enum_from_u8 tbl_Identifier c = Some (Named c)).
  { destruct id as [c|i x]; [|discriminate H]. exists c. split; [reflexivity|].
    unfold supported_kind, sff_kind, cmis_kind in H. cbn in H.
    repeat match type of H with context [?a =? ?b] => destruct (N.eqb_spec a b); [subst; split; [reflexivity|reflexivity]|cbn in H] end.
    discriminate. }
  destruct Hc as (c & -> & Hc & He). exists c. now split.
Qed.
Lemma decoded_vendor id mem v : byte_memory mem -> decoded vendor_reads vendor_parse id mem = Ok v -> good_vendor v.
Proof.
  intros Hm H. destruct (supported_kind id) eqn:E.
  - destruct (vendor_correct id mem E) as (x & Hx & Hs). rewrite Hx in H. injection H as <-.
    split; [exact (supported_from_byte id E)|]. cbn [vi_vendor]. destruct Hs as (_ & -> & _). cbn [oui0 oui1 oui2].
    repeat split; apply Hm.
  - rewrite unsupported_decodes in H; [discriminate| |exact E]. unfold decoders. cbn. auto.
Qed.

Lemma value_finite x v : f32_value x = Some v -> finite x.
Proof. destruct x; cbn; intro H; try discriminate H; exact I. Qed.
Lemma near_finite x q : near_value x q -> finite x.
Proof. intros (v & H & _). exact (value_finite x v H). Qed.
Lemma is_finite x q : is_value x q -> finite x.
Proof. intros (v & H & _). exact (value_finite x v H). Qed.
Lemma word_byte mem p k : byte_memory mem -> byte_word (word_at_mem mem p k).
Proof. intro H. split; apply H. Qed.
Lemma words_all mem p k n (P : word -> Prop) : byte_memory mem -> (forall w, byte_word w -> P w) ->
  Forall P (words_at_mem mem p k n).
Proof.
  intros Hm HP. unfold words_at_mem. apply Forall_forall. intros w Hw. apply in_map_iff in Hw.
  destruct Hw as (i & <- & _). apply HP, word_byte, Hm.
Qed.
Lemma on_shown {A} (P : A -> Prop) c x : P x -> on P (shown c x).
Proof. destruct c; cbn; auto. Qed.
Lemma temperature_finite w : byte_word w -> finite (decode_temperature w).
Proof. intro H. exact (is_finite _ _ (temperature_exact w H)). Qed.
Lemma voltage_finite w : byte_word w -> finite (decode_supply_voltage w).
Proof. intro H. exact (near_finite _ _ (voltage_near w H)). Qed.
Lemma power_finite w : byte_word w -> finite (decode_optical_power w).
Proof. intro H. exact (near_finite _ _ (power_near w H)). Qed.
Lemma bias_finite w : byte_word w -> finite (decode_bias_current w).
Proof. intro H. exact (near_finite _ _ (bias_near w H)). Qed.
Lemma tec_finite w : byte_word w -> finite (decode_tec w).
Proof. intro H. exact (near_finite _ _ (tec_near w H)). Qed.
Lemma powers_good mem p k n (c : bool) : byte_memory mem ->
  Forall good_power (map (fun w => (if c then Average else PeakToPeak) (decode_optical_power w)) (words_at_mem mem p k n)).
Proof.
  intro Hm. apply Forall_map. apply words_all; [exact Hm|]. intros w Hw. destruct c; apply power_finite, Hw.
Qed.
Lemma scaled_finite w s scale : byte_word w -> bias_scale s = Some scale -> finite (f32_mul (decode_bias_current w) scale).
Proof.
  intros Hw Hs. unfold bias_scale in Hs.
  assert (Hk : exists k, (k = 1 \/ k = 2 \/ k = 4) /\ scale = f32_of_Z (Z.of_N k)).
  { destruct (s / 8 mod 4) as [|[[|[]|]|[|[]|]|]]; try discriminate Hs; injection Hs as <-;
      first [exists 1; split; [now auto|reflexivity] | exists 2; split; [now auto|reflexivity]
            | exists 4; split; [now auto|reflexivity]]. }
  destruct Hk as (k & Hk & ->). exact (near_finite _ _ (bias_scaled_near w k Hw Hk)).
Qed.

Lemma decoded_monitors id mem m : byte_memory mem -> decoded monitor_reads monitor_parse id mem = Ok m -> good_monitors m.
Proof.
  intros Hm H. destruct (is_sff id) eqn:E1; [|destruct (is_cmis id) eqn:E2].
  - rewrite (sff_monitors_correct id mem Hm E1) in H. injection H as <-.
    unfold good_monitors, sff_monitors_of.
    cbn [mo_temperature mo_supply_voltage mo_receiver_power mo_bias_current mo_transmitter_power mo_aux].
    split; [apply on_shown, temperature_finite, word_byte, Hm|].
    split; [apply on_shown, voltage_finite, word_byte, Hm|].
    split; [apply powers_good, Hm|].
    split; [apply on_shown, Forall_map, words_all; [exact Hm|exact bias_finite]|].
    split; [apply on_shown, Forall_map, words_all; [exact Hm|exact power_finite]|exact I].
  - rewrite (cmis_monitors_correct id mem E1 E2) in H.
    destruct (bias_scale (mem (cmis_up 1) 160)) as [scale|] eqn:Es; [|discriminate]. injection H as <-.
    unfold good_monitors, cmis_monitors_of.
    cbn [mo_temperature mo_supply_voltage mo_receiver_power mo_bias_current mo_transmitter_power mo_aux].
    split; [apply on_shown, temperature_finite, word_byte, Hm|].
    split; [apply on_shown, voltage_finite, word_byte, Hm|].
    split; [apply on_shown, powers_good, Hm|].
    split; [apply on_shown, Forall_map, words_all; [exact Hm|intros w Hw; exact (scaled_finite w _ scale Hw Es)]|].
    split; [apply on_shown, Forall_map, words_all; [exact Hm|exact power_finite]|].
    apply on_shown. unfold good_aux. cbn [am_aux1 am_aux2 am_aux3 am_custom].
    split; [|split; [|split]]; apply on_shown; cbv zeta.
    + destruct (N.testbit _ 0); [apply tec_finite|]; apply word_byte, Hm.
    + destruct (N.testbit _ 1); [apply tec_finite|apply temperature_finite]; apply word_byte, Hm.
    + destruct (N.testbit _ 2); [apply voltage_finite|apply temperature_finite]; apply word_byte, Hm.
    + apply word_byte, Hm.
  - rewrite unsupported_decodes in H; [discriminate| |].
    + unfold decoders. cbn. auto.
    + unfold supported_kind. change (is_sff id || is_cmis id = false)%bool. now rewrite E1, E2.
Qed.

Lemma app_in_use mem k : byte_memory mem -> app_of mem k < 16.
Proof. intro H. unfold app_of. pose proof (H p11 (206 + k)). apply N.div_lt_upper_bound; lia. Qed.
Lemma lanes_all_or_not mem (n : nat) :
  (forall k, k < N.of_nat n -> in_use mem k -> lane_with other_nibble mem k <> None) \/
  (exists k, in_use mem k /\ lane_with other_nibble mem k = None).
Proof.
  induction n as [|n [IH|IH]]; [left; intros k Hk; lia| |right; exact IH].
  destruct (lane_with other_nibble mem (N.of_nat n)) as [st|] eqn:E.
  - left. intros k Hk Hu. destruct (N.eq_dec k (N.of_nat n)) as [->|]; [congruence|]. apply IH; [lia|exact Hu].
  - destruct (N.ltb_spec (N.of_nat n) 8) as [Hn|Hn];
      [destruct (N.eq_dec (app_of mem (N.of_nat n)) 0) as [H0|H0]|].
    + left. intros k Hk Hu. destruct (N.eq_dec k (N.of_nat n)) as [->|]; [destruct Hu; congruence|]. apply IH; [lia|exact Hu].
    + right. exists (N.of_nat n). split; [split; assumption|exact E].
    + left. intros k Hk Hu. destruct (N.eq_dec k (N.of_nat n)) as [->|]; [destruct Hu; lia|]. apply IH; [lia|exact Hu].
Qed.

Lemma media_good mem x m : byte_memory mem -> x < 256 -> Some m = media_of mem x -> good_media m.
Proof.
  intros Hm Hx H. unfold media_of in H.
  destruct (mem cmis_low 85) as [|p]; [discriminate|].
  repeat (destruct p as [p|p|]; try discriminate H); injection H as ->; cbn [good_media];
    apply enum_of_from_byte; try exact Hx; in_tables.
Qed.
Lemma descriptor_good mem a d : byte_memory mem -> descriptor_is mem a d -> good_app d.
Proof.
  intros Hm (H1 & H2 & H3 & H4 & H5 & H6). pose proof (fun i => Hm cmis_low (82 + 4 * a + i)) as Hb.
  split; [rewrite H1; apply enum_of_from_byte; [in_tables|apply Hm]|].
  split; [exact (media_good mem _ _ Hm (Hm _ _) H2)|].
  rewrite H3, H4, H5, H6. split; [apply N.div_lt_upper_bound; [lia|]; pose proof (Hb 2); lia|].
  split; [pose proof (N.mod_lt (mem cmis_low (82 + 4 * a + 2)) 16); lia|]. split; apply Hm.
Qed.
Lemma lookup_in {A} k (x : A) l : sorted_keys l -> In (k, x) l -> lookup k l = Some x.
Proof.
  unfold sorted_keys. induction l as [|[k' y] l IH]; intros Hs Hin; [destruct Hin|]. cbn [map fst] in Hs.
  apply StronglySorted_inv in Hs. destruct Hs as [Hs Ha]. cbn [lookup]. destruct Hin as [Heq|Hin].
  - injection Heq as -> ->. now rewrite N.eqb_refl.
  - rewrite Forall_forall in Ha. specialize (Ha k (in_map fst l (k, x) Hin)).
    destruct (N.eqb_spec k k'); [lia|]. destruct (N.eqb_spec k' k); [lia|]. now apply IH.
Qed.
Lemma map_good mem dps : byte_memory mem -> datapath_map_of other_nibble mem dps -> good_map good_cmis dps.
Proof.
  intros Hm (Hs & Hk & Hd). split; [exact Hs|]. apply Forall_forall. intros [a d] Hin. cbn [fst snd].
  split.
  - destruct (proj1 (Hk a) (in_map fst dps (a, d) Hin)) as (k & _ & <-).
    pose proof (app_in_use mem k Hm). lia.
  - destruct (Hd a d (lookup_in a d dps Hs Hin)) as (H1 & H2 & H3). split; [exact (descriptor_good mem a _ Hm H1)|].
    split; [exact H2|]. apply Forall_forall. intros [n st] Hn. split; [|exact I]. cbn [fst].
    destruct (proj1 (H3 n st) (lookup_in n st _ H2 Hn)) as (k & -> & [Hu _] & _). lia.
Qed.

(** Decoded datapaths, but for SFF-8636 modules whose compliance byte has no name. *)
Definition nameless (id : Identifier) (mem : memory) : Prop :=
  sff_kind id = true /\ mem (sff_up 0) 131 <> 128 /\ ~ named_ethernet (mem (sff_up 0) 131).
Lemma decoded_datapath id mem d : byte_memory mem -> decoded datapath_reads datapath_parse id mem = Ok d ->
  ~ nameless id mem -> good_datapath d.
Proof.
  intros Hm H Hn. destruct (supported_kind id) eqn:E.
  - destruct (kinds id E) as [[Hs Hk]|(Hs & Hk & Hc & Hk')].
    + rewrite (sff_datapath_correct id mem Hs) in H. injection H as <-. cbn [good_datapath].
      split; [apply enum_of_from_byte; [in_tables|apply Hm]|]. split; [|reflexivity].
      unfold sff_compliance_of. destruct (N.eqb_spec (mem (sff_up 0) 131) 128) as [E1|E1]; cbn [good_compliance].
      * apply enum_of_from_byte; [in_tables|apply Hm].
      * unfold named_ethernet. intro G. apply Hn. split; [exact Hk|]. split; [exact E1|].
        unfold named_ethernet. rewrite G. intro F. now apply F.
    + assert (Hp : ~ (cmis_kind id = true /\ (~ known_media mem \/ ~ assignments_listed mem))).
      { intro G. apply (datapath_panic_iff id mem Hm) in G. congruence. }
      assert (Hmed : known_media mem).
      { unfold known_media in *. destruct (N.leb_spec 1 (mem cmis_low 85)), (N.leb_spec (mem cmis_low 85) 5); try lia.
        all: exfalso; apply Hp; split; [exact Hk'|left; lia]. }
      assert (Hl : assignments_listed mem).
      { destruct (assignments_dec mem) as [Ha|(k & K1 & K2 & K3)]; [exact Ha|]. exfalso. apply Hp.
        split; [exact Hk'|]. right. intro G. exact (K3 (G k K1 K2)). }
      destruct (datapath_listed id mem Hm Hs Hc Hmed Hl) as [G1 G2].
      destruct (lanes_all_or_not mem 8) as [A|A]; [|rewrite (G2 A) in H; discriminate].
      destruct G1 as (dps & Hd & Hmap).
      { intros k Hu. apply A; [destruct Hu; lia|exact Hu]. }
      rewrite Hd in H. injection H as <-. cbn [good_datapath].
      split; [apply enum_of_from_byte; [in_tables|apply Hm]|]. split; [lia|]. exact (map_good mem dps Hm Hmap).
  - rewrite unsupported_decodes in H; [discriminate| |exact E]. unfold decoders. cbn. auto 6.
Qed.
Lemma nameless_lost id mem : byte_memory mem -> nameless id mem ->
  exists d, decoded datapath_reads datapath_parse id mem = Ok d /\ datapath_of_json (datapath_json d) = None.
Proof.
  intros Hm (Hk & H1 & H2). eexists. split; [exact (sff_datapath_correct id mem Hk)|].
  unfold sff_compliance_of. destruct (N.eqb_spec (mem (sff_up 0) 131) 128); [congruence|].
  apply datapath_lost; [apply Hm|exact H2].
Qed.

(** What is read back is what was decoded. *)
Lemma vendor_survives id mem v : byte_memory mem -> decoded vendor_reads vendor_parse id mem = Ok v ->
  vendor_info_of_json (vendor_info_json v) = Some v.
Proof. intros Hm H. exact (vendor_info_rt v (decoded_vendor id mem v Hm H)). Qed.
Lemma monitors_survive id mem m : byte_memory mem -> decoded monitor_reads monitor_parse id mem = Ok m ->
  monitors_of_json (monitors_json m) = Some m.
Proof. intros Hm H. exact (monitors_rt m (decoded_monitors id mem m Hm H)). Qed.
Lemma datapath_survives id mem d : byte_memory mem -> decoded datapath_reads datapath_parse id mem = Ok d ->
  (datapath_of_json (datapath_json d) = Some d <-> ~ nameless id mem).
Proof.
  intros Hm H. split.
  - intros G Hn. destruct (nameless_lost id mem Hm Hn) as (d' & H1 & H2). congruence.
  - intro Hn. exact (datapath_rt d (decoded_datapath id mem d Hm H Hn)).
Qed.
