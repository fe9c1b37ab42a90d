(** Proofs about the printed tables (C65): memory models, raw data, vendor information and MAC addresses. *)
From Coq Require Import Lia String.
From Verif Require Import QueryProofs Tac Text SpecTable TableProofs TableProofs2 CliProofs CliProofs5 ResultsProofs ControllerProofs ModuleIdProofs MessageProofs SpecMessages.
Import ListNotations.
Open Scope N_scope.

(** ** Memory models *)
Lemma page_text p : match p with
    | PageSff (SffUpper n) => n < 256
    | PageCmis (CmisUpper u) => cu_page u < 256 /\ match cu_bank u with Some b => b < 256 | None => True end
    | _ => False end -> page_display p = Ok (page_shown p) /\ plain (page_shown p).
Proof.
  assert (X : plain (T "0x")) by (apply plainb_ok; reflexivity). assert (Y : plain (T "/")) by (apply plainb_ok; reflexivity).
  destruct p as [[|n]|[|[[b|] n]]]; try (intros []; fail); unfold page_display, page_shown; cbn [page_number page_bank cu_page cu_bank opt_unwrap obind].
  - intros H. rewrite hex_ok, app_nil_r by exact H. split; [reflexivity|]. apply plain_app; [exact X|apply plain_hex].
  - intros [H Hb]. rewrite hex_ok, number_u8 by assumption. split; [reflexivity|].
    apply plain_app; [exact X|]. apply plain_app; [apply plain_hex|]. apply plain_app; [exact Y|apply plain_number].
  - intros [H _]. rewrite hex_ok, app_nil_r by exact H. split; [reflexivity|]. apply plain_app; [exact X|apply plain_hex].
Qed.
Lemma model_text x : printable_model x -> memory_model_display x = Ok (model_shown x) /\ plain (model_shown x).
Proof.
  destruct x as [|ps]; cbn [printable_model memory_model_display model_shown]; [intros _; split; [reflexivity|apply plainb_ok; reflexivity]|].
  intros H. assert (E : omapM page_display ps = Ok (map page_shown ps) /\ Forall plain (map page_shown ps)).
  { induction H as [|p ps Hp _ (IH & Pl)]; [split; [reflexivity|constructor]|]. cbn [omapM map]. destruct (page_text p Hp) as [-> Q].
    cbn [obind]. rewrite IH. split; [reflexivity|now constructor]. }
  destruct E as [-> Pl]. split; [reflexivity|].
  repeat apply plain_app; [apply plainb_ok; reflexivity|apply plain_join; [apply plainb_ok; reflexivity|exact Pl]|apply plainb_ok; reflexivity].
Qed.
Lemma model_ends x : ends_plain (model_shown x) = true.
Proof.
  destruct x as [|ps]; [reflexivity|]. cbn [model_shown]. unfold ends_plain. rewrite app_assoc, app_length. cbn [List.length T].
  rewrite nth_error_app2 by lia. match goal with |- context [nth_error _ ?k] => replace k with O by lia end. reflexivity.
Qed.
Lemma model_items (l : list (N * MemoryModel)) : Forall (fun p => printable_model (snd p)) l ->
  omapM (fun p => t <-? memory_model_display (snd p) ;; Ok (fst p, t)) l = Ok (map (fun p => (fst p, model_shown (snd p))) l).
Proof.
  induction 1 as [|p l Hp _ IH]; [reflexivity|]. cbn [omapM map]. destruct (model_text _ Hp) as [-> _]. cbn [obind]. now rewrite IH.
Qed.
Lemma table_map {F P Q} title (name : F -> text) (g : P -> Q) line field k (items : list (N * P)) :
  table title name line field k (map (fun p => (fst p, g (snd p))) items) =
  table title name (fun i x => line i (g x)) (fun i x => field i (g x)) k items.
Proof. unfold table. destruct k as [|h [|f fs] sep]; rewrite ?map_map; reflexivity. Qed.
Lemma model_table m f r : m < 2 ^ 64 -> reports m f r -> (forall i x, member i m -> f i = inl x -> printable_model x) ->
  exists out, (forall k, print_module_memory_model r k = Ok (out k)) /\
  columns [5]%nat [T "Port"; T "Model"] (fun i x => [port_shown i; model_shown x]) (told_ports m f) (fun h => out (OutDefault h)) /\
  fields_split model_field_name model_value (told_ports m f) (fun h fs sep => out (OutParseable h fs sep)) /\
  (forall i x f, printable_model x -> plain (model_value i x f)) /\
  (forall h, whole_lines (out (OutDefault h))) /\
  (forall h fs sep, ~ In 10 sep -> whole_lines (out (OutParseable h fs sep))).
Proof.
  intros Hm R Hp. 
  assert (Pl : forall i x f, printable_model x -> plain (model_value i x f))
    by (intros i x [] H; cbn [model_value]; [apply plain_number|now apply model_text]).
  eexists (fun k => table _ _ _ _ k (map (fun p => (fst p, model_shown (snd p))) (told_ports m f))). split; [|split; [|split; [|split; [exact Pl|split]]]].
  - intros k. unfold print_module_memory_model. rewrite (told_iter m f r Hm R), model_items; [reflexivity|].
    apply Forall_forall. intros [i x] Hi. apply told_in in Hi as (_ & Hi & Hf). exact (Hp i x Hi Hf).
  - pose proof (fun h => table_map (T "Port Model") model_field_name model_shown
      (fun port t => align_right WIDTH (show_u8 port) ++ T " " ++ t) (fun port t f => match f with FModelPort => show_u8 port | FModelModel => t end)
      (OutDefault h) (told_ports m f)) as E.
    destruct (table_columns (T "Port Model") model_field_name (fun i x => align_right WIDTH (show_u8 i) ++ T " " ++ model_shown x)
      (fun i x f => match f with FModelPort => show_u8 i | FModelModel => model_shown x end) (told_ports m f) [5]%nat
      [T "Port"; T "Model"] (fun i x => [port_shown i; model_shown x]) eq_refl) as (t & rows & H1 & H2 & H3 & H4).
    { intros i x Hi. apply told_in in Hi as (Hi & _). unfold cells. rewrite cells_port; [|exact Hi|reflexivity|apply one_space].
      f_equal. cbn [cells_from]. now rewrite unpad_plain by apply model_ends. }
    exists t, rows. rewrite !E. auto.
  - intros c fs Hfs Hc. rewrite !table_map.
    apply (table_fields (T "Port Model") model_field_name (fun i x => align_right WIDTH (show_u8 i) ++ T " " ++ model_shown x)
      (fun i x f => match f with FModelPort => show_u8 i | FModelModel => model_shown x end)); [|exact Hfs|exact Hc].
    intros i x g Hi. apply told_in in Hi as (Hi & _). destruct g; cbn [model_value]; [apply number_u8; lia|reflexivity].
  - intros h. rewrite table_map. apply lines_whole, table_lines.
    + apply plain_no; [|lia]. apply plainb_ok. reflexivity.
    + intros i x Hi. apply told_in in Hi as (Hi & Hx & Hf). apply plain_no; [|lia]. unfold WIDTH. rewrite port_shown_ok by lia.
      apply plain_app; [apply plain_port|]. apply plain_app; [apply plainb_ok; reflexivity|]. now apply model_text, (Hp i).
  - intros h fs sep Hs. rewrite table_map. apply lines_whole, table_lines_parse; [exact Hs|intros g; apply plain_no; [apply plainb_ok; now destruct g|lia]|].
    intros i x g Hi. apply told_in in Hi as (Hi & Hx & Hf). apply plain_no; [|lia]. destruct g.
    + rewrite number_u8 by lia. apply plain_number.
    + now apply model_text, (Hp i).
Qed.

(** ** Raw data *)
Lemma plain_byte binary b : plain (byte_shown binary b).
Proof.
  unfold byte_shown, pad. destruct binary; (apply plain_app; [apply plainb_ok; reflexivity|]); (apply plain_app; [|apply plain_digits; lia]);
    apply Forall_forall; intros c Hc; apply repeat_spec in Hc; lia.
Qed.
Lemma read_fields m f r binary : m < 2 ^ 64 -> reports m f r -> (forall i d, member i m -> f i = inl d -> bytes d = true) ->
  fields_split (fun f => match f with FReadPort => T "port" | FReadData => T "data" end) (read_value binary) (told_ports m f)
    (fun h fs sep => print_read_data r binary (OutParseable h fs sep)) /\
  (forall i x f, plain (read_value binary i x f)).
Proof.
  intros Hm R Hb. split.
  - unfold print_read_data. rewrite (told_iter m f r Hm R). apply table_fields. intros i x g Hi. apply told_in in Hi as (Hi & Hx & Hf).
    destruct g; cbn [read_value]; [apply number_u8; lia|]. now rewrite fmt_bytes_ok by exact (Hb i x Hx Hf).
  - intros i x []; cbn [read_value]; [apply plain_number|]. apply plain_join; [apply plainb_ok; reflexivity|].
    apply Forall_map, Forall_forall. intros b _. apply plain_byte.
Qed.

(** ** Vendor information *)
Lemma ends_last u : (forall v c, u = v ++ [c] -> c <> 32) -> ends_plain u = true.
Proof.
  intros H. unfold ends_plain. destruct u as [|a u] using rev_ind; [reflexivity|]. clear IHu.
  rewrite (nth_app_last _ u a eq_refl). specialize (H u a eq_refl).
  destruct a as [|p]; [reflexivity|]. do 6 (try destruct p as [p|p|]; try reflexivity; try congruence).
Qed.
Lemma utf8_len t : (List.length t <= List.length (utf8 t))%nat.
Proof.
  induction t as [|c t IH]; [cbn; lia|]. cbn [utf8 flat_map]. rewrite app_length. fold (utf8 t). cbn [List.length].
  enough (1 <= List.length (utf8_char c))%nat by lia. unfold utf8_char.
  destruct (c <? 0x80), (c <? 0x800), (c <? 0x10000); cbn; lia.
Qed.
Lemma area_len mem p k n : List.length (area mem p k n) = n.
Proof. unfold area. now rewrite map_length, nrange_length. Qed.
Lemma stored_ok b u : stored_text b u -> (List.length u <= List.length b)%nat /\ ends_plain u = true.
Proof.
  intros (t & (rest & -> & _) & (blanks & -> & _ & H)). split.
  - pose proof (utf8_len (u ++ blanks)). rewrite !app_length in *. lia.
  - apply ends_last. intros v c E ->. now discriminate (H v 32 E).
Qed.
Lemma kind_shown id : supported_kind id = true -> identifier_debug id ++ T " (0x" ++ hex02 (enum_to_u8 id) ++ T ")" = kind_word id /\
  (List.length (kind_word id) <= 24)%nat /\ ends_plain (kind_word id) = true /\ plain (kind_word id).
Proof.
  intros H. assert (X : id = Named 0x0d \/ id = Named 0x11 \/ id = Named 0x18 \/ id = Named 0x1e).
  { unfold supported_kind, sff_kind, cmis_kind in H. rewrite !orb_true_iff in H. unfold benum_eqb in H.
    destruct id as [c|]; cbn in H; [|intuition discriminate]. rewrite !N.eqb_eq in H. intuition congruence. }
  destruct X as [->|[->|[->| ->]]]; (split; [reflexivity|split; [cbn; lia|split; [reflexivity|apply plainb_ok; reflexivity]]]).
Qed.

Lemma vendor_table m f r : m < 2 ^ 64 -> reports m f r ->
  (forall i x, member i m -> f i = inl x -> exists mem, supported_kind (kind_of mem) = true /\ vendor_of mem x) ->
  columns [5; 30; 47; 64; 69; 86]%nat [T "Port"; T "Identifier"; T "Vendor"; T "Part"; T "Rev"; T "Serial"; T "Mfg date"]
    (fun i x => [port_shown i; kind_word (vi_identifier x); v_name (vi_vendor x); v_part (vi_vendor x); v_revision (vi_vendor x);
                 v_serial (vi_vendor x); unpad (date_shown x)]) (told_ports m f)
    (fun h => print_vendor_info r (OutDefault h)) /\
  fields_split vendor_field_name vendor_value (told_ports m f) (fun h fs sep => print_vendor_info r (OutParseable h fs sep)).
Proof.
  intros Hm R Hv. unfold print_vendor_info. rewrite (told_iter m f r Hm R). split.
  - apply table_columns; [reflexivity|]. intros i x Hi. apply told_in in Hi as (Hi & Hx & Hf).
    destruct (Hv i x Hx Hf) as (mem & Hk & v & -> & H1 & _ & H2 & H3 & H4 & _). cbn [vi_vendor vi_identifier].
    destruct (kind_shown _ Hk) as (E & L & Q & _). unfold vendor_ident, vendor_date, date_shown. cbn [vi_identifier vi_vendor]. rewrite E.
    apply stored_ok in H1, H2, H3, H4. rewrite area_len in H1, H2, H3, H4. unfold cells, vendor_line.
    unfold ID_DEBUG_WIDTH, VENDOR_WIDTH, PART_WIDTH, REV_WIDTH, SERIAL_WIDTH, DATE_WIDTH.
    rewrite cells_port; [|exact Hi|reflexivity|apply one_space]. f_equal.
    rewrite cells_left; [|lia|exact Q|reflexivity|apply one_space]. f_equal.
    rewrite cells_left; [|lia|tauto|reflexivity|apply one_space]. f_equal.
    rewrite cells_left; [|lia|tauto|reflexivity|apply one_space]. f_equal.
    rewrite cells_left; [|lia|tauto|reflexivity|apply one_space]. f_equal.
    rewrite cells_left; [|lia|tauto|reflexivity|apply one_space]. f_equal.
    cbn [cells_from]. unfold align_left. rewrite unpad_spaces. reflexivity.
  - apply table_fields. intros i x g Hi. apply told_in in Hi as (Hi & Hx & Hf).
    destruct (Hv i x Hx Hf) as (mem & Hk & v & -> & _). destruct (kind_shown _ Hk) as (E & _).
    destruct g; cbn [vendor_value]; try reflexivity; [apply number_u8; lia|exact E].
Qed.
Lemma vendor_lines m f r : m < 2 ^ 64 -> reports m f r ->
  (forall i x, member i m -> f i = inl x -> exists mem, supported_kind (kind_of mem) = true /\ vendor_of mem x) ->
  (forall i x g, member i m -> f i = inl x -> ~ In 10 (vendor_value i x g)) ->
  (forall h, whole_lines (print_vendor_info r (OutDefault h))) /\
  (forall h fs sep, ~ In 10 sep -> whole_lines (print_vendor_info r (OutParseable h fs sep))).
Proof.
  intros Hm R Hv Hn. unfold print_vendor_info. rewrite (told_iter m f r Hm R).
  assert (A : forall w s, ~ In 10 s -> ~ In 10 (align_left w s)).
  { intros w s H. unfold align_left. rewrite in_app_iff. intros [|X]; [auto|]. apply repeat_spec in X. lia. }
  assert (Sp : ~ In 10 (T " ")) by (intros [X|[]]; discriminate X).
  assert (B : forall a b, ~ In 10 a -> ~ In 10 b -> ~ In 10 (a ++ b)) by (intros a b X Y; rewrite in_app_iff; tauto).
  split.
  - intros h. apply lines_whole, table_lines.
    + apply plain_no; [|lia]. apply plainb_ok. reflexivity.
    + intros i x Hi. apply told_in in Hi as (Hi & Hx & Hf). pose proof (Hn i x) as K.
      destruct (Hv i x Hx Hf) as (mem & Hk & v & -> & _). destruct (kind_shown _ Hk) as (E & _ & _ & Q).
      unfold vendor_ident, vendor_date, vendor_line. cbn [vi_identifier vi_vendor]. rewrite E. unfold WIDTH. rewrite port_shown_ok by lia.
      apply B; [apply plain_no; [apply plain_port|lia]|]. apply B; [exact Sp|].
      apply B; [apply A, plain_no; [exact Q|lia]|]. apply B; [exact Sp|].
      apply B; [apply A, (K FVendorVendor Hx Hf)|]. apply B; [exact Sp|].
      apply B; [apply A, (K FVendorPart Hx Hf)|]. apply B; [exact Sp|].
      apply B; [apply A, (K FVendorRev Hx Hf)|]. apply B; [exact Sp|].
      apply B; [apply A, (K FVendorSerial Hx Hf)|]. apply B; [exact Sp|].
      apply A, (K FVendorManufacturedDate Hx Hf).
  - intros h fs sep Hs. apply lines_whole, table_lines_parse; [exact Hs|intros g; apply plain_no; [apply plainb_ok; now destruct g|lia]|].
    intros i x g Hi. apply told_in in Hi as (Hi & Hx & Hf). pose proof (Hn i x g Hx Hf) as K.
    destruct (Hv i x Hx Hf) as (mem & Hk & v & -> & _). destruct (kind_shown _ Hk) as (E & _).
    destruct g; cbn [vendor_value] in K; try exact K; [rewrite number_u8 by lia; exact K|].
    unfold vendor_ident. cbn [vi_identifier] in *. now rewrite E.
Qed.

(** ** MAC addresses *)
Lemma mac_text_split a : mac_ok a = true -> split_on 58 (mac_text a) = map hex_shown (mac_bytes a).
Proof.
  intros H. unfold mac_text. change [mac0 a; mac1 a; mac2 a; mac3 a; mac4 a; mac5 a] with (mac_bytes a).
  assert (E : map hex02 (mac_bytes a) = map hex_shown (mac_bytes a)).
  { apply map_ext_in. intros b Hb. apply hex_ok. apply mac_ok_spec in H. unfold mac_bytes in Hb. cbn [In] in Hb. intuition subst; assumption. }
  rewrite E. apply join_split; [discriminate|]. apply Forall_map, Forall_forall. intros b _. apply plain_no; [apply plain_hex|lia].
Qed.
Lemma mac_nth_ok r n a : mac_ok (ma_base r) = true -> mac_nth r n = Ok (Some a) -> mac_ok a = true.
Proof.
  intros H. unfold mac_nth. destruct (ma_count r <=? n); [discriminate|]. destruct (2 ^ 32 <=? _); [discriminate|].
  intros [= <-]. apply mac_ok_spec in H. apply mac_ok_spec. cbn [mac0 mac1 mac2 mac3 mac4 mac5]. unfold be32_byte.
  destruct H as (H0 & H1 & H2 & _). repeat split; try assumption; apply N.mod_lt; discriminate.
Qed.
Lemma mac_table base count stride r : mac_ok base = true -> mac_addrs_new base count stride = Ok r ->
  exists lines, print_mac_address_range r false = Ok lines /\ List.length lines = N.to_nat count /\
    (forall n, n < count -> exists line a, nth_error lines (N.to_nat n) = Some line /\
       split_on 58 line = map hex_shown (mac_bytes a) /\ mac_num a = mac_num base + n * stride /\ oui_of a = oui_of base) /\
    whole_lines lines.
Proof.
  intros H Hr. assert (B : ma_base r = base).
  { unfold mac_addrs_new in Hr. destruct (_ || _); [discriminate|]. destruct (negb _); [discriminate|]. destruct (_ && _); [|discriminate].
    injection Hr as <-. reflexivity. }
  destruct (mac_range_correct base count stride r H Hr) as (l & El & Len & Hl & _). exists (map mac_text l). cbn [print_mac_address_range].
  unfold print_mac_address_range. rewrite El. split; [reflexivity|]. rewrite map_length. split; [exact Len|].
  assert (K : forall n, n < count -> exists a, nth_error l (N.to_nat n) = Some a /\ mac_ok a = true /\
    mac_num a = mac_num base + n * stride /\ oui_of a = oui_of base).
  { intros n Hn. destruct (Hl n Hn) as (a & E1 & E2 & E3 & E4 & _). exists a. split; [exact E1|]. split; [|auto].
    apply (mac_nth_ok r n); [now rewrite B|exact E2]. }
  split.
  - intros n Hn. destruct (K n Hn) as (a & E1 & E2 & E3 & E4). exists (mac_text a), a. split; [now apply map_nth_error|].
    split; [now apply mac_text_split|auto].
  - apply lines_whole, Forall_map, Forall_forall. intros a Ha. apply In_nth_error in Ha as (k & Hk).
    assert (Hn : N.of_nat k < count). { assert (k < List.length l)%nat by (apply nth_error_Some; congruence). lia. }
    destruct (K _ Hn) as (b & E1 & E2 & _). rewrite Nat2N.id, Hk in E1. injection E1 as <-.
    pose proof (mac_text_split a E2) as S. destruct (split_join 58 (mac_text a)) as (J & _ & _). rewrite <- J, S.
    intros Hin. assert (X : forall l, In 10 (join [58] (map hex_shown l)) -> False); [|now apply X in Hin].
    clear. induction l as [|b l IH]; [intros []|]. cbn [map join]. destruct l as [|c l].
    + cbn [map]. apply plain_no; [apply plain_hex|lia].
    + cbn [map] in *. rewrite !in_app_iff. intros [X|[X|X]]; [|destruct X as [X|[]]; discriminate X|now apply IH].
      revert X. apply plain_no; [apply plain_hex|lia].
Qed.
Lemma mac_summary base count stride r : mac_ok base = true -> count < 65536 -> stride < 256 -> mac_addrs_new base count stride = Ok r ->
  exists b, print_mac_address_range r true = Ok [T "Base:   " ++ b; T "Count:  " ++ number_shown count; T "Stride: " ++ number_shown stride] /\
    split_on 58 b = map hex_shown (mac_bytes base).
Proof.
  intros H Hc Hs Hr. assert (B : r = mkMacAddrs base count stride).
  { unfold mac_addrs_new in Hr. destruct (_ || _); [discriminate|]. destruct (negb _); [discriminate|]. destruct (_ && _); [|discriminate].
    now injection Hr as <-. }
  subst r. exists (mac_text base). split; [|now apply mac_text_split]. unfold print_mac_address_range. cbn [ma_base ma_count ma_stride].
  rewrite !dec_digits. unfold number_shown.
  rewrite (digits_fuel 10 ltac:(lia) 5 16 count); [|apply N.lt_trans with 65536; [exact Hc|reflexivity]|apply N.lt_trans with 65536; [exact Hc|reflexivity]|lia|lia].
  rewrite (digits_fuel 10 ltac:(lia) 3 16 stride); [reflexivity|apply N.lt_trans with 256; [exact Hs|reflexivity]|apply N.lt_trans with 256; [exact Hs|reflexivity]|lia|lia].
Qed.

(** ** Over a rack *)
Lemma reads_out_reports {P} m k (R : memory -> P -> Prop) r : m < 2 ^ 64 -> reads_out m k R r ->
  exists f, reports m f r /\ rack_rows m k R (told_ports m f) /\
    (forall i x, member i m -> f i = inl x -> exists mem, k i = inl mem /\ R mem x).
Proof.
  intros Hm (W & S1 & S2 & F1).
  set (f := fun i => match rget r i with Some x => inl x | None => inr (match rerr r i with Some e => e | None => hw_fault i 0 end) end).
  assert (D : forall i x e, succeeds r i x -> fails r i e -> False).
  { intros i x e Hs He. apply S2 in Hs as (_ & mem & E & _). apply F1 in He as (_ & b & E' & _). congruence. }
  assert (Rp : reports m f r).
  { split; [exact W|]. unfold f. split; intros i y.
    - split; [intros H; split; [now apply S2 in H|]|].
      + apply succeeds_get in H. now rewrite H.
      + intros [Hi E]. destruct (rget r i) as [z|] eqn:G; [|discriminate]. injection E as <-. now apply succeeds_get.
    - split.
      + intros H. pose proof H as H'. apply F1 in H' as (Hi & _). split; [exact Hi|]. destruct (rget r i) as [z|] eqn:G.
        * apply succeeds_get in G. destruct (D i z y G H).
        * apply fails_get in H. now rewrite H.
      + intros [Hi E]. destruct (rget r i) as [z|] eqn:G; [discriminate|]. injection E as <-. destruct (rerr r i) as [e|] eqn:Ge; [now apply fails_get|].
        exfalso. destruct (k i) as [mem|b] eqn:K.
        * destruct (S1 i mem Hi K) as (x & Hx). apply succeeds_get in Hx. congruence.
        * assert (Hf : fails r i (hw_fault i b)) by (apply F1; eauto). apply fails_get in Hf. congruence. }
  assert (V : forall i x, member i m -> f i = inl x -> exists mem, k i = inl mem /\ R mem x).
  { intros i x Hi E. destruct Rp as (_ & Rs & _). assert (Hs : succeeds r i x) by (apply Rs; auto). now apply S2 in Hs as (_ & H). }
  exists f. split; [exact Rp|]. split; [|exact V]. unfold rack_rows, told_ports.
  assert (A : forall i, In i (to_indices m) -> member i m) by (intros i Hi; apply in_to_indices in Hi; apply member_testbit; tauto).
  revert A. induction (to_indices m) as [|i l IH]; intros A; [constructor|]. cbn [filter flat_map].
  pose proof (A i (or_introl eq_refl)) as Hi. assert (IH' := IH (fun j Hj => A j (or_intror Hj))). clear IH.
  destruct Rp as (_ & Rs & Rf). destruct (k i) as [mem|b] eqn:K.
  - destruct (S1 i mem Hi K) as (x & Hx). apply Rs in Hx as [_ E]. rewrite E. cbn [app]. constructor; [|exact IH']. cbn [fst snd].
    split; [reflexivity|]. exact (V i x Hi E).
  - assert (Hf : fails r i (hw_fault i b)) by (apply F1; eauto). apply Rf in Hf as [_ E]. rewrite E. exact IH'.
Qed.
Lemma models_printable mem x : memory_model_of mem x -> printable_model x.
Proof.
  intros [H1 H2]. destruct (flat_memory (kind_of mem) mem); [now rewrite H1|]. destruct (H2 eq_refl) as (ps & -> & _ & Hp).
  cbn [printable_model]. apply Forall_forall. intros p Hin. apply Hp in Hin. unfold advertises in Hin.
  destruct (sff_kind (kind_of mem)).
  - destruct Hin as [->|[->|[[-> _]|[[-> _]|[[->| ->] _]]]]]; cbn; lia.
  - assert (Hb : top_bank (mem (cmis_up 1) 142) < 256).
    { unfold top_bank. repeat match goal with |- context [match ?x with _ => _ end] => destruct x end; lia. }
    destruct Hin as [->|[->|[->|[[-> _]|[->|[->|[[->| ->] _]]]]]]]; cbn; split; try lia; exact I || exact Hb.
Qed.
Lemma vendor_print St (a : honest St) : honest_ok a -> forall (w : world St) m k,
  m < 2 ^ 64 -> reads_as a (w_sp w) (SpecQuery.shows k) ->
  all_modules m k (fun mem => supported_kind (kind_of mem) = true) ->
  exists r items, snd (vendor_info (honest_sp a) m w) = Ok r /\ rack_rows m k vendor_of items /\
    columns [5; 30; 47; 64; 69; 86]%nat [T "Port"; T "Identifier"; T "Vendor"; T "Part"; T "Rev"; T "Serial"; T "Mfg date"]
      (fun i x => [port_shown i; kind_word (vi_identifier x); v_name (vi_vendor x); v_part (vi_vendor x); v_revision (vi_vendor x);
                   v_serial (vi_vendor x); unpad (date_shown x)]) items (fun h => print_vendor_info r (OutDefault h)) /\
    fields_split vendor_field_name vendor_value items (fun h fs sep => print_vendor_info r (OutParseable h fs sep)) /\
    ((forall i x g, In (i, x) items -> ~ In 10 (vendor_value i x g)) ->
      (forall h, whole_lines (print_vendor_info r (OutDefault h))) /\
      (forall h fs sep, ~ In 10 sep -> whole_lines (print_vendor_info r (OutParseable h fs sep)))).
Proof.
  intros Ha w m k Hm Hr Hs. destruct (vendor_rack a Ha w m k Hm Hr Hs) as (r & E & Ro).
  destruct (reads_out_reports m k vendor_of r Hm Ro) as (f & Rp & Ls & V). exists r, (told_ports m f).
  assert (Hv : forall i x, member i m -> f i = inl x -> exists mem, supported_kind (kind_of mem) = true /\ vendor_of mem x).
  { intros i x Hi Hf. destruct (V i x Hi Hf) as (mem & Hk & Hx). exists mem. split; [exact (Hs i mem Hi Hk)|exact Hx]. }
  split; [exact E|]. split; [exact Ls|]. destruct (vendor_table m f r Hm Rp Hv) as (T1 & T2). split; [exact T1|]. split; [exact T2|].
  intros Hn. apply (vendor_lines m f r Hm Rp Hv). intros i x g Hi Hf. apply Hn. unfold told_ports. apply in_flat_map. exists i.
  split; [|rewrite Hf; now left]. apply in_to_indices. split; [|now apply member_testbit].
  apply member_testbit in Hi. destruct (N.lt_ge_cases i 64) as [|H]; [assumption|]. rewrite (testbit_mod64 m i) in Hi; [discriminate|now apply mask_ok_lt|exact H].
Qed.
Lemma memory_print St (a : honest St) : honest_ok a -> forall (w : world St) m k,
  m < 2 ^ 64 -> reads_as a (w_sp w) (SpecQuery.shows k) ->
  all_modules m k (fun mem => supported_kind (kind_of mem) = true) ->
  all_modules m k (fun mem => ~ reserved_banks (kind_of mem) mem) ->
  exists r items out, snd (memory_model (honest_sp a) m w) = Ok r /\ rack_rows m k memory_model_of items /\
    (forall k, print_module_memory_model r k = Ok (out k)) /\
    columns [5]%nat [T "Port"; T "Model"] (fun i x => [port_shown i; model_shown x]) items (fun h => out (OutDefault h)) /\
    fields_split model_field_name model_value items (fun h fs sep => out (OutParseable h fs sep)) /\
    (forall i x f, In (i, x) items -> plain (model_value i x f)) /\
    (forall h, whole_lines (out (OutDefault h))) /\
    (forall h fs sep, ~ In 10 sep -> whole_lines (out (OutParseable h fs sep))).
Proof.
  intros Ha w m k Hm Hr Hs Hb. destruct (memory_rack a Ha w m k Hm Hr Hs Hb) as (r & E & Ro).
  destruct (reads_out_reports m k memory_model_of r Hm Ro) as (f & Rp & Ls & V). 
  assert (Hv : forall i x, member i m -> f i = inl x -> printable_model x).
  { intros i x Hi Hf. destruct (V i x Hi Hf) as (mem & _ & Hx). exact (models_printable mem x Hx). }
  destruct (model_table m f r Hm Rp Hv) as (out & O & T1 & T2 & T3 & T4 & T5). exists r, (told_ports m f), out.
  split; [exact E|]. split; [exact Ls|]. split; [exact O|]. split; [exact T1|]. split; [exact T2|]. split; [|now split].
  intros i x g Hin. apply T3. apply told_in in Hin as (_ & Hi & Hf). exact (Hv i x Hi Hf).
Qed.
(** Checking a concrete result. *)
Lemma reports_check {P} m (f : N -> P + TransceiverError) r : m < 2 ^ 64 -> raligned r ->
  Forall (fun i => rget r i = (if N.testbit m i then match f i with inl x => Some x | inr _ => None end else None) /\
                   rerr r i = (if N.testbit m i then match f i with inl _ => None | inr e => Some e end else None)) (nrange 0 64) ->
  reports m f r.
Proof.
  intros Hm Hr H. apply rrep_reports. split; [exact Hr|]. intros i. destruct (N.lt_ge_cases i 64) as [Hi|Hi].
  - rewrite Forall_forall in H. apply H. apply in_nrange. lia.
  - apply mask_ok_lt in Hm. rewrite testbit_mod64 by assumption. destruct Hr as [H1 H2]. split.
    + apply get_none; [exact H1|]. apply testbit_mod64; [apply H1|exact Hi].
    + apply get_none; [exact H2|]. apply testbit_mod64; [apply H2|exact Hi].
Qed.
