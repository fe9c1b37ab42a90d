(** Proofs about status flags as text (C54, C89): printing. *)
From Coq Require Import Lia String.
From Verif Require Import Tac SpecFlags FlagProofs CliProofs CliProofs3 CliProofs5 ControllerProofs6 ModuleIdProofs.
Import ListNotations.
Open Scope N_scope.

Lemma show_hex_ok fuel : forall v, show_hex fuel v = digits_of fuel 16 v.
Proof. induction fuel as [|k IH]; intros v; [reflexivity|]. cbn [show_hex digits_of]. now rewrite IH. Qed.

Lemma digits_numeral radix : 2 <= radix <= 36 -> forall fuel v, v < radix ^ N.of_nat (S fuel) -> radix <= 16 ->
  numeral radix (digits_of (S fuel) radix v) v.
Proof.
  intros Hr. induction fuel as [|fuel IH]; intros v Hv Hx.
  - assert (v < radix) by (change (radix ^ N.of_nat 1) with (radix * 1) in Hv; lia).
    cbn [digits_of]. destruct (N.ltb_spec v radix); [|lia]. rewrite N.mod_small by lia. exists [v].
    split; [discriminate|]. split; [repeat constructor; lia|]. split; [|cbn [fold_left]; lia]. constructor; [|constructor].
    unfold hex_digit, digit. destruct (N.ltb_spec v 10); lia.
  - change (digits_of (S (S fuel)) radix v) with ((if v <? radix then [] else digits_of (S fuel) radix (v / radix)) ++ [hex_digit (v mod radix)]).
    pose proof (N.mod_lt v radix ltac:(lia)) as L. pose proof (N.div_mod v radix ltac:(lia)) as D.
    assert (G : digit (hex_digit (v mod radix)) (v mod radix)) by (unfold hex_digit, digit; destruct (N.ltb_spec (v mod radix) 10); lia).
    destruct (N.ltb_spec v radix) as [Hs|Hs].
    + rewrite N.mod_small in * by lia. exists [v]. split; [discriminate|]. split; [repeat constructor; lia|].
      split; [constructor; [exact G|constructor]|cbn [fold_left]; lia].
    + rewrite Nat2N.inj_succ, N.pow_succ_r' in Hv.
      destruct (IH (v / radix)) as (ds & D1 & D2 & D3 & D4); [apply N.div_lt_upper_bound; lia|exact Hx|].
      exists (ds ++ [v mod radix]). split; [destruct ds; discriminate|]. split; [apply Forall_app; split; [exact D2|constructor; [exact L|constructor]]|].
      split; [apply Forall2_app; [exact D3|constructor; [exact G|constructor]]|]. rewrite fold_left_app. cbn [fold_left]. rewrite <- D4. lia.
Qed.

(** The bits without a name. *)
Lemma drop_bits l : forall v i, N.testbit (fold_left (fun r (f : text * N) => N.ldiff r (snd f)) l v) i =
  N.testbit v i && negb (existsb (fun f => N.testbit (snd f) i) l).
Proof.
  induction l as [|f l IH]; intros v i; cbn [fold_left existsb]; [now rewrite andb_true_r|].
  rewrite IH, N.ldiff_spec. destruct (N.testbit v i), (N.testbit (snd f) i); reflexivity.
Qed.
Lemma high_bits v n i : N.testbit (v / 2 ^ n * 2 ^ n) i = N.testbit v i && (n <=? i).
Proof.
  rewrite <- N.shiftr_div_pow2, <- N.shiftl_mul_pow2. destruct (N.leb_spec n i) as [H|H].
  - rewrite N.shiftl_spec_high', N.shiftr_spec' by exact H. rewrite andb_true_r. f_equal. lia.
  - rewrite N.shiftl_spec_low by exact H. now rewrite andb_false_r.
Qed.
Lemma rest_ok n v :
  fold_left (fun r (f : text * N) => N.ldiff r (snd f)) (filter (fun f => st_contains v (snd f)) (bit_table n)) v =
  v / 2 ^ N.of_nat n * 2 ^ N.of_nat n.
Proof.
  apply N.bits_inj. intros i. rewrite drop_bits, high_bits. destruct (N.testbit v i) eqn:E; [|reflexivity]. cbn [andb].
  apply eq_true_iff_eq. rewrite negb_true_iff, <- not_true_iff_false, existsb_exists, N.leb_le. split.
  - intros H. destruct (N.le_gt_cases (N.of_nat n) i) as [|L]; [assumption|]. exfalso. apply H.
    exists (T (nth (N.to_nat i) bit_names ""%string), 2 ^ i). cbn [snd]. rewrite filter_In. cbn [snd]. rewrite contains_pow2.
    split; [split; [|exact E]|apply N.pow2_bits_true]. unfold bit_table. apply in_map_iff. exists (N.to_nat i).
    rewrite N2Nat.id. split; [reflexivity|apply in_seq; lia].
  - intros L (f & Hf & Hb). apply filter_In in Hf as [Hf _]. unfold bit_table in Hf. apply in_map_iff in Hf as (k & <- & Hk).
    apply in_seq in Hk. cbn [snd] in Hb. rewrite N.pow2_bits_eqb, N.eqb_eq in Hb. lia.
Qed.
Lemma named_ok n v : map fst (filter (fun f => st_contains v (snd f)) (bit_table n)) =
  flat_map (fun k => if N.testbit v (N.of_nat k) then [T (nth k bit_names ""%string)] else []) (seq 0 n).
Proof.
  unfold bit_table. induction (seq 0 n) as [|k l IH]; [reflexivity|]. cbn [map filter snd flat_map].
  rewrite contains_pow2. destruct (N.testbit v (N.of_nat k)); cbn [map fst app]; now rewrite IH.
Qed.
Lemma print_ok n v : flags_print (bit_table n) v = flags_shown n v.
Proof.
  unfold flags_print, flags_shown. cbv zeta. rewrite named_ok, rest_ok, show_hex_ok.
  assert (P : 2 ^ N.of_nat n <> 0) by (apply N.pow_nonzero; lia).
  replace (v / 2 ^ N.of_nat n * 2 ^ N.of_nat n =? 0) with (v / 2 ^ N.of_nat n =? 0); [reflexivity|].
  apply eq_true_iff_eq. rewrite !N.eqb_eq, N.mul_eq_0. intuition.
Qed.
Lemma status_shown v : status_display v = flags_shown 8 v.
Proof. unfold status_display. rewrite status_table. apply print_ok. Qed.
Lemma ext_status_shown v : ext_status_display v = flags_shown 9 v.
Proof. unfold ext_status_display. rewrite ext_status_table. apply print_ok. Qed.

(** What is printed reads back. *)
Lemma bars l : l <> [] -> forall pre, white pre -> exists parts, parts <> [] /\ pre ++ join (T " | ") l = join [124] parts /\
  Forall2 (fun t u => exists a b, t = a ++ u ++ b /\ white a /\ white b) parts l.
Proof.
  induction l as [|u l IH]; intros Hl pre Hp; [congruence|]. destruct l as [|u' l].
  - exists [pre ++ u]. split; [discriminate|]. split; [reflexivity|]. repeat constructor. exists pre, [].
    rewrite app_nil_r. split; [reflexivity|]. split; [exact Hp|constructor].
  - destruct (IH ltac:(discriminate) [32]) as (parts & P1 & P2 & P3); [repeat constructor|].
    exists ((pre ++ u ++ [32]) :: parts). split; [discriminate|]. split.
    + replace (join [124] ((pre ++ u ++ [32]) :: parts)) with ((pre ++ u ++ [32]) ++ [124] ++ join [124] parts)
        by (destruct parts; [congruence|reflexivity]). rewrite <- P2. change (join (T " | ") (u :: u' :: l)) with (u ++ T " | " ++ join (T " | ") (u' :: l)).
      rewrite <- !app_assoc. reflexivity.
    + constructor; [|exact P3]. exists pre, [32]. split; [reflexivity|]. split; [exact Hp|repeat constructor].
Qed.
Lemma shown_reads n width v : (n <= 9)%nat -> v < 2 ^ width -> v < 2 ^ 32 -> flag_text n width (flags_shown n v) v.
Proof.
  intros Hn Hv H32. destruct (N.eq_dec v 0) as [->|Hz].
  { left. split; [|reflexivity]. unfold flags_shown. rewrite N.div_0_l by (apply N.pow_nonzero; lia). rewrite N.eqb_refl, app_nil_r.
    replace (flat_map _ _) with (@nil text); [constructor|]. induction (seq 0 n); [reflexivity|]. cbn [flat_map]. rewrite N.bits_0. exact IHl. }
  set (P := 2 ^ N.of_nat n) in *. assert (HP : P <> 0) by (apply N.pow_nonzero; lia).
  set (rest := v / P * P). assert (Lr : rest <= v) by (unfold rest; rewrite N.mul_comm; apply N.mul_div_le; exact HP).
  set (vs := flat_map (fun k => if N.testbit v (N.of_nat k) then [2 ^ N.of_nat k] else []) (seq 0 n) ++ (if v / P =? 0 then [] else [rest])).
  set (ws := flat_map (fun k => if N.testbit v (N.of_nat k) then [T (nth k bit_names ""%string)] else []) (seq 0 n) ++
     (if v / P =? 0 then [] else [T "0x" ++ digits_of 8 16 rest])).
  assert (W : Forall2 (flag_word n width) ws vs).
  { apply Forall2_app.
    - assert (B : forall k, In k (seq 0 n) -> (k < n)%nat) by (intros k Hk; apply in_seq in Hk; lia). revert B.
      generalize (seq 0 n) as l. intros l. induction l as [|k l IH]; intros B; [constructor|]. cbn [flat_map].
      destruct (N.testbit v (N.of_nat k)); [|apply IH; intros; apply B; now right]. cbn [app]. constructor; [|apply IH; intros; apply B; now right].
      left. specialize (B k ltac:(now left)). exists k, (nth k bit_names ""%string). split; [exact B|]. split; [apply nth_error_nth'; cbn; lia|auto].
    - destruct (v / P =? 0); constructor; [|constructor]. right. split; [lia|]. exists (digits_of 8 16 rest). split; [now left|].
      apply (digits_numeral 16); [lia| |lia]. change (16 ^ N.of_nat 8) with (2 ^ 32). lia. }
  assert (B : forall i, N.testbit v i = true <-> exists x, In x vs /\ N.testbit x i = true).
  { intros i. unfold vs. split.
    - intros H. destruct (N.le_gt_cases (N.of_nat n) i) as [L|L].
      + exists rest. assert (R : N.testbit rest i = true) by (unfold rest, P; rewrite high_bits, H; apply N.leb_le, L).
        split; [|exact R]. apply in_or_app. right. destruct (N.eqb_spec (v / P) 0) as [E|E]; [|now left].
        unfold rest in R. rewrite E, N.mul_0_l, N.bits_0 in R. discriminate.
      + exists (2 ^ i). split; [|apply N.pow2_bits_true]. apply in_or_app. left. apply in_flat_map. exists (N.to_nat i).
        split; [apply in_seq; lia|]. rewrite N2Nat.id, H. now left.
    - intros (x & Hx & E). apply in_app_or in Hx. destruct Hx as [Hx|Hx].
      + apply in_flat_map in Hx as (k & _ & Hx). destruct (N.testbit v (N.of_nat k)) eqn:Ek; [|easy]. destruct Hx as [<-|[]].
        rewrite N.pow2_bits_eqb, N.eqb_eq in E. now subst i.
      + destruct (v / P =? 0); [easy|]. destruct Hx as [<-|[]]. unfold rest, P in E. rewrite high_bits in E. now apply andb_true_iff in E. }
  assert (B' : forall i, member i v <-> exists x, In x vs /\ member i x) by (intros i; rewrite member_testbit; setoid_rewrite member_testbit; apply B).
  right. destruct (bars ws) with (pre := @nil N) as (parts & P1 & P2 & P3).
  - intros E. clearbody ws vs. subst ws. inversion W; subst vs. apply Hz, N.bits_inj. intros i. rewrite N.bits_0.
    apply not_true_iff_false. intros X. apply B in X as (x & [] & _).
  - constructor.
  - exists parts, vs. split; [exact P1|]. split; [exact P2|]. split; [|exact B'].
    clearbody ws vs. clear -P3 W. revert vs W. induction P3 as [|t u parts l (a & b & -> & Ha & Hb) P3 IH]; intros vs W; inversion W; subst; [constructor|constructor; [|now apply IH]].
    exists a, u, b. auto.
Qed.
Lemma status_roundtrip v : v < 2 ^ 8 -> status_from_str (status_display v) = Some v.
Proof. intros H. apply status_text. rewrite status_shown. apply shown_reads; [lia|exact H|]. change (2 ^ 32) with 4294967296. change (2 ^ 8) with 256 in H. lia. Qed.
Lemma ext_status_roundtrip v : v < 2 ^ 32 -> ext_status_from_str (ext_status_display v) = Some v.
Proof. intros H. apply ext_status_text. rewrite ext_status_shown. apply shown_reads; [lia|exact H|exact H]. Qed.

(** The title of the table of flags looked for. *)
Lemma title_ok w x : w < 2 ^ 32 -> x < 2 ^ 32 -> (w <> 0 \/ x <> 0) -> exists a b,
  flag_text 9 32 a w /\ flag_text 9 32 b x /\
  limited_title w x = Ok (if x =? 0 then a else if w =? 0 then T "!(" ++ b ++ T ")" else a ++ T " && !(" ++ b ++ T ")").
Proof.
  intros Hw Hx Hz. exists (ext_status_display w), (ext_status_display x).
  split; [apply ext_status_text, ext_status_roundtrip, Hw|]. split; [apply ext_status_text, ext_status_roundtrip, Hx|].
  unfold limited_title. destruct (N.eqb_spec w 0), (N.eqb_spec x 0); try reflexivity. lia.
Qed.
(** Bits without a name are never there. *)
Lemma strange_bits w x s i : s < 2 ^ 9 -> 9 <= i ->
  (member i w -> limited_test w x s = false) /\
  (member i x -> limited_test w x s = true <-> (w = 0 \/ has_all s w)).
Proof.
  intros Hs Hi. rewrite !member_testbit. assert (Z : N.testbit s i = false).
  { destruct (N.eq_dec s 0) as [->|]; [apply N.bits_0|]. apply N.bits_above_log2. apply N.log2_lt_pow2; [lia|].
    eapply N.lt_le_trans; [exact Hs|]. apply N.pow_le_mono_r; lia. }
  assert (K : forall f, N.testbit f i = true -> st_contains s f = false).
  { intros f Hf. apply not_true_iff_false. intros E. apply contains_has in E. apply member_testbit, E, member_testbit in Hf. congruence. }
  assert (NZ : forall f, N.testbit f i = true -> f <> 0) by (intros f Hf ->; rewrite N.bits_0 in Hf; discriminate).
  unfold limited_test. rewrite <- contains_has. split; intros H; pose proof (K _ H) as E; pose proof (NZ _ H) as F.
  - destruct (N.eqb_spec w 0); [congruence|]. rewrite E. now destruct (x =? 0).
  - destruct (N.eqb_spec x 0); [congruence|]. rewrite E. destruct (N.eqb_spec w 0); cbn [negb]; [tauto|]. rewrite andb_true_r. intuition.
Qed.
Lemma both_shown v : status_display v = flags_shown 8 v /\ ext_status_display v = flags_shown 9 v.
Proof. split; [apply status_shown|apply ext_status_shown]. Qed.
