(** Proofs about code tables and text forms (C44, C45). *)
From Coq Require Import String.
From Verif Require Import CodeText SpecText Tac.
Import ListNotations.

Definition opt_benum_eqb (a b : option benum) : bool :=
  match a, b with
  | Some x, Some y => benum_eqb x y
  | None, None => true
  | _, _ => false
  end.
Lemma benum_eqb_eq a b : benum_eqb a b = true -> a = b.
Proof.
  destruct a as [c|i x], b as [d|j y]; cbn; try discriminate.
  - intros H. f_equal. lia.
  - intros H. apply andb_prop in H. destruct H as [H1 H2]. apply PeanoNat.Nat.eqb_eq in H1. f_equal; [assumption|lia].
Qed.

Definition table_ok (t : enum_table) (x : N) : bool :=
  match enum_from_u8 t x with
  | Some e => (enum_to_u8 e =? x) && opt_benum_eqb (enum_from_str t (enum_display t e)) (Some e)
  | None => false
  end.
Lemma tables_sweep : forallb (fun t => forallb (table_ok t) (nrange 0 256)) all_tables = true.
Proof. vm_compute. reflexivity. Qed.
Lemma tables_lossless t x : In t all_tables -> x < 256 ->
  exists e, enum_from_u8 t x = Some e /\ enum_to_u8 e = x /\
       enum_from_str t (enum_display t e) = Some e.
Proof.
  intros Ht Hx. pose proof tables_sweep as H. rewrite forallb_forall in H. specialize (H t Ht).
  rewrite forallb_forall in H. specialize (H x ltac:(apply in_nrange; lia)).
  unfold table_ok in H. destruct (enum_from_u8 t x) as [e|]; [|discriminate].
  exists e. split; [reflexivity|]. apply andb_prop in H. destruct H as [H1 H2]. split; [lia|].
  destruct (enum_from_str _ _) as [e'|]; [|discriminate]. f_equal. now apply benum_eqb_eq.
Qed.

Lemma dps_lossless x : x < 256 ->
  (x mod 8 = 0 -> dps_try_from x = Err DeInvalidBitField) /\
  (x mod 8 <> 0 -> exists s, dps_try_from x = Ok s /\ dps_to_u8 s = x mod 8 /\
     dps_from_str (dps_display s) = Some s).
Proof.
  intros Hx. unfold dps_try_from. change 7 with (N.ones 3). rewrite N.land_ones.
  change (2 ^ 3) with 8. pose proof (N.mod_lt x 8 ltac:(lia)) as Hm.
  generalize (x mod 8) Hm. clear x Hx Hm. intros m Hm.
  assert (Hc : m = 0 \/ m = 1 \/ m = 2 \/ m = 3 \/ m = 4 \/ m = 5 \/ m = 6 \/ m = 7) by lia.
  destruct Hc as [->|[->|[->|[->|[->|[->|[->| ->]]]]]]]; (split; intros H;
    [reflexivity || lia|]); try lia; eexists; (split; [reflexivity|]); split; reflexivity.
Qed.

Lemma eth_lossless x : lookup x eth_names <> None -> eth_from_str (eth_display x) = Some x.
Proof.
  unfold eth_display. destruct (lookup x eth_names) as [n|] eqn:E; [|congruence]. intros _.
  apply lookup_in in E. cbn [eth_names In] in E.
  repeat (destruct E as [E|E]; [injection E as <- <-; vm_compute; reflexivity|]). destruct E.
Qed.
Lemma eth_unknown_unparsed x : x < 256 -> lookup x eth_names = None ->
  eth_from_str (eth_display x) = None.
Proof.
  intros Hx Hl.
  assert (S : forallb (fun x => match lookup x eth_names with
                         | None => match eth_from_str (eth_display x) with None => true | _ => false end
                         | Some _ => true end) (nrange 0 256) = true) by (vm_compute; reflexivity).
  rewrite forallb_forall in S. specialize (S x ltac:(apply in_nrange; lia)). rewrite Hl in S.
  destruct (eth_from_str _); [discriminate|reflexivity].
Qed.

(** ** OUI *)
Lemma hex02_parse b : b < 256 -> parse_u8 16 (hex02 b) = Some b.
Proof.
  intros Hb.
  assert (S : forallb (fun b => match parse_u8 16 (hex02 b) with Some x => x =? b | None => false end)
                (nrange 0 256) = true) by (vm_compute; reflexivity).
  rewrite forallb_forall in S. specialize (S b ltac:(apply in_nrange; lia)).
  destruct (parse_u8 16 (hex02 b)) as [x|]; [f_equal; lia|discriminate].
Qed.
Lemma hex_digit_range d : d < 16 -> (48 <= hex_digit d <= 57 \/ 97 <= hex_digit d <= 102).
Proof. intros H. unfold hex_digit. destruct (d <? 10) eqn:E; lia. Qed.

Lemma oui_roundtrip o : oui0 o < 256 -> oui1 o < 256 -> oui2 o < 256 ->
  oui_from_str (oui_display o) = Ok o.
Proof.
  destruct o as [a b c]. cbn [oui0 oui1 oui2]. intros Ha Hb Hc. unfold oui_from_str, oui_display.
  cbn [oui0 oui1 oui2].
  pose proof (hex02_parse a Ha) as Pa. pose proof (hex02_parse b Hb) as Pb.
  pose proof (hex02_parse c Hc) as Pc. unfold hex02 in *.
  assert (R : forall x, x < 256 -> (48 <= hex_digit (x / 16) <= 57 \/ 97 <= hex_digit (x / 16) <= 102)
                          /\ (48 <= hex_digit (x mod 16) <= 57 \/ 97 <= hex_digit (x mod 16) <= 102)).
  { intros x Hx. split; apply hex_digit_range; [apply N.div_lt_upper_bound; lia|
      apply N.mod_lt; lia]. }
  destruct (R a Ha) as [Ra1 Ra2], (R b Hb) as [Rb1 Rb2], (R c Hc) as [Rc1 Rc2].
  revert Pa Pb Pc Ra1 Ra2 Rb1 Rb2 Rc1 Rc2.
  generalize (hex_digit (a / 16)) (hex_digit (a mod 16)) (hex_digit (b / 16)) (hex_digit (b mod 16))
    (hex_digit (c / 16)) (hex_digit (c mod 16)).
  intros a1 a2 b1 b2 c1 c2 Pa Pb Pc Ra1 Ra2 Rb1 Rb2 Rc1 Rc2.
  cbn [app].
  assert (L : str_len [a1; a2; 45; b1; b2; 45; c1; c2] = 8).
  { unfold str_len. cbn [fold_right]. unfold utf8_len.
    replace (a1 <? 128) with true by lia. replace (a2 <? 128) with true by lia.
    replace (b1 <? 128) with true by lia. replace (b2 <? 128) with true by lia.
    replace (c1 <? 128) with true by lia. replace (c2 <? 128) with true by lia. reflexivity. }
  rewrite L. change (8 <? 8) with false. cbv iota. cbn [splitn].
  replace (a1 =? 45) with false by lia. replace (a2 =? 45) with false by lia.
  replace (b1 =? 45) with false by lia. replace (b2 =? 45) with false by lia.
  change (45 =? 45) with true. cbv iota. cbn [rev app omapM]. rewrite Pa, Pb, Pc. reflexivity.
Qed.

Lemma parse_digits_val s : forall acc v, parse_digits 16 255 acc s = Some v ->
  exists ds, Forall2 (fun c d => to_digit 16 c = Some d) s ds /\
        v = fold_left (fun acc d => acc * 16 + d) ds acc.
Proof.
  induction s as [|c s IH]; intros acc v H; cbn [parse_digits] in H.
  - injection H as <-. exists []. split; [constructor|reflexivity].
  - destruct (to_digit 16 c) as [d|] eqn:E; [|discriminate].
    destruct (255 <? acc * 16 + d); [discriminate|]. apply IH in H. destruct H as (ds & H1 & H2).
    exists (d :: ds). split; [now constructor|exact H2].
Qed.
Lemma parse_u8_val s v : parse_u8 16 s = Some v -> hex_val s v \/ exists r, s = 43 :: r /\ hex_val r v.
Proof.
  unfold parse_u8, from_str_radix. destruct s as [|c [|c2 r]]; [discriminate| |].
  - destruct ((c =? 43) || (c =? 45)); [discriminate|]. intros H. left. split; [discriminate|].
    now apply parse_digits_val.
  - destruct (c =? 43) eqn:E; intros H.
    + right. exists (c2 :: r). split; [f_equal; lia|]. split; [discriminate|].
      now apply parse_digits_val.
    + left. split; [discriminate|]. now apply parse_digits_val.
Qed.

Lemma splitn_concat n : forall s ps, splitn n 45 s = ps -> n <> O -> join [45] ps = s /\ ps <> [].
Proof.
  induction n as [|n IH]; intros s ps H Hn; [congruence|]. destruct n as [|n].
  - cbn in H. subst. split; [reflexivity|discriminate].
  - subst. cbn [splitn].
    assert (G : forall s cur, let r := (fix go (cur s : text) :=
             match s with
             | [] => [rev cur]
             | x :: r => if x =? 45 then rev cur :: splitn (S n) 45 r else go (x :: cur) r
             end) cur s in join [45] r = rev cur ++ s /\ r <> []).
    { clear s. induction s as [|x s IHs]; intros cur; cbv zeta.
      - cbn [join]. rewrite app_nil_r. split; [reflexivity|discriminate].
      - destruct (x =? 45) eqn:E.
        + destruct (IH s _ eq_refl ltac:(discriminate)) as [J K]. split; [|discriminate].
          destruct (splitn (S n) 45 s) as [|p ps] eqn:Es; [congruence|].
          change (join [45] (rev cur :: p :: ps)) with (rev cur ++ [45] ++ join [45] (p :: ps)).
          rewrite J. assert (x = 45) by lia. now subst.
        + destruct (IHs (x :: cur)) as [J K]. split; [|exact K]. rewrite J. cbn [rev].
          now rewrite <- app_assoc. }
    exact (G s []).
Qed.

Lemma oui_parse_sound s o : oui_from_str s = Ok o ->
  exists a b c, s = a ++ [45] ++ b ++ [45] ++ c /\
    (forall p v, In (p, v) [(a, oui0 o); (b, oui1 o); (c, oui2 o)] ->
       hex_val p v \/ exists r, p = 43 :: r /\ hex_val r v).
Proof.
  unfold oui_from_str. destruct (8 <? str_len s); [discriminate|].
  destruct (splitn_concat 3 s _ eq_refl ltac:(discriminate)) as [J _].
  destruct (splitn 3 45 s) as [|a [|b [|c [|d l]]]]; cbn [omapM]; try discriminate.
  - destruct (parse_u8 16 a); discriminate.
  - destruct (parse_u8 16 a); [|discriminate]. cbn [obind]. destruct (parse_u8 16 b); discriminate.
  - destruct (parse_u8 16 a) as [x|] eqn:E1; [|discriminate]. cbn [obind].
    destruct (parse_u8 16 b) as [y|] eqn:E2; [|discriminate]. cbn [obind].
    destruct (parse_u8 16 c) as [z|] eqn:E3; [|discriminate]. cbn [obind].
    intros H. injection H as <-. exists a, b, c. split; [symmetry; exact J|]. cbn [oui0 oui1 oui2].
    intros p v [H|[H|[H|[]]]]; injection H as <- <-; now apply parse_u8_val.
  - destruct (parse_u8 16 a) as [x|] eqn:E1; [|discriminate]. cbn [obind].
    destruct (parse_u8 16 b) as [y|] eqn:E2; [|discriminate]. cbn [obind].
    destruct (parse_u8 16 c) as [z|] eqn:E3; [|discriminate]. cbn [obind].
    destruct (parse_u8 16 d) as [w|] eqn:E4; [|discriminate]. cbn [obind].
    destruct (omapM _ l); discriminate.
Qed.
