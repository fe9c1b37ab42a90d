(** Proofs for C73. *)
From Coq Require Import String.
From Verif Require Import SpecError Tac CodeTextProofs TableProofs2.
Import ListNotations.

(** ** Texts split at the first character of a kind *)
Definition digit (c : N) : Prop := 48 <= c <= 57.
Definition block_ (c : N) : Prop := c <> 32.
Lemma split_at (P : N -> Prop) : forall s s' c c' r r',
  Forall P s -> Forall P s' -> ~ P c -> ~ P c' ->
  s ++ c :: r = s' ++ c' :: r' -> s = s' /\ c :: r = c' :: r'.
Proof.
  induction s as [|x s IH]; intros [|y s'] c c' r r' Hs Hs' Hc Hc' E; cbn in E.
  - now split.
  - injection E as -> _. inversion Hs'. contradiction.
  - injection E as -> _. inversion Hs. contradiction.
  - injection E as -> E. inversion Hs; inversion Hs'; subst.
    destruct (IH s' c c' r r' ltac:(assumption) ltac:(assumption) Hc Hc' E) as [-> E2]. now split.
Qed.

Definition value (s : text) : N := fold_left (fun v c => 10 * v + (c - 48)) s 0.
Lemma value_snoc s c : value (s ++ [c]) = 10 * value s + (c - 48).
Proof. unfold value. now rewrite fold_left_app. Qed.
Lemma dec_value fuel : forall n, n < 10 ^ N.of_nat fuel -> value (show_dec fuel n) = n.
Proof.
  induction fuel as [|k IH]; intros n Hn. { cbn in Hn. cbn. lia. }
  cbn [show_dec]. rewrite value_snoc.
  replace (48 + n mod 10 - 48) with (n mod 10) by lia.
  destruct (N.ltb_spec n 10).
  - cbn. rewrite N.mod_small by lia. reflexivity.
  - rewrite IH. { symmetry. apply N.div_mod. lia. }
    rewrite Nnat.Nat2N.inj_succ, N.pow_succ_r' in Hn. apply N.div_lt_upper_bound; lia.
Qed.
Lemma dec_digits_only fuel : forall n, Forall digit (show_dec fuel n).
Proof.
  induction fuel as [|k IH]; intros n; [constructor|]. cbn [show_dec]. apply Forall_app. split.
  - destruct (n <? 10); [constructor|apply IH].
  - constructor; [|constructor]. unfold digit. pose proof (N.mod_lt n 10 ltac:(lia)). lia.
Qed.
Lemma u8_dec n : n < 256 -> show_u8 n = show_dec 3 n.
Proof.
  intros H. assert (S : forallb (fun n => if list_eq_dec N.eq_dec (show_u8 n) (show_dec 3 n) then true else false) (nrange 0 256) = true)
    by (vm_compute; reflexivity).
  rewrite forallb_forall in S. specialize (S n ltac:(apply in_nrange; lia)). now destruct (list_eq_dec _ _ _).
Qed.
Lemma dec_inj fuel a b : a < 10 ^ N.of_nat fuel -> b < 10 ^ N.of_nat fuel -> show_dec fuel a = show_dec fuel b -> a = b.
Proof. intros Ha Hb E. rewrite <- (dec_value fuel a Ha), <- (dec_value fuel b Hb). now rewrite E. Qed.
Lemma dec_app fuel a b c r c' r' : a < 10 ^ N.of_nat fuel -> b < 10 ^ N.of_nat fuel -> ~ digit c -> ~ digit c' ->
  show_dec fuel a ++ c :: r = show_dec fuel b ++ c' :: r' -> a = b /\ c :: r = c' :: r'.
Proof.
  intros Ha Hb Hc Hc' E. apply (split_at digit) in E; try assumption; try apply dec_digits_only.
  destruct E as [E E']. split; [|exact E']. revert E. now apply dec_inj.
Qed.
Lemma u8_inj a b : a < 256 -> b < 256 -> show_u8 a = show_u8 b -> a = b.
Proof. intros Ha Hb. rewrite !u8_dec by assumption. apply dec_inj; cbn; lia. Qed.
Lemma u8_app a b c r c' r' : a < 256 -> b < 256 -> ~ digit c -> ~ digit c' ->
  show_u8 a ++ c :: r = show_u8 b ++ c' :: r' -> a = b /\ c :: r = c' :: r'.
Proof. intros Ha Hb. rewrite !u8_dec by assumption. apply dec_app; cbn; lia. Qed.
Lemma hex_inj a b r r' : a < 256 -> b < 256 -> hex02 a ++ r = hex02 b ++ r' -> a = b /\ r = r'.
Proof.
  intros Ha Hb E. assert (E1 : hex02 a = hex02 b /\ r = r').
  { unfold hex02 in *. cbn [app] in E. injection E as -> -> ->. now split. }
  destruct E1 as [E1 ->]. split; [|reflexivity]. pose proof (hex02_parse a Ha) as P. rewrite E1, (hex02_parse b Hb) in P.
  congruence.
Qed.

(** ** Names of identifiers and hardware errors read back *)
Definition text_is (a b : text) : bool := if list_eq_dec N.eq_dec a b then true else false.
Fixpoint after (c : N) (s : text) : option text :=
  match s with [] => None | x :: r => if x =? c then Some r else after c r end.
Definition leading (s : text) : text := fold_right (fun c a => if (48 <=? c) && (c <=? 57) then c :: a else []) [] s.
Definition debug_code (s : text) : N :=
  match after 40 s with
  | Some r => value (leading r)
  | None => match find (fun p => text_is (snd p) s) identifier_names with Some p => fst p | None => 256 end
  end.
Definition meaning_code (s : text) : N :=
  match find (fun p => text_is (snd p) s) meanings with
  | Some p => fst p
  | None => match after 48 s with
            | Some (_ :: h) => match parse_u8 16 (firstn 2 h) with Some b => b | None => 256 end
            | _ => 256
            end
  end.
Lemma debug_read b : b < 256 -> debug_code (identifier_debug (ident_of_byte b)) = b /\ Forall block_ (identifier_debug (ident_of_byte b)).
Proof.
  intros H.
  assert (S : forallb (fun b => (debug_code (identifier_debug (ident_of_byte b)) =? b) &&
                forallb (fun c => negb (c =? 32)) (identifier_debug (ident_of_byte b))) (nrange 0 256) = true)
    by (vm_compute; reflexivity).
  rewrite forallb_forall in S. specialize (S b ltac:(apply in_nrange; lia)). rewrite andb_true_iff in S.
  destruct S as [S1 S2]. split; [lia|]. apply Forall_forall. intros c Hc. rewrite forallb_forall in S2.
  specialize (S2 c Hc). unfold block_. lia.
Qed.
Lemma meaning_read b : b < 256 -> meaning_code (meaning b) = b.
Proof.
  intros H.
  assert (S : forallb (fun b => meaning_code (meaning b) =? b) (nrange 0 256) = true) by (vm_compute; reflexivity).
  rewrite forallb_forall in S. specialize (S b ltac:(apply in_nrange; lia)). lia.
Qed.
Lemma meaning_of_code b : b < 256 ->
  hw_display (fst (decode_hw_error b)) ++ unknown_display (snd (decode_hw_error b)) = meaning b.
Proof.
  intros H.
  assert (S : forallb (fun b => text_is (hw_display (fst (decode_hw_error b)) ++ unknown_display (snd (decode_hw_error b))) (meaning b)) (nrange 0 256) = true)
    by (vm_compute; reflexivity).
  rewrite forallb_forall in S. specialize (S b ltac:(apply in_nrange; lia)). unfold text_is in S. now destruct (list_eq_dec _ _ _).
Qed.
Lemma hardware_told i b : i < 256 -> b < 256 -> te_display (hw_fault i b) = hardware_text i b.
Proof.
  intros Hi Hb. unfold hw_fault, hardware_text. cbn [te_display]. rewrite meaning_of_code by assumption.
  now rewrite number_u8.
Qed.
Lemma ident_shown_inj i j : fit_identifier i -> fit_identifier j ->
  enum_display tbl_Identifier i = enum_display tbl_Identifier j -> i = j.
Proof.
  intros (a & Ha & ->) (b & Hb & ->) E.
  assert (In tbl_Identifier all_tables) as T by (left; reflexivity).
  unfold ident_of_byte in *.
  destruct (tables_lossless _ a T Ha) as (x & Ea & _ & Ra). destruct (tables_lossless _ b T Hb) as (y & Eb & _ & Rb).
  rewrite Ea, Eb in *. rewrite E in Ra. congruence.
Qed.
Lemma ident_debug_app i j r r' : fit_identifier i -> fit_identifier j ->
  identifier_debug i ++ 32 :: r = identifier_debug j ++ 32 :: r' -> i = j /\ r = r'.
Proof.
  intros (a & Ha & ->) (b & Hb & ->) E. destruct (debug_read a Ha) as [Ra Fa]. destruct (debug_read b Hb) as [Rb Fb].
  apply (split_at block_) in E; try assumption; try (unfold block_; lia). destruct E as [E E2]. split; [|congruence].
  rewrite <- Ra, <- Rb, E. reflexivity.
Qed.
Lemma interface_inj i j : fit_interface i -> fit_interface j -> interface_debug i = interface_debug j -> i = j.
Proof.
  destruct i as [| |x], j as [| |y]; cbn [interface_debug fit_interface]; intros Hx Hy E; try reflexivity; try discriminate.
  apply app_inv_head in E. change (T ")") with [41] in E. apply u8_app in E; try assumption; try (unfold digit; lia).
  destruct E as [-> _]. reflexivity.
Qed.

(** ** Texts tell errors apart *)
Lemma tail_eq {A} (c c' : A) r r' : c :: r = c' :: r' -> r = r'.
Proof. congruence. Qed.
Ltac nodig := unfold digit; cbn; lia.
Lemma mgmt_inj e f : fit_mgmt e -> fit_mgmt f -> mgmt_display e = mgmt_display f -> e = f.
Proof.
  destruct e, f; cbn [mgmt_display fit_mgmt]; intros He Hf E; try discriminate;
    try (apply app_inv_head in E; rewrite <- (app_nil_r (hex02 _)) in E at 1; rewrite <- (app_nil_r (hex02 _)) in E;
         apply hex_inj in E; [|assumption..]; destruct E as [-> _]; reflexivity).
  - apply app_inv_head in E. destruct He, Hf. apply hex_inj in E; [|assumption..]. destruct E as [-> E].
    apply app_inv_head in E. rewrite <- (app_nil_r (hex02 len)), <- (app_nil_r (hex02 len0)) in E.
    apply hex_inj in E; [|assumption..]. destruct E as [-> _]. reflexivity.
  - apply app_inv_head in E. destruct He, Hf.
    change (T " bytes too large for management interface ") with (32 :: T "bytes too large for management interface ") in E.
    cbn [app] in E. apply u8_app in E; [|assumption|assumption|nodig..]. destruct E as [-> E].
    apply tail_eq in E. apply app_inv_head in E. apply interface_inj in E; [|assumption..]. now subst.
Qed.
Lemma decode_inj e f : fit_decode e -> fit_decode f -> decode_display e = decode_display f ->
  e = f \/ exists m n, e = DeManagement m /\ f = DeManagement n.
Proof.
  destruct e, f; cbn [decode_display fit_decode]; intros He Hf E; try discriminate; try (left; reflexivity).
  - left. apply app_inv_head in E. apply app_inj_tail in E. destruct E as [E _]. f_equal. now apply ident_shown_inj.
  - right. eauto.
Qed.
Lemma port_inj e f : (let '(mkInvalidPort i) := e in i < 256) -> (let '(mkInvalidPort i) := f in i < 256) ->
  port_display e = port_display f -> e = f.
Proof.
  destruct e as [i], f as [j]; cbn [port_display]. intros Hi Hj E. apply app_inv_head in E. apply u8_inj in E; [|assumption..]. now subst.
Qed.
Lemma module_inj e f : fit_module e -> fit_module f -> te_display e = te_display f -> e = f \/ same_management e f.
Proof.
  destruct e, f; cbn [te_display fit_module]; intros He Hf E; try discriminate.
  - left. destruct He as (Hi & b & Hb & Eb), Hf as (Hi' & b' & Hb' & Eb').
    apply app_inv_head in E. change (T ": ") with [58; 32] in E. cbn [app] in E.
    apply u8_app in E; [|assumption|assumption|nodig..]. destruct E as [-> E]. do 2 apply tail_eq in E.
    pose proof (meaning_of_code b Hb) as M. pose proof (meaning_of_code b' Hb') as M'. rewrite <- Eb in M. rewrite <- Eb' in M'.
    cbn [fst snd] in M, M'. rewrite M, M' in E.
    assert (b = b') by (rewrite <- (meaning_read b Hb), <- (meaning_read b' Hb'), E; reflexivity). subst. congruence.
  - apply app_inv_head in E. destruct (decode_inj _ _ He Hf E) as [->|(m & n & -> & ->)]; [now left|right]. unfold same_management. eauto.
  - left. apply app_inv_head in E. f_equal. now apply mgmt_inj.
  - left. apply app_inv_head in E. f_equal. now apply port_inj.
  - left. destruct He as (Hi & Hk & Hf'), Hf as (Hi2 & Hk2 & Hf2). apply app_inv_head in E.
    change (T " with identifier ") with (32 :: T "with identifier ") in E. cbn [app] in E.
    apply u8_app in E; [|assumption|assumption|nodig..]. destruct E as [-> E]. apply tail_eq in E.
    apply app_inv_head in E.
    change (T " does not use the specified management interface ") with (32 :: T "does not use the specified management interface ") in E.
    cbn [app] in E. apply ident_debug_app in E; [|assumption..]. destruct E as [-> E]. apply app_inv_head in E.
    apply interface_inj in E; [|assumption..]. now subst.
Qed.
Lemma protocol_inj e f : fit_protocol e -> fit_protocol f -> protocol_display e = protocol_display f -> e = f.
Proof.
  assert (P32 : forall x, x < 2 ^ 32 -> x < 10 ^ N.of_nat 10) by (intros x Hx; eapply N.lt_trans; [exact Hx|reflexivity]).
  destruct e, f; cbn [protocol_display fit_protocol]; intros He Hf E; try reflexivity; try discriminate;
    destruct He as [A B], Hf as [A' B']; apply app_inv_head in E.
  - change (T " actual=") with (32 :: T "actual=") in E. cbn [app] in E.
    apply dec_app in E; [|now apply P32|now apply P32|nodig..]. destruct E as [-> E]. apply tail_eq in E. apply app_inv_head in E.
    apply dec_inj in E; [|now apply P32..]. now subst.
  - change (T ", actual=") with (44 :: T " actual=") in E. cbn [app] in E.
    apply u8_app in E; [|assumption|assumption|nodig..]. destruct E as [-> E]. apply tail_eq in E. apply app_inv_head in E.
    apply u8_inj in E; [|assumption..]. now subst.
Qed.
Lemma range_inj e f : fit_range e -> fit_range f -> range_display e = range_display f -> e = f.
Proof.
  destruct e as [r b c s], f as [r' b' c' s']. unfold fit_range, fit_mac, range_display. cbn [br_base br_count br_stride br_reason].
  destruct b as [b0 b1 b2 b3 b4 b5], b' as [d0 d1 d2 d3 d4 d5]. cbn [mac0 mac1 mac2 mac3 mac4 mac5].
  intros ((A0 & A1 & A2 & A3 & A4 & A5) & A6 & A7) ((B0 & B1 & B2 & B3 & B4 & B5) & B6 & B7) E.
  assert (P16 : forall x, x < 2 ^ 16 -> x < 10 ^ N.of_nat 5) by (intros x Hx; eapply N.lt_trans; [exact Hx|reflexivity]).
  apply app_inv_head in E.
  assert (r = r') as <- by (destruct r, r'; cbn [reason_debug] in E; try reflexivity; discriminate).
  apply app_inv_head in E. apply app_inv_head in E. unfold bytes_debug in E. rewrite <- !app_assoc in E. apply app_inv_head in E.
  cbn [map join] in E. rewrite <- !app_assoc in E.
  repeat match type of E with context [T ", " ++ ?x] => change (T ", " ++ x) with (44 :: [32] ++ x) in E end.
  change (T "]") with [93] in E. cbn [app] in E.
  do 5 (apply u8_app in E; [|assumption|assumption|nodig..]; destruct E as [-> E]; do 2 apply tail_eq in E).
  apply u8_app in E; [|assumption|assumption|nodig..]; destruct E as [-> E]; apply tail_eq in E.
  apply app_inv_head in E. change (T ", stride: ") with (44 :: T " stride: ") in E. cbn [app] in E.
  apply dec_app in E; [|now apply P16|now apply P16|nodig..]. destruct E as [-> E]. apply tail_eq in E.
  apply app_inv_head in E. apply u8_inj in E; [|assumption..]. now subst.
Qed.
(** ** Texts of message bodies, each followed by anything *)
Definition hexit (c : N) : Prop := 48 <= c <= 57 \/ 97 <= c <= 102.
Definition hex_value (s : text) : N :=
  fold_left (fun v c => 16 * v + (if c <? 58 then c - 48 else c - 87)) s 0.
Lemma hex_value_snoc s c : hex_value (s ++ [c]) = 16 * hex_value s + (if c <? 58 then c - 48 else c - 87).
Proof. unfold hex_value. now rewrite fold_left_app. Qed.
Lemma hex_shown_value fuel : forall n, n < 16 ^ N.of_nat fuel -> hex_value (show_hex fuel n) = n.
Proof.
  induction fuel as [|k IH]; intros n Hn. { cbn in Hn. cbn. lia. }
  cbn [show_hex]. rewrite hex_value_snoc.
  assert (D : forall d, d < 16 -> (if hex_digit d <? 58 then hex_digit d - 48 else hex_digit d - 87) = d).
  { intros d Hd. unfold hex_digit. destruct (N.ltb_spec d 10);
      match goal with |- context [?x <? 58] => destruct (N.ltb_spec x 58) end; lia. }
  rewrite D by (apply N.mod_lt; lia).
  destruct (N.ltb_spec n 16).
  - cbn. rewrite N.mod_small by lia. reflexivity.
  - rewrite IH. { symmetry. apply N.div_mod. lia. }
    rewrite Nnat.Nat2N.inj_succ, N.pow_succ_r' in Hn. apply N.div_lt_upper_bound; lia.
Qed.
Lemma hex_only fuel : forall n, Forall hexit (show_hex fuel n).
Proof.
  induction fuel as [|k IH]; intros n; [constructor|]. cbn [show_hex]. apply Forall_app. split.
  - destruct (n <? 16); [constructor|apply IH].
  - constructor; [|constructor]. apply hex_digit_range. apply N.mod_lt. lia.
Qed.
Lemma modules_app a b r s : fit_modules a -> fit_modules b -> modules_debug a ++ r = modules_debug b ++ s -> a = b /\ r = s.
Proof.
  unfold fit_modules, modules_debug. intros Ha Hb E. rewrite <- !app_assoc in E. apply app_inv_head in E.
  change (T ")") with [41] in E. cbn [app] in E.
  apply (split_at hexit) in E; try apply hex_only; try (unfold hexit; lia). destruct E as [E1 E2].
  apply tail_eq in E2. split; [|exact E2]. rewrite <- (hex_shown_value 16 a Ha), <- (hex_shown_value 16 b Hb). now rewrite E1.
Qed.
Ltac after E := rewrite <- ?app_assoc in E; apply app_inv_head in E.
Lemma u8_then a b t c r s : a < 256 -> b < 256 -> hd 48 (T t) = c -> ~ digit c ->
  show_u8 a ++ T t ++ r = show_u8 b ++ T t ++ s -> a = b /\ r = s.
Proof.
  intros Ha Hb Hc N. destruct (T t) as [|c' t'] eqn:Et; cbn [hd] in Hc; subst c.
  - exfalso. apply N. unfold digit. lia.
  - cbn [app]. intros E. apply u8_app in E; [|assumption..]. destruct E as [-> E]. split; [reflexivity|].
    apply tail_eq in E. now apply app_inv_head in E.
Qed.
Lemma dec_then fuel a b t c r s : a < 10 ^ N.of_nat fuel -> b < 10 ^ N.of_nat fuel -> hd 48 (T t) = c -> ~ digit c ->
  show_dec fuel a ++ T t ++ r = show_dec fuel b ++ T t ++ s -> a = b /\ r = s.
Proof.
  intros Ha Hb Hc N. destruct (T t) as [|c' t'] eqn:Et; cbn [hd] in Hc; subst c.
  - exfalso. apply N. unfold digit. lia.
  - cbn [app]. intros E. apply dec_app in E; [|assumption..]. destruct E as [-> E]. split; [reflexivity|].
    apply tail_eq in E. now apply app_inv_head in E.
Qed.
Ltac num8 E := eapply u8_then in E; [|assumption|assumption|reflexivity|nodig]; destruct E as [-> E].
Ltac num E F := eapply dec_then in E; [|now apply F|now apply F|reflexivity|nodig]; destruct E as [-> E].
Lemma sff_page_app p q r s : fit_page (PageSff p) -> fit_page (PageSff q) -> sff_page_debug p ++ r = sff_page_debug q ++ s -> p = q /\ r = s.
Proof.
  destruct p as [|p], q as [|q]; cbn [fit_page sff_page_debug]; intros Hp Hq E; try discriminate.
  - after E. now split.
  - after E. num8 E. now split.
Qed.
Lemma bank_app p q r s : match p with Some b => b < 256 | None => True end -> match q with Some b => b < 256 | None => True end ->
  bank_debug p ++ r = bank_debug q ++ s -> p = q /\ r = s.
Proof.
  destruct p as [p|], q as [q|]; cbn [bank_debug]; intros Hp Hq E; try discriminate.
  - after E. num8 E. now split.
  - after E. now split.
Qed.
Lemma cmis_page_app p q r s : fit_page (PageCmis p) -> fit_page (PageCmis q) -> cmis_page_debug p ++ r = cmis_page_debug q ++ s -> p = q /\ r = s.
Proof.
  destruct p as [|[pb p]], q as [|[qb q]]; cbn [fit_page cmis_page_debug cu_bank cu_page]; intros Hp Hq E; try discriminate.
  - after E. now split.
  - destruct Hp as [Hp Hp'], Hq as [Hq Hq']. after E. apply bank_app in E; [|assumption..]. destruct E as [-> E].
    after E. num8 E. now split.
Qed.
Lemma page_app p q r s : fit_page p -> fit_page q -> page_debug p ++ r = page_debug q ++ s -> p = q /\ r = s.
Proof.
  destruct p as [p|p], q as [q|q]; cbn [page_debug]; intros Hp Hq E; try discriminate; after E.
  - apply sff_page_app in E; [|assumption..]. destruct E as [-> E]. apply app_inv_head in E. now split.
  - apply cmis_page_app in E; [|assumption..]. destruct E as [-> E]. apply app_inv_head in E. now split.
Qed.
Lemma read_app p q r s : fit_read p -> fit_read q -> read_debug p ++ r = read_debug q ++ s -> p = q /\ r = s.
Proof.
  destruct p as [pp po pl], q as [qp qo ql]. unfold fit_read, read_debug. cbn [rd_page rd_offset rd_len].
  intros (Ha & Hb & Hc) (Ha' & Hb' & Hc') E. after E. apply page_app in E; [|assumption..]. destruct E as [-> E].
  after E. num8 E. num8 E. now split.
Qed.
Lemma write_app p q r s : fit_write p -> fit_write q -> write_debug p ++ r = write_debug q ++ s -> p = q /\ r = s.
Proof.
  destruct p as [pp po pl], q as [qp qo ql]. unfold fit_write, write_debug. cbn [wr_page wr_offset wr_len].
  intros (Ha & Hb & Hc) (Ha' & Hb' & Hc') E. after E. apply page_app in E; [|assumption..]. destruct E as [-> E].
  after E. num8 E. num8 E. now split.
Qed.
Lemma led_app p q r s : led_debug p ++ r = led_debug q ++ s -> p = q /\ r = s.
Proof. destruct p, q; cbn [led_debug]; intros E; try discriminate; after E; now split. Qed.
Lemma interface_app p q r s : fit_interface p -> fit_interface q -> interface_debug p ++ r = interface_debug q ++ s -> p = q /\ r = s.
Proof.
  destruct p as [| |p], q as [| |q]; cbn [interface_debug fit_interface]; intros Hp Hq E; try discriminate; after E; try now split.
  num8 E. now split.
Qed.
Lemma protocol_app p q r s : fit_protocol p -> fit_protocol q -> protocol_debug p ++ r = protocol_debug q ++ s -> p = q /\ r = s.
Proof.
  assert (P32 : forall x, x < 2 ^ 32 -> x < 10 ^ N.of_nat 10) by (intros x Hx; eapply N.lt_trans; [exact Hx|reflexivity]).
  destruct p, q; cbn [protocol_debug fit_protocol]; intros Hp Hq E; try discriminate; after E; try now split.
  - destruct Hp, Hq. num E P32. num E P32. now split.
  - destruct Hp, Hq. num8 E. num8 E. now split.
Qed.
Lemma mac_app a b r s : fit_mac a -> fit_mac b -> bytes_debug (mac_bytes a) ++ r = bytes_debug (mac_bytes b) ++ s -> a = b /\ r = s.
Proof.
  destruct a as [a0 a1 a2 a3 a4 a5], b as [b0 b1 b2 b3 b4 b5]. unfold fit_mac, bytes_debug, mac_bytes.
  cbn [mac0 mac1 mac2 mac3 mac4 mac5 map join].
  intros (A0 & A1 & A2 & A3 & A4 & A5) (B0 & B1 & B2 & B3 & B4 & B5) E. after E.
  do 6 num8 E. now split.
Qed.
Lemma reason_app p q r s : reason_debug p ++ r = reason_debug q ++ s -> p = q /\ r = s.
Proof. destruct p, q; cbn [reason_debug]; intros E; try discriminate; after E; now split. Qed.
Lemma request_app p q r s : fit_request p -> fit_request q -> host_request_debug p ++ r = host_request_debug q ++ s -> p = q /\ r = s.
Proof.
  destruct p, q; cbn [host_request_debug fit_request]; intros Hp Hq E; try discriminate; after E;
    try (apply modules_app in E; [|assumption..]; destruct E as [-> E]; apply app_inv_head in E; now split).
  - destruct Hp, Hq. apply modules_app in E; [|assumption..]. destruct E as [-> E]. apply app_inv_head in E.
    apply read_app in E; [|assumption..]. destruct E as [-> E]. apply app_inv_head in E. now split.
  - destruct Hp, Hq. apply modules_app in E; [|assumption..]. destruct E as [-> E]. apply app_inv_head in E.
    apply write_app in E; [|assumption..]. destruct E as [-> E]. apply app_inv_head in E. now split.
  - destruct Hp, Hq. apply modules_app in E; [|assumption..]. destruct E as [-> E]. apply app_inv_head in E.
    apply interface_app in E; [|assumption..]. destruct E as [-> E]. apply app_inv_head in E. now split.
  - now split.
  - apply modules_app in E; [|assumption..]. destruct E as [-> E]. apply app_inv_head in E.
    apply led_app in E. destruct E as [-> E]. apply app_inv_head in E. now split.
Qed.
Lemma both_app a b c d r s : fit_modules a -> fit_modules b -> fit_modules c -> fit_modules d ->
  both_debug a b ++ r = both_debug c d ++ s -> a = c /\ b = d /\ r = s.
Proof.
  unfold both_debug. intros A B C D E. after E. apply modules_app in E; [|assumption..]. destruct E as [-> E]. after E.
  apply modules_app in E; [|assumption..]. destruct E as [-> E]. repeat split. exact E.
Qed.
Lemma response_app p q r s : fit_response p -> fit_response q -> sp_response_debug p ++ r = sp_response_debug q ++ s -> p = q /\ r = s.
Proof.
  assert (P16 : forall x, x < 2 ^ 16 -> x < 10 ^ N.of_nat 5) by (intros x Hx; eapply N.lt_trans; [exact Hx|reflexivity]).
  destruct p, q; cbn [sp_response_debug fit_response]; intros Hp Hq E; try discriminate; after E;
    try (destruct Hp, Hq; apply both_app in E; [|assumption..]; destruct E as (-> & -> & E); apply app_inv_head in E; now split).
  - destruct Hp as (A & B & C), Hq as (A' & B' & C'). apply both_app in E; [|assumption..]. destruct E as (-> & -> & E).
    apply app_inv_head in E. apply read_app in E; [|assumption..]. destruct E as [-> E]. apply app_inv_head in E. now split.
  - destruct Hp as (A & B & C), Hq as (A' & B' & C'). apply both_app in E; [|assumption..]. destruct E as (-> & -> & E).
    apply app_inv_head in E. apply write_app in E; [|assumption..]. destruct E as [-> E]. apply app_inv_head in E. now split.
  - destruct r0 as [[b c n]|[w b c n]], r1 as [[b' c' n']|[w' b' c' n']]; cbn [mac_response_debug] in E; try discriminate.
    + unfold macs_debug in E. cbn [ma_base ma_count ma_stride] in *. destruct Hp as (A & B & C), Hq as (A' & B' & C').
      after E. after E. apply mac_app in E; [|assumption..]. destruct E as [-> E]. after E. num E P16. num8 E.
      apply app_inv_head in E. apply app_inv_head in E. now split.
    + unfold range_debug in E. unfold fit_range in Hp, Hq. cbn [br_reason br_base br_count br_stride] in *.
      destruct Hp as (A & B & C), Hq as (A' & B' & C'). after E. after E. apply reason_app in E. destruct E as [-> E]. after E.
      apply mac_app in E; [|assumption..]. destruct E as [-> E]. after E. num E P16. num8 E.
      apply app_inv_head in E. apply app_inv_head in E. now split.
Qed.
Lemma body_inj a b : fit_body a -> fit_body b -> body_debug a = body_debug b -> a = b.
Proof.
  destruct a as [p|p|p|[]|[]], b as [q|q|q|[]|[]]; cbn [fit_body body_debug]; intros Hp Hq E; try discriminate; after E.
  - apply protocol_app in E; [|assumption..]. now destruct E as [-> _].
  - apply request_app in E; [|assumption..]. now destruct E as [-> _].
  - apply response_app in E; [|assumption..]. now destruct E as [-> _].
Qed.

Lemma te_chain_inj e f : fit_module e -> fit_module f -> te_chain e = te_chain f -> e = f.
Proof.
  intros He Hf E. pose proof E as E1. unfold te_chain in E1. injection E1 as E1 E2.
  destruct (module_inj e f He Hf E1) as [->|(m & n & -> & ->)]; [reflexivity|].
  cbn [decode_chain] in E2. apply tail_eq in E2. injection E2 as E2. do 2 f_equal. now apply mgmt_inj.
Qed.
Lemma error_inj e f : fit_error e -> fit_error f -> error_chain e = error_chain f ->
  e = f \/ same_blank e f.
Proof.
  assert (P64 : forall x, x < 2 ^ 64 -> x < 10 ^ N.of_nat 20) by (intros x Hx; eapply N.lt_trans; [exact Hx|reflexivity]).
  intros He Hf E. pose proof E as E1. unfold error_chain in E1. injection E1 as E1 E2.
  destruct e, f; cbn [error_display fit_error] in *; try discriminate; try (left; reflexivity).
  - left. injection E2 as E2. f_equal. now apply protocol_inj.
  - right. left. eauto.
  - left. apply app_inv_head in E1. change (T ") reached without a response") with (41 :: T " reached without a response") in E1.
    cbn [app] in E1. apply dec_app in E1; [|now apply P64|now apply P64|nodig..]. destruct E1 as [-> _]. reflexivity.
  - left. apply app_inv_head in E1. change (T ") reached without a response") with (41 :: T " reached without a response") in E1.
    cbn [app] in E1. apply dec_app in E1; [|now apply P64|now apply P64|nodig..]. destruct E1 as [-> _]. reflexivity.
  - left. apply app_inv_head in E1. f_equal. now apply body_inj.
  - left. destruct He, Hf. apply app_inv_head in E1. change (T " actual = ") with (32 :: T "actual = ") in E1.
    cbn [app] in E1. apply dec_app in E1; [|now apply P64|now apply P64|nodig..]. destruct E1 as [-> E1]. apply tail_eq in E1.
    apply app_inv_head in E1. apply dec_inj in E1; [|now apply P64..]. now subst.
  - left. f_equal. apply range_inj; [assumption..|congruence].
  - left. f_equal. now apply te_chain_inj.
  - right. right. eauto.
Qed.

(** ** The lines about modules that failed *)
Definition telling (p : N * TransceiverError) : Prop :=
  fst p < 256 /\ fit_module (snd p) /\ forall m, snd p <> TeDecode (DeManagement m).
Lemma port_width i : i < 256 -> List.length (port_shown i) = 4%nat.
Proof.
  intros H. assert (S : forallb (fun i => Nat.eqb (List.length (port_shown i)) 4) (nrange 0 256) = true) by (vm_compute; reflexivity).
  rewrite forallb_forall in S. specialize (S i ltac:(apply in_nrange; lia)). now apply PeanoNat.Nat.eqb_eq.
Qed.
Lemma port_code i : i < 256 -> value (filter (fun c => negb (c =? 32)) (port_shown i)) = i.
Proof.
  intros H. assert (S : forallb (fun i => value (filter (fun c => negb (c =? 32)) (port_shown i)) =? i) (nrange 0 256) = true) by (vm_compute; reflexivity).
  rewrite forallb_forall in S. specialize (S i ltac:(apply in_nrange; lia)). lia.
Qed.
Lemma app_eq_length {A} (a a' b b' : list A) : List.length a = List.length a' -> a ++ b = a' ++ b' -> a = a' /\ b = b'.
Proof.
  revert a'. induction a as [|x a IH]; intros [|y a'] L E; cbn in *; try discriminate; [now split|].
  injection E as -> E. injection L as L. destruct (IH a' L E) as [-> ->]. now split.
Qed.
Lemma report_inj g l l' : ar_ignore_errors g = false -> Forall telling l -> Forall telling l' ->
  error_report te_display g l = error_report te_display g l' -> l = l'.
Proof.
  intros Hg Hl Hl' E. unfold error_report in E. rewrite Hg in E.
  assert (E2 : map (fun p => port_shown (fst p) ++ [32] ++ te_display (snd p)) l =
               map (fun p => port_shown (fst p) ++ [32] ++ te_display (snd p)) l').
  { destruct l, l'; try reflexivity; try discriminate. do 2 apply tail_eq in E. exact E. }
  clear E. revert l' Hl' E2. induction Hl as [|p l Hp Hl IH]; intros [|q l'] Hl' E; try reflexivity; try discriminate.
  cbn [map] in E. inversion Hl' as [|q' l2 Hq Hl2]; subst.
  assert (E1 : port_shown (fst p) ++ [32] ++ te_display (snd p) = port_shown (fst q) ++ [32] ++ te_display (snd q)) by congruence.
  apply tail_eq in E. destruct Hp as (Hi & He & Hn), Hq as (Hi' & He' & Hn').
  apply app_eq_length in E1; [|now rewrite !port_width]. destruct E1 as [Ep E1]. apply app_inv_head in E1.
  assert (fst p = fst q) by (rewrite <- (port_code (fst p) Hi), <- (port_code (fst q) Hi'), Ep; reflexivity).
  destruct (module_inj _ _ He He' E1) as [Es|(m & n & Em & _)]; [|now apply Hn in Em].
  f_equal; [destruct p, q; cbn in *; congruence|]. now apply IH.
Qed.
Lemma hw_fault_fits i b : i < 256 -> b < 256 -> fit_module (hw_fault i b).
Proof. intros Hi Hb. cbn. split; [exact Hi|]. exists b. split; [exact Hb|]. now destruct (decode_hw_error b). Qed.
Lemma hw_fault_telling i b : i < 256 -> b < 256 -> telling (i, hw_fault i b).
Proof. intros Hi Hb. split; [exact Hi|]. split; [now apply hw_fault_fits|]. intros m. discriminate. Qed.
Lemma codes_reported g l l' : ar_ignore_errors g = false ->
  Forall (fun p => fst p < 256 /\ snd p < 256) l -> Forall (fun p => fst p < 256 /\ snd p < 256) l' ->
  error_report te_display g (map (fun p => (fst p, hw_fault (fst p) (snd p))) l) =
  error_report te_display g (map (fun p => (fst p, hw_fault (fst p) (snd p))) l') -> l = l'.
Proof.
  intros Hg Hl Hl' E. apply report_inj in E; [|exact Hg|..].
  - revert l' Hl' E. induction Hl as [|[i b] l [Hi Hb] Hl IH]; intros [|[i' b'] l'] Hl' E; try reflexivity; try discriminate.
    cbn [map fst snd] in *. inversion Hl' as [|x y [Hi' Hb'] Hl2]; subst. cbn [fst snd] in *.
    assert (Ei : i = i') by congruence. subst i'.
    assert (Ef : hw_fault i b = hw_fault i b') by congruence.
    assert (b = b').
    { pose proof (hardware_told i b Hi Hb) as A. pose proof (hardware_told i b' Hi Hb') as B. rewrite Ef, B in A.
      unfold hardware_text in A. apply app_inv_head, app_inv_head, app_inv_head in A.
      now rewrite <- (meaning_read b Hb), <- (meaning_read b' Hb'), A. }
    subst b'. f_equal. apply IH; [exact Hl2|]. now apply tail_eq in E.
  - apply Forall_map. eapply Forall_impl; [|exact Hl]. intros [i b] [Hi Hb]. now apply hw_fault_telling.
  - apply Forall_map. eapply Forall_impl; [|exact Hl']. intros [i b] [Hi Hb]. now apply hw_fault_telling.
Qed.
