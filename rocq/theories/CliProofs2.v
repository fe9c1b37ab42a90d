(** Proofs about port lists and write data on the command line (C51, C52). *)
From Coq Require Import String.
From Verif Require Import Tac SpecCli ModuleIdProofs ModuleIdProps ConfigProofs DecodeProofs CliProofs.
From Coq Require Import Lia.
Import ListNotations.
Open Scope N_scope.

(** ** Lower case *)
Definition allowed (c : N) : Prop := 43 <= c <= 45 \/ 48 <= c <= 57 \/ is_whitespace c = true.
Lemma white_ascii c : c < 128 -> is_whitespace c = true -> (9 <= c <= 13 \/ c = 32).
Proof. unfold is_whitespace. lia. Qed.
Lemma lower_allowed lower s : unicode_lower lower -> Forall allowed s -> to_lowercase lower s = s.
Proof.
  intros Hu. induction 1 as [|c s Hc _ IH]; [reflexivity|]. unfold to_lowercase in *. cbn [flat_map]. rewrite IH.
  unfold lower_char. destruct (c <? 128) eqn:E.
  - replace ((65 <=? c) && (c <=? 90)) with false; [reflexivity|].
    assert (c <= 57); [|lia]. destruct Hc as [H|[H|H]]; try lia. apply white_ascii in H; lia.
  - destruct (Hu c ltac:(lia)) as [Hw _]. rewrite Hw; [reflexivity|]. destruct Hc as [H|[H|H]]; [lia|lia|exact H].
Qed.
Lemma allowed_lower lower s : unicode_lower lower -> Forall allowed (to_lowercase lower s) -> to_lowercase lower s = s.
Proof.
  intros Hu. induction s as [|c s IH]; [reflexivity|]. unfold to_lowercase in *. cbn [flat_map].
  intros H. apply Forall_app in H. destruct H as [H1 H2]. rewrite IH by exact H2.
  unfold lower_char in *. destruct (c <? 128) eqn:E.
  - destruct ((65 <=? c) && (c <=? 90)) eqn:Eu; [|reflexivity]. exfalso. apply Forall_inv in H1.
    destruct H1 as [H|[H|H]]; try lia. apply white_ascii in H; lia.
  - destruct (Hu c ltac:(lia)) as [Hw Hn]. destruct (is_whitespace c); [now rewrite Hw|]. exfalso.
    destruct (Hn eq_refl) as (d & Hd & Hc). rewrite Forall_forall in H1. apply H1 in Hd. unfold allowed in Hd.
    destruct Hc as [[L Hc]| ->]; [destruct Hd as [?|[?|?]]; [lia|lia|congruence]|].
    destruct Hd as [?|[?|?]]; [lia|lia|discriminate].
Qed.
(** The letters of the words used. *)
Definition word_char (x : N) : Prop := x < 128 /\ x <> 107 /\ is_whitespace x = false /\ ~ (65 <= x <= 90).
Lemma lower_word lower w : unicode_lower lower -> Forall word_char (T w) -> forall s,
  to_lowercase lower s = T w <-> spells s w.
Proof.
  intros Hu. unfold spells. generalize (T w). clear w. intros w Hw s. revert w Hw.
  unfold to_lowercase. induction s as [|c s IH]; intros w Hw; cbn [flat_map].
  - split; [intros <-; constructor|]. intros H. now inversion H.
  - destruct (c <? 128) eqn:E.
    + unfold lower_char. rewrite E. cbn [app]. split.
      * intros <-. apply Forall_inv_tail in Hw as Hw'. constructor; [|now apply IH].
        destruct ((65 <=? c) && (c <=? 90)) eqn:Eu; [right; lia|now left].
      * intros H. inversion H as [|? x ? w' Hx Hs]; subst. apply Forall_inv in Hw as Hx'. apply Forall_inv_tail in Hw.
        f_equal; [|now apply IH]. destruct Hx' as (_ & _ & _ & Hx'). destruct ((65 <=? c) && (c <=? 90)) eqn:Eu; lia.
    + unfold lower_char at 1. rewrite E. split.
      * intros <-. exfalso. apply Forall_app in Hw. destruct Hw as [Hw _]. destruct (Hu c ltac:(lia)) as [Hb Hn].
        destruct (is_whitespace c) eqn:Ew.
        -- rewrite (Hb eq_refl) in Hw. apply Forall_inv in Hw. destruct Hw. lia.
        -- destruct (Hn eq_refl) as (d & Hd & Hc). rewrite Forall_forall in Hw. apply Hw in Hd. destruct Hd as (D1 & D2 & _). lia.
      * intros H. inversion H as [|? x ? w' Hx Hs]; subst. apply Forall_inv in Hw. destruct Hw as (Hx' & _). lia.
Qed.
Lemma words_chars : Forall (fun p => Forall word_char (T (fst p))) special_words.
Proof.
  repeat constructor; cbn; try reflexivity; try discriminate; try (intros [H1 H2]; cbn in H1, H2; lia).
Qed.

(** ** Port lists *)
Lemma omapM_ok {A B} (f : A -> outcome unit B) l : forall r, omapM f l = Ok r <-> Forall2 (fun x y => f x = Ok y) l r.
Proof.
  induction l as [|x l IH]; intros r; cbn [omapM].
  - split; [intros [= <-]; constructor|]. intros H. inversion H. reflexivity.
  - destruct (f x) as [y| |] eqn:E; cbn [obind].
    + destruct (omapM f l) as [ys| |] eqn:El; cbn [obind].
      * split; [intros [= <-]; constructor; [exact E|now apply IH]|]. intros H. inversion H as [|? y' ? ys' H1 H2]; subst.
        apply IH in H2. congruence.
      * split; [discriminate|]. intros H. inversion H as [|? y' ? ys' H1 H2]; subst. apply IH in H2. discriminate.
      * split; [discriminate|]. intros H. inversion H as [|? y' ? ys' H1 H2]; subst. apply IH in H2. discriminate.
    + split; [discriminate|]. intros H. inversion H; subst. congruence.
    + split; [discriminate|]. intros H. inversion H; subst. congruence.
Qed.
Lemma omapM_calm {A B} (f : A -> outcome unit B) l : (forall x, f x <> Panic) -> omapM f l <> Panic.
Proof.
  intros H. induction l as [|x l IH]; cbn; [discriminate|]. specialize (H x). destruct (f x); cbn; try congruence.
  destruct (omapM f l); cbn; congruence.
Qed.
Lemma from_indices_calm l : from_indices l <> Panic.
Proof.
  unfold from_indices. generalize 0. induction l as [|i l IH]; intros acc; cbn; [discriminate|].
  destruct (MAX_INDEX <=? i); [discriminate|apply IH].
Qed.
Lemma white_no44 a : white a -> ~ In 44 a.
Proof. intros H I. unfold white in H. rewrite Forall_forall in H. apply H in I. discriminate. Qed.
Lemma number_no44 s v : number 10 s v -> ~ In 44 s.
Proof.
  intros H. apply number_chars in H. rewrite Forall_forall in H. intros I. apply H in I.
  destruct I as [I|(d & Hd & L)]; [lia|]. unfold digit in Hd. lia.
Qed.
Lemma number_allowed s v : number 10 s v -> Forall allowed s.
Proof.
  intros H. apply number_chars in H. eapply Forall_impl; [|exact H]. cbv beta. intros c [->|(d & Hd & L)]; [left; lia|].
  right. left. unfold digit in Hd. lia.
Qed.
Lemma white_allowed s : white s -> Forall allowed s.
Proof. intros H. eapply Forall_impl; [|exact H]. cbv beta. intros c Hc. right. now right. Qed.
Lemma part_allowed t lo hi : port_part t lo hi -> Forall allowed t /\ ~ In 44 t.
Proof.
  intros [(a & u & b & -> & Ha & Hb & Hu & _)|(a & u & b & c & v & d & -> & Ha & Hb & Hc & Hd & Hu & Hv & _)].
  - split.
    + repeat (apply Forall_app; split); eauto using white_allowed, number_allowed.
    + rewrite !in_app_iff. pose proof (white_no44 a Ha). pose proof (white_no44 b Hb). pose proof (number_no44 u _ Hu). tauto.
  - split.
    + apply Forall_app; split; [now apply white_allowed|]. apply Forall_app; split; [eauto using number_allowed|].
      apply Forall_app; split; [now apply white_allowed|]. constructor; [left; lia|].
      repeat (apply Forall_app; split); eauto using white_allowed, number_allowed.
    + rewrite !in_app_iff. cbn [In]. rewrite !in_app_iff.
      pose proof (white_no44 a Ha). pose proof (white_no44 b Hb). pose proof (white_no44 c Hc). pose proof (white_no44 d Hd).
      pose proof (number_no44 u _ Hu). pose proof (number_no44 v _ Hv). assert (45 <> 44) by lia. tauto.
Qed.
Lemma Forall2_left {A B} (P : A -> Prop) (R : A -> B -> Prop) l r : (forall x y, R x y -> P x) -> Forall2 R l r -> Forall P l.
Proof. intros H. induction 1; constructor; eauto. Qed.
Lemma join_allowed ps : Forall (Forall allowed) ps -> Forall allowed (join [44] ps).
Proof.
  induction 1 as [|p ps Hp Hf IH]; [constructor|]. cbn [join]. destruct ps; [exact Hp|].
  apply Forall_app; split; [exact Hp|]. cbn [app]. constructor; [left; lia|exact IH].
Qed.
Lemma list_allowed s l : port_list s l -> Forall allowed s.
Proof.
  intros (parts & _ & -> & H). apply join_allowed. eapply Forall2_left; [|exact H]. cbv beta. intros t p Hp. now apply part_allowed in Hp.
Qed.

Lemma parts_ok s r : omapM (fun p => parse_part (trim p)) (split_on 44 s) = Ok r <->
  exists l, port_list s l /\ r = map (fun p => nrange (fst p) (N.to_nat (snd p - fst p + 1))) l.
Proof.
  rewrite omapM_ok. destruct (split_join 44 s) as (Ej & En & Ef). split.
  - intros H. assert (exists l, Forall2 (fun t p => port_part t (fst p) (snd p)) (split_on 44 s) l /\
      r = map (fun p => nrange (fst p) (N.to_nat (snd p - fst p + 1))) l) as (l & Hl & ->).
    { clear - H. induction H as [|t x ts xs Hx _ (l & Hl & ->)]; [exists []; split; constructor|].
      apply part_ok in Hx. destruct Hx as (lo & hi & Hp & ->). exists ((lo, hi) :: l). split; [now constructor|reflexivity]. }
    exists l. split; [|reflexivity]. exists (split_on 44 s). auto.
  - intros (l & (parts & Hn & -> & Hl) & ->). rewrite join_split; [|exact Hn|].
    + clear - Hl. induction Hl as [|t p ts ps Hp _ IH]; constructor; [|exact IH]. apply part_ok. eauto.
    + eapply Forall2_left; [|exact Hl]. cbv beta. intros t p Hp. now apply part_allowed in Hp.
Qed.
Lemma range_order s l : port_list s l -> Forall (fun p => fst p <= snd p) l.
Proof.
  intros (parts & _ & _ & H). induction H as [|t p ts ps Hp _ IH]; constructor; [|exact IH].
  destruct Hp as [(a & u & b & _ & _ & _ & _ & ->)|(a & u & b & c & v & d & _ & _ & _ & _ & _ & _ & _ & L)]; lia.
Qed.
Lemma in_ranges l i : Forall (fun p => fst p <= snd p) l ->
  (In i (List.concat (map (fun p => nrange (fst p) (N.to_nat (snd p - fst p + 1))) l)) <->
   exists p, In p l /\ fst p <= i <= snd p).
Proof.
  intros F. rewrite <- flat_map_concat_map, in_flat_map. rewrite Forall_forall in F.
  split; intros (p & Hp & H); exists p; (split; [exact Hp|]); specialize (F p Hp); cbv beta in F.
  - apply in_nrange in H. lia.
  - apply in_nrange. lia.
Qed.
Lemma indices_ok l m : from_indices l = Ok m <->
  Forall (fun i => i < 64) l /\ m < 2 ^ 64 /\ forall j, member j m <-> In j l.
Proof.
  destruct (from_indices_correct l) as [G B]. split.
  - intros H.
    assert (D : forall l, Forall (fun i => i < 64) l \/ exists a i b, l = a ++ i :: b /\ Forall (fun i => i < 64) a /\ 64 <= i).
    { clear. induction l as [|x l [IH|(a & i & b & -> & E2 & E3)]]; [left; constructor| |];
        (destruct (N.ltb_spec x 64) as [L|L]; [|right; exists [], x; eexists; repeat split; [constructor|exact L]]).
      - left. now constructor.
      - right. exists (x :: a), i, b. repeat split; [now constructor|exact E3]. }
    destruct (D l) as [F|(a & i & b & E1 & E2 & E3)]; [|rewrite (B a i b E1 E2 E3) in H; discriminate].
    destruct (G F) as (m' & E & L & M). rewrite E in H. injection H as <-. auto.
  - intros (F & L & M). destruct (G F) as (m' & E & L' & M'). rewrite E. f_equal.
    apply mask_ext. intros j. apply eq_true_iff_eq. rewrite <- !member_testbit, M, M'. reflexivity.
Qed.

Lemma is_word_ok s w : is_word s w = true <-> s = T w.
Proof. apply text_eqb_eq. Qed.
(** No special word is a port list. *)
Lemma word_not_list w t l : In (w, t) special_words -> ~ port_list (T w) l.
Proof.
  intros H P. apply list_allowed in P. cbn in H.
  repeat (destruct H as [H|H]; [injection H as <- _; apply Forall_inv in P; cbn in P; destruct P as [P|[P|P]]; [lia|lia|discriminate P]|]).
  exact H.
Qed.
Lemma transceivers_split lower s :
  (exists w t, In (w, t) special_words /\ to_lowercase lower s = T w /\ parse_transceivers lower s = Ok t) \/
  ((forall w t, In (w, t) special_words -> to_lowercase lower s <> T w) /\
   parse_transceivers lower s =
     (indices <-? omapM (fun p => parse_part (trim p)) (split_on 44 (to_lowercase lower s)) ;;
      omap TIndex (omap_err (fun _ => tt) (from_indices (List.concat indices))))).
Proof.
  unfold parse_transceivers. generalize (to_lowercase lower s). clear s. intros s.
  repeat match goal with |- context [is_word s ?w] =>
    let E := fresh "E" in destruct (is_word s w) eqn:E;
      [apply is_word_ok in E; left; eexists w, _; split; [|split; [exact E|cbn [orb]; reflexivity]]; cbn; tauto
      |cbn [orb]] end.
  right. split; [|reflexivity]. intros w t H A. apply is_word_ok in A. cbn in H.
  repeat (destruct H as [H|H]; [injection H as <- _; congruence|]). exact H.
Qed.
Theorem transceivers_index lower s m : unicode_lower lower ->
  parse_transceivers lower s = Ok (TIndex m) <->
  exists l, port_list s l /\ Forall (fun p => snd p < 64) l /\ m < 2 ^ 64 /\
    forall i, member i m <-> exists p, In p l /\ fst p <= i <= snd p.
Proof.
  intros Hu.
  assert (X : forall l, port_list s l -> Forall (fun p => snd p < 64) l <-> Forall (fun i => i < 64) (List.concat (map (fun p => nrange (fst p) (N.to_nat (snd p - fst p + 1))) l))).
  { intros l Hl. apply range_order in Hl. rewrite !Forall_forall. split.
    - intros H i Hi. apply in_ranges in Hi; [|exact Hl]. destruct Hi as (p & Hp & Hi). specialize (H p Hp). cbv beta in H. lia.
    - intros H p Hp. apply H. apply in_ranges; [exact Hl|]. exists p. rewrite Forall_forall in Hl. specialize (Hl p Hp). split; [exact Hp|lia]. }
  destruct (transceivers_split lower s) as [(w & t & Hw & Es & ->)|(Hn & ->)].
  - split.
    + intros [= ->]. exfalso. cbn in Hw. repeat (destruct Hw as [Hw|Hw]; [discriminate|]). exact Hw.
    + intros (l & Hl & _). exfalso. pose proof (list_allowed _ _ Hl) as Ha. apply (word_not_list w t l Hw).
      rewrite <- Es. now rewrite (lower_allowed lower s Hu Ha).
  - split.
    + destruct (omapM _ _) as [r| |] eqn:E; cbn [obind]; [|discriminate|discriminate].
      apply parts_ok in E. destruct E as (l & Hl & ->).
      pose proof (list_allowed _ _ Hl) as Ha. apply (allowed_lower lower s Hu) in Ha. rewrite Ha in Hl.
      destruct (from_indices _) as [m'| |] eqn:E; cbn; [|discriminate|discriminate]. intros [= ->].
      apply indices_ok in E. destruct E as (F & Hm & M). exists l. split; [exact Hl|]. split; [now apply X|]. split; [exact Hm|].
      intros i. rewrite M. apply in_ranges. now apply (range_order s).
    + intros (l & Hl & F & Hm & M). pose proof (list_allowed _ _ Hl) as Ha. rewrite (lower_allowed lower s Hu Ha).
      rewrite (proj2 (parts_ok s _) (ex_intro _ l (conj Hl eq_refl))). cbn [obind].
      rewrite (proj2 (indices_ok _ m)); [reflexivity|]. split; [now apply X|]. split; [exact Hm|].
      intros i. rewrite M. symmetry. apply in_ranges. now apply (range_order s).
Qed.
Theorem transceivers_word lower s t : unicode_lower lower -> (forall m, t <> TIndex m) ->
  parse_transceivers lower s = Ok t <-> exists w, In (w, t) special_words /\ spells s w.
Proof.
  intros Hu Ht. pose proof words_chars as Wc. rewrite Forall_forall in Wc.
  assert (S : forall w t, In (w, t) special_words -> (to_lowercase lower s = T w <-> spells s w)).
  { intros w t' H. apply lower_word; [exact Hu|]. exact (Wc _ H). }
  destruct (transceivers_split lower s) as [(w & t' & Hw & Es & ->)|(Hn & ->)].
  - split.
    + intros [= ->]. exists w. split; [exact Hw|]. now apply (S w t).
    + intros (w' & Hw' & Hs). apply (S w' t Hw') in Hs. rewrite Es in Hs. cbn in Hw, Hw'.
      repeat (destruct Hw as [Hw|Hw]; [injection Hw as <- <-|]); try contradiction;
      repeat (destruct Hw' as [Hw'|Hw']; [injection Hw' as <- <-|]); try contradiction; try reflexivity; discriminate Hs.
  - split.
    + destruct (omapM _ _) as [r| |]; cbn [obind]; [|discriminate|discriminate].
      destruct (from_indices _) as [m'| |]; cbn; [|discriminate|discriminate]. intros [= <-]. now destruct (Ht m').
    + intros (w & Hw & Hs). apply (S w t Hw) in Hs. now destruct (Hn w t Hw).
Qed.
Theorem transceivers_calm lower s : parse_transceivers lower s <> Panic.
Proof.
  destruct (transceivers_split lower s) as [(w & t' & _ & _ & ->)|(_ & ->)]; [discriminate|].
  pose proof (omapM_calm (fun p => parse_part (trim p)) (split_on 44 (to_lowercase lower s)) (fun x => part_no_panic _)) as C.
  destruct (omapM _ _) as [r| |]; cbn [obind]; [|discriminate|congruence].
  pose proof (from_indices_calm (List.concat r)). destruct (from_indices _); cbn; congruence.
Qed.
