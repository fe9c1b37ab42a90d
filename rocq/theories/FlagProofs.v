(** Proofs about status flags as text (C54, C89). *)
From Coq Require Import Lia String.
From Verif Require Import Tac SpecFlags CliProofs CliProofs3 CliProofs5 ControllerProofs6 ModuleIdProofs.
Import ListNotations.
Open Scope N_scope.

Lemma radix_number radix max s v : 1 <= radix <= 36 ->
  (from_str_radix radix max s = Some v <-> v <= max /\ exists r, (s = r \/ s = 43 :: r) /\ numeral radix r v).
Proof.
  intros Hr.
  assert (K : forall t w, t <> [] -> (parse_digits radix max 0 t = Some w <-> numeral radix t w /\ w <= max)).
  { intros t w Hn. rewrite parse_digits_ok by lia. unfold numeral. split.
    - intros (ds & F & H & E & L). split; [|exact L]. exists ds. repeat split; try assumption. intros ->. inversion H. congruence.
    - intros ((ds & Hd & F & H & E) & L). exists ds. auto. }
  assert (Z : forall w, ~ numeral radix [] w) by (intros w (ds & Hn & _ & H & _); inversion H; congruence).
  assert (Q : forall t w, ~ numeral radix (43 :: t) w).
  { intros t w H. apply numeral_head in H. destruct H as [d H]. unfold digit in H. lia. }
  unfold from_str_radix. destruct s as [|c [|c2 r]].
  - split; [discriminate|]. intros (_ & r & [<-|E] & Hq); [now apply Z in Hq|discriminate].
  - destruct ((c =? 43) || (c =? 45)) eqn:E.
    + split; [discriminate|]. intros (_ & r & [<-|[= -> <-]] & Hq); [|now apply Z in Hq].
      apply numeral_head in Hq. destruct Hq as [d Hq]. unfold digit in Hq. lia.
    + rewrite K by discriminate. split; [intros [A B]; eauto|]. intros (L & r & [<-|[= -> <-]] & Hq); [auto|lia].
  - destruct (N.eqb_spec c 43) as [->|Hc].
    + rewrite K by discriminate. split; [intros [A B]; eauto|]. intros (L & t & [<-|[= <-]] & Hq); [now apply Q in Hq|auto].
    + rewrite K by discriminate. split; [intros [A B]; eauto|]. intros (L & t & [<-|[= -> _]] & Hq); [auto|congruence].
Qed.

(** The table. *)
Definition bit_table (n : nat) : list (text * N) :=
  map (fun k => (T (nth k bit_names ""%string), 2 ^ N.of_nat k)) (seq 0 n).
Lemma status_table : status_flags = bit_table 8.
Proof. reflexivity. Qed.
Lemma ext_status_table : ext_status_flags = bit_table 9.
Proof. reflexivity. Qed.

Lemma text_eqb_ok a : forall b, text_eqb a b = true <-> a = b.
Proof.
  induction a as [|x a IH]; intros [|y b]; cbn [text_eqb]; try (split; [discriminate|congruence]); [tauto|].
  rewrite andb_true_iff, N.eqb_eq, IH. split; [intros [-> ->]; reflexivity|intros [= -> ->]; auto].
Qed.
Lemma lookup_ok flags s v : NoDup (map fst flags) -> (flag_lookup flags s = Some v <-> In (s, v) flags).
Proof.
  induction flags as [|[n x] flags IH]; intros Hd; cbn [flag_lookup map fst] in *; [split; [discriminate|intros []]|].
  inversion Hd as [|? ? Hn Hd']; subst. destruct (text_eqb n s) eqn:E.
  - apply text_eqb_ok in E as ->. split; [intros [= ->]; now left|]. intros [[= ->]|H]; [reflexivity|].
    exfalso. apply Hn. now apply in_map with (f := fst) in H.
  - rewrite IH by exact Hd'. split; [now right|]. intros [[= -> ->]|H]; [|exact H].
    assert (text_eqb s s = true) by now apply text_eqb_ok. congruence.
Qed.
Lemma table_word n s v : (n <= 9)%nat -> (In (s, v) (bit_table n) <->
  exists k name, (k < n)%nat /\ nth_error bit_names k = Some name /\ s = T name /\ v = 2 ^ N.of_nat k).
Proof.
  intros Hn. unfold bit_table. rewrite in_map_iff. split.
  - intros (k & [= <- <-] & H). apply in_seq in H. exists k, (nth k bit_names ""%string). split; [lia|].
    split; [apply nth_error_nth'; cbn; lia|auto].
  - intros (k & name & H & E & -> & ->). exists k. split; [|apply in_seq; lia].
    now rewrite (nth_error_nth _ _ ""%string E).
Qed.
Lemma table_names n : (n <= 9)%nat -> NoDup (map fst (bit_table n)).
Proof.
  intros H. assert (X : NoDup (map fst (bit_table 9))).
  { unfold bit_table. cbn -[N.pow]. repeat constructor; cbn; intuition discriminate. }
  do 10 (destruct n as [|n]; [try (vm_compute in X |- *; repeat (inversion X as [|? ? ? X']; clear X; subst; rename X' into X); repeat constructor; cbn; intuition discriminate)|]).
  lia.
Qed.

(** Words have neither blanks nor bars. *)
Definition wordy (s : text) : Prop := s <> [] /\ solid s /\ ~ In 124 s.
Lemma names_wordy k name : nth_error bit_names k = Some name -> wordy (T name) /\ strip_prefix (T "0x") (T name) = None.
Proof.
  intros H. apply nth_error_In in H.
  assert (X : Forall (fun s => forallb (fun c => negb (is_whitespace c) && negb (c =? 124)) (T s) = true /\ T s <> [] /\
    strip_prefix (T "0x") (T s) = None) bit_names) by (repeat constructor; discriminate).
  rewrite Forall_forall in X. destruct (X _ H) as (A & B & C). split; [|exact C]. rewrite forallb_forall in A.
  split; [exact B|]. split.
  - apply Forall_forall. intros c Hc. apply A in Hc. now destruct (is_whitespace c).
  - intros Hc. apply A in Hc. discriminate.
Qed.
Lemma numeral_wordy s v : numeral 16 s v -> wordy s.
Proof.
  intros (ds & Hn & F & H & _). split; [intros ->; inversion H; congruence|].
  assert (X : Forall (fun c => is_whitespace c = false /\ c <> 124) s).
  { clear Hn. induction H as [|c d s ds Hd H IH]; constructor.
    - apply Forall_inv in F. unfold digit in Hd. unfold is_whitespace. lia.
    - apply IH. now apply Forall_inv_tail in F. }
  split; [eapply Forall_impl; [|exact X]; cbv beta; tauto|]. rewrite Forall_forall in X. intros I. now apply X in I.
Qed.
Lemma wordy_app a b : wordy a -> wordy b -> wordy (a ++ b).
Proof.
  intros (A1 & A2 & A3) (B1 & B2 & B3). split; [intros E; apply app_eq_nil in E; tauto|].
  split; [now apply Forall_app|]. rewrite in_app_iff. tauto.
Qed.
Lemma word_wordy n width s v : flag_word n width s v -> wordy s.
Proof.
  intros [(k & name & _ & E & -> & _)|(_ & r & [->| ->] & H)]; [now apply names_wordy in E| |];
    (apply wordy_app; [|now apply numeral_wordy in H]); (split; [discriminate|split; [repeat constructor|cbn; intuition discriminate]]).
Qed.

(** Pieces. *)
Section Flags.
  Context (n : nat) (width : N) (Hn : (n <= 9)%nat).
  Definition flag_part (t : text) (x : N) : Prop :=
    exists a u b, t = a ++ u ++ b /\ white a /\ white b /\ flag_word n width u x.

  Lemma word_ok s v : s <> [] ->
    (match strip_prefix (T "0x") s with
     | Some h => from_str_radix 16 (2 ^ width - 1) h
     | None => flag_lookup (bit_table n) s
     end = Some v <-> flag_word n width s v).
  Proof.
    intros Hs. unfold flag_word. rewrite <- table_word by exact Hn. assert (0 < 2 ^ width) by (apply N.neq_0_lt_0, N.pow_nonzero; lia).
    destruct (strip_prefix (T "0x") s) as [h|] eqn:E.
    - rewrite radix_number by lia. apply strip_ok in E. subst s. split.
      + intros (L & r & X & H'). right. split; [lia|]. exists r. split; [|exact H']. destruct X as [->| ->]; auto.
      + intros [H'|(L & r & X & H')].
        * apply table_word in H'; [|exact Hn]. destruct H' as (k & name & _ & N1 & N2 & _). apply names_wordy in N1.
          destruct N1 as [_ N1]. rewrite <- N2 in N1. assert (X : strip_prefix (T "0x") (T "0x" ++ h) = Some h) by now apply strip_ok. congruence.
        * split; [lia|]. exists r. split; [|exact H'].
          destruct X as [X|X]; [left; now injection X|right; now injection X].
    - rewrite lookup_ok by now apply table_names. split; [now left|]. intros [H'|(L & r & X & H')]; [exact H'|]. exfalso.
      destruct X as [->| ->]; discriminate E.
  Qed.
  Lemma piece_ok t v : flags_parse_piece (2 ^ width - 1) (bit_table n) t = Some v <-> flag_part t v.
  Proof.
    unfold flags_parse_piece. split.
    - intros H. destruct (trim_split t) as (a & b & Ha & Hb & E). exists a, (trim t), b. split; [exact E|].
      split; [exact Ha|]. split; [exact Hb|]. apply word_ok; destruct (trim t); [discriminate H|discriminate|discriminate H|exact H].
    - intros (a & u & b & -> & Ha & Hb & W). pose proof (word_wordy _ _ _ _ W) as (W1 & W2 & _).
      rewrite trim_solid by assumption. apply word_ok in W; [|exact W1]. destruct u; [congruence|exact W].
  Qed.
  Lemma pieces_ok l : forall v, flags_parse_pieces (2 ^ width - 1) (bit_table n) l = Some v <->
    exists vs, Forall2 flag_part l vs /\ v = fold_right N.lor 0 vs.
  Proof.
    induction l as [|p l IH]; intros v; cbn [flags_parse_pieces].
    - split; [intros [= <-]; exists []; split; [constructor|reflexivity]|]. intros (vs & H & ->). inversion H. reflexivity.
    - destruct (flags_parse_piece _ _ p) as [a|] eqn:E.
      + apply piece_ok in E. destruct (flags_parse_pieces _ _ l) as [b|] eqn:E2.
        * destruct (proj1 (IH b) eq_refl) as (vs & F & ->). split.
          -- intros [= <-]. exists (a :: vs). split; [now constructor|reflexivity].
          -- intros (ws & F' & ->). inversion F' as [|? x ? xs P1 P2]; subst. cbn [fold_right].
             apply piece_ok in E, P1. rewrite E in P1. injection P1 as ->.
             assert (Some (fold_right N.lor 0 vs) = Some (fold_right N.lor 0 xs)) as [= ->] by (apply IH; eauto). reflexivity.
        * split; [discriminate|]. intros (ws & F' & ->). inversion F' as [|? x ? xs P1 P2]; subst.
          assert (None = Some (fold_right N.lor 0 xs)) by (apply IH; eauto). discriminate.
      + split; [discriminate|]. intros (ws & F' & _). inversion F' as [|? x ? xs P1 P2]; subst. apply piece_ok in P1. congruence.
  Qed.
  Lemma lor_bits vs v : v = fold_right N.lor 0 vs <-> forall i, member i v <-> exists x, In x vs /\ member i x.
  Proof.
    setoid_rewrite member_testbit.
    assert (X : forall i, N.testbit (fold_right N.lor 0 vs) i = true <-> exists x, In x vs /\ N.testbit x i = true).
    { intros i. induction vs as [|x vs IH]; cbn [fold_right].
      - rewrite N.bits_0. split; [discriminate|]. intros (x & [] & _).
      - rewrite N.lor_spec, orb_true_iff, IH. split.
        + intros [H|(y & H & Hy)]; [exists x|exists y]; split; cbn; auto.
        + intros (y & [->|H] & Hy); eauto. }
    split; [intros ->; exact X|]. intros Y. apply N.bits_inj. intros i. specialize (X i). specialize (Y i).
    destruct (N.testbit v i), (N.testbit (fold_right N.lor 0 vs) i); try reflexivity; exfalso.
    - assert (false = true) by (apply X, Y; reflexivity). discriminate.
    - assert (false = true) by (apply Y, X; reflexivity). discriminate.
  Qed.
  Lemma trim_white s : trim s = [] <-> white s.
  Proof.
    split.
    - intros H. destruct (trim_split s) as (a & b & Ha & Hb & E). rewrite H in E. subst s. now apply Forall_app.
    - intros H. unfold trim. rewrite <- (app_nil_r s), trim_start_white by exact H. reflexivity.
  Qed.
  Lemma white_no_bar a : white a -> ~ In 124 a.
  Proof. intros H I. eapply Forall_forall in H; [|exact I]. discriminate H. Qed.
  Lemma part_no_bar t x : flag_part t x -> ~ In 124 t.
  Proof.
    intros (a & u & b & -> & Ha & Hb & W). apply word_wordy in W as (_ & _ & W). apply white_no_bar in Ha, Hb.
    rewrite !in_app_iff. tauto.
  Qed.
  Lemma join_in {sep p ps} c : In p ps -> In c p -> In c (join sep ps).
  Proof.
    induction ps as [|q ps IH]; intros H Hc; [easy|]. cbn [join].
    destruct ps as [|r ps]; [destruct H as [->|[]]; exact Hc|]. rewrite !in_app_iff.
    destruct H as [->|H]; [now left|]. right. right. now apply IH.
  Qed.
  Lemma flags_ok s v : flags_parse (2 ^ width - 1) (bit_table n) s = Some v <-> flag_text n width s v.
  Proof.
    unfold flags_parse, flag_text.
    assert (X : white s \/ trim s <> []) by (destruct (trim s) eqn:E; [left; now apply trim_white|now right]).
    destruct X as [Hw|Hw].
    - rewrite (proj2 (trim_white s) Hw). split; [intros [= <-]; auto|]. intros [[_ ->]|(parts & vs & Hp & -> & F & _)]; [reflexivity|]. exfalso.
      destruct parts as [|t ts]; [congruence|]. inversion F as [|? x ? xs (a & u & b & -> & _ & _ & W) F']; subst. apply word_wordy in W as (W1 & W2 & _).
      destruct u as [|c u]; [congruence|]. apply Forall_inv in W2.
      assert (I : In c (join [124] ((a ++ (c :: u) ++ b) :: ts))).
      { eapply join_in; [now left|]. rewrite !in_app_iff. cbn. auto. }
      eapply Forall_forall in Hw; [|exact I]. cbv beta in Hw. congruence.
    - replace (match trim s with [] => _ | _ => _ end) with (flags_parse_pieces (2 ^ width - 1) (bit_table n) (split_on 124 s))
        by (destruct (trim s); [congruence|reflexivity]).
      rewrite pieces_ok. split.
      + intros (vs & F & E). right. exists (split_on 124 s), vs. destruct (split_join 124 s) as (J1 & J2 & _).
        split; [exact J2|]. split; [now symmetry|]. split; [exact F|]. now apply lor_bits.
      + intros [[H _]|(parts & vs & Hp & -> & F & E)]; [now apply trim_white in H|]. exists vs. apply lor_bits in E.
        split; [|exact E]. rewrite join_split; [exact F|exact Hp|]. clear -F. induction F as [|t x ts xs P F IH]; constructor; [|exact IH].
        now apply part_no_bar in P.
  Qed.
End Flags.

Lemma status_text s v : status_from_str s = Some v <-> flag_text 8 8 s v.
Proof. unfold status_from_str. rewrite status_table. apply flags_ok. lia. Qed.
Lemma ext_status_text s v : ext_status_from_str s = Some v <-> flag_text 9 32 s v.
Proof. unfold ext_status_from_str. rewrite ext_status_table. apply flags_ok. lia. Qed.
