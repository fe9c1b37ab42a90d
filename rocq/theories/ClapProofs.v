(** Which command lines are accepted (C87). *)
From Coq Require Import String Ascii Lia.
From Verif Require Export SpecClap.
Import ListNotations.
Open Scope N_scope.

Ltac decided := match goal with |- ?x = true <-> _ => let v := eval vm_compute in x in change x with v end;
  split; [intro; try discriminate|intro; try reflexivity; exfalso].
Lemma parsable_accepted {F} (p : ParsableArgs F) :
  forallb (arg_ok (given_parsable p)) (help :: parsable_args) = true <-> parsable_rule p.
Proof.
  unfold parsable_rule, fields_rule. destruct p as [[|] [|o out] [sep|] [|]]; cbn [pa_output pa_separator pa_parseable]; decided;
    intuition (congruence || discriminate).
Qed.
Lemma accepted_rule c : accepted c = true <-> rule c.
Proof.
  unfold accepted. destruct c; try (split; [exact (fun _ => I)|reflexivity]);
    try (cbn [declared given cm_args cm_group plain group_ok]; rewrite Bool.andb_true_r; apply parsable_accepted).
  - unfold rule, fields_rule. destruct with_, without_, all, parseable, output, separator, omit_header; decided;
      intuition (congruence || discriminate).
  - unfold rule, page_rule, parsable_rule, fields_rule. destruct page as [[|] [|] [[n [b|]]|]], binary, args as [[|] [|o out] [sep|] [|]];
      cbn [pg_sff pg_cmis pg_upper pa_output pa_separator pa_parseable]; decided;
      repeat match goal with H : _ /\ _ |- _ => destruct H end;
      try (match goal with H : forall n b, _ = _ -> _ |- _ => specialize (H _ _ eq_refl) end);
      intuition (congruence || discriminate).
  - unfold rule, page_rule. destruct page as [[|] [|] [[n [b|]]|]], input as [cap chunk [f|] [k|] si];
      cbn [pg_sff pg_cmis pg_upper in_file in_kind]; decided;
      repeat match goal with H : _ /\ _ |- _ => destruct H end;
      try (match goal with H : forall n b, _ = _ -> _ |- _ => specialize (H _ _ eq_refl) end);
      intuition (congruence || discriminate).
  - destruct summary; split; (exact (fun _ => I) || reflexivity).
Qed.
Lemma page_calm p : pg_sff p = negb (pg_cmis p) -> args_page p <> Panic.
Proof.
  destruct p as [sff cmis upper]. cbn [pg_sff pg_cmis]. intros ->. unfold args_page. cbn [pg_upper pg_sff pg_cmis].
  destruct upper as [[n b]|], cmis; cbn [negb lower_page upper_page]; try discriminate.
  - destruct b as [b|]; unfold cmis_new_banked, cmis_new_unbanked;
      repeat match goal with |- context [if ?x then _ else _] => destruct x end; discriminate.
  - unfold sff_upper_new. repeat match goal with |- context [if ?x then _ else _] => destruct x end; discriminate.
Qed.
Lemma job_done c : accepted c = true -> did_its_job c.
Proof.
  rewrite accepted_rule. destruct c; cbn [rule did_its_job]; try (intros; exact I).
  - intros (H1 & H2 & _). unfold status_kind. destruct with_, without_, all, parseable; try (eexists; reflexivity);
      exfalso; intuition (congruence || discriminate).
  - intros ((H & _) & _). now apply page_calm.
  - intros ((H & _) & Hi). split; [now apply page_calm|]. intros (A & B). exact (Hi A B).
Qed.

(** Names. *)
Definition some_list {A} (l : list (option A)) : list A := flat_map (fun o => match o with Some x => [x] | None => [] end) l.
Lemma few_same {A} (eqb : A -> A -> bool) (get : arg -> option A) (Heq : forall a b, eqb a b = true <-> a = b) l x :
  NoDup (some_list (map get l)) -> at_most_one (map ag_id (filter (fun a => match get a with Some y => eqb y x | None => false end) l)).
Proof.
  unfold at_most_one. rewrite map_length. induction l as [|a l IH]; intro H; [cbn; lia|].
  cbn [map some_list flat_map filter] in *. fold (some_list (map get l)) in H. destruct (get a) as [y|] eqn:E.
  - cbn [app] in H. inversion_clear H as [|? ? Hn Hd]. destruct (eqb y x) eqn:Ey; [|exact (IH Hd)].
    apply Heq in Ey. subst y. cbn [List.length].
    enough (N0 : filter (fun a => match get a with Some y => eqb y x | None => false end) l = []) by (rewrite N0; cbn; lia).
    clear - Hn Heq. induction l as [|b l IH]; [reflexivity|]. cbn [map some_list flat_map] in Hn. fold (some_list (map get l)) in Hn.
    cbn [filter]. destruct (get b) as [z|]; [|exact (IH Hn)]. destruct (eqb z x) eqn:Ez; [|apply IH; intro; apply Hn; now right].
    apply Heq in Ez. subst z. exfalso. apply Hn. now left.
  - exact (IH H).
Qed.
Fixpoint distinct {A} (eqb : A -> A -> bool) (l : list A) : bool :=
  match l with [] => true | x :: r => negb (existsb (eqb x) r) && distinct eqb r end.
Lemma distinct_nodup {A} (eqb : A -> A -> bool) (Heq : forall a b, eqb a b = true <-> a = b) l : distinct eqb l = true -> NoDup l.
Proof.
  induction l as [|x l IH]; cbn; intro H; [constructor|]. apply andb_prop in H. destruct H as (H1 & H2).
  constructor; [|now apply IH]. intro Hi. apply Bool.negb_true_iff in H1. enough (existsb (eqb x) l = true) by congruence.
  apply existsb_exists. exists x. split; [exact Hi|now apply Heq].
Qed.
Lemma letters_of l x : distinct Ascii.eqb (some_list (map ag_short l)) = true -> at_most_one (by_letter l x).
Proof. intro H. apply (few_same Ascii.eqb ag_short Ascii.eqb_eq), (distinct_nodup _ Ascii.eqb_eq), H. Qed.
Lemma names_of l x : distinct String.eqb (some_list (map ag_long l)) = true -> at_most_one (by_name l x).
Proof. intro H. apply (few_same String.eqb ag_long String.eqb_eq), (distinct_nodup _ String.eqb_eq), H. Qed.
Lemma one_name c n : at_most_one (by_name (cm_args (declared c)) n) /\ at_most_one (by_name top_args n).
Proof.
  split; apply names_of; [|reflexivity].
  destruct c; try reflexivity; destruct page as [sff cmis [u|]]; reflexivity.
Qed.
Lemma letter_filter (p : arg -> bool) x l : Forall (fun a => p a = false -> ag_short a <> Some x) l ->
  by_letter l x = by_letter (filter p l) x.
Proof.
  unfold by_letter. induction 1 as [|a l Ha _ IH]; [reflexivity|]. cbn [filter]. destruct (p a); cbn [filter].
  - destruct (match ag_short a with Some _ => _ | None => _ end); cbn [map]; now rewrite IH.
  - specialize (Ha eq_refl). destruct (ag_short a) as [y|]; [|exact IH]. destruct (Ascii.eqb_spec y x) as [->|]; [now destruct Ha|exact IH].
Qed.
Lemma one_letter c x : (reads_upper c = true -> x <> "p"%char) ->
  at_most_one (by_letter (cm_args (declared c)) x) /\ at_most_one (by_letter top_args x).
Proof.
  intro H. split; [|apply letters_of; reflexivity].
  destruct c; try (apply letters_of; reflexivity); destruct page as [sff cmis [u|]]; try (apply letters_of; reflexivity).
  specialize (H eq_refl). rewrite (letter_filter (fun a => negb (String.eqb (ag_id a) "parseable"))).
  - apply letters_of. reflexivity.
  - repeat constructor; cbn; intro; congruence.
Qed.

Lemma spelled : (forall c, typed_as (cm_args (declared c)) = command_options c) /\ typed_as top_args = general_options.
Proof.
  split; [|reflexivity]. intros c. destruct c; try reflexivity; destruct page as [? ? [[? ?]|]]; reflexivity.
Qed.
