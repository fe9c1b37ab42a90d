(** Tactic setup and general list / N lemmas used by the proof files. *)
From Coq Require Export Lia ZifyBool ZifyNat ZifyN Sorted.
From Verif Require Export Base.
Ltac Zify.zify_post_hook ::= Z.div_mod_to_equations.
#[global] Arguments N.add : simpl never.
#[global] Arguments N.sub : simpl never.
#[global] Arguments N.mul : simpl never.
#[global] Arguments N.div : simpl never.
#[global] Arguments N.modulo : simpl never.
#[global] Arguments N.pow : simpl never.
#[global] Arguments N.leb : simpl never.
#[global] Arguments N.ltb : simpl never.
#[global] Arguments N.eqb : simpl never.
#[global] Arguments N.testbit : simpl never.
#[global] Arguments N.land : simpl never.
#[global] Arguments N.lor : simpl never.
#[global] Arguments N.shiftl : simpl never.
#[global] Arguments N.shiftr : simpl never.
#[global] Arguments N.ones : simpl never.
#[global] Arguments N.ldiff : simpl never.
#[global] Arguments N.of_nat : simpl never.
#[global] Arguments N.to_nat : simpl never.

Lemma nrange_length s n : length (nrange s n) = n.
Proof. revert s; induction n as [|n IH]; intros s; cbn; [reflexivity|]; now rewrite IH. Qed.

Lemma in_nrange s n i : In i (nrange s n) <-> s <= i < s + N.of_nat n.
Proof.
  revert s; induction n as [|n IH]; intros s; cbn [nrange In]; [lia|].
  rewrite IH. lia.
Qed.

Lemma nrange_S s n : nrange s (S n) = nrange s n ++ [s + N.of_nat n].
Proof.
  revert s; induction n as [|n IH]; intros s.
  - cbn. f_equal. lia.
  - cbn [nrange app]. f_equal.
    change (nrange (s + 1) (S n) = nrange (s + 1) n ++ [s + N.of_nat (S n)]).
    rewrite IH. do 2 f_equal. lia.
Qed.

Lemma nrange_map_succ s n : nrange (s + 1) n = map N.succ (nrange s n).
Proof.
  revert s; induction n as [|n IH]; intros s; cbn; [reflexivity|].
  rewrite IH. f_equal. lia.
Qed.

Lemma nrange_sorted s n : StronglySorted N.lt (nrange s n).
Proof.
  revert s; induction n as [|n IH]; intros s; cbn; constructor; [apply IH|].
  apply Forall_forall. intros x. rewrite in_nrange. lia.
Qed.

Lemma sorted_filter {A} (R : A -> A -> Prop) f l :
  StronglySorted R l -> StronglySorted R (filter f l).
Proof.
  induction 1 as [|a l Hs IH Hf]; cbn; [constructor|].
  destruct (f a); [|exact IH]. constructor; [exact IH|].
  apply Forall_forall. intros x Hx. apply filter_In in Hx.
  rewrite Forall_forall in Hf. now apply Hf.
Qed.

Lemma sorted_lt_nodup l : StronglySorted N.lt l -> NoDup l.
Proof.
  induction 1 as [|a l Hs IH Hf]; constructor; [|exact IH].
  intros Hin. rewrite Forall_forall in Hf. specialize (Hf _ Hin). lia.
Qed.

(** Two strictly increasing lists with the same members are equal. *)
Lemma sorted_lt_ext l l' :
  StronglySorted N.lt l -> StronglySorted N.lt l' ->
  (forall x, In x l <-> In x l') -> l = l'.
Proof.
  revert l'; induction l as [|a l IH]; intros l' Hs Hs' He.
  - destruct l' as [|b l']; [reflexivity|]. exfalso. apply (proj2 (He b)). now left.
  - destruct l' as [|b l']; [exfalso; apply (proj1 (He a)); now left|].
    inversion Hs as [|? ? Hs1 Hf1]; subst. inversion Hs' as [|? ? Hs2 Hf2]; subst.
    rewrite Forall_forall in Hf1, Hf2.
    assert (Hab : a = b).
    { destruct (proj1 (He a) (or_introl eq_refl)) as [->|Ha]; [reflexivity|].
      destruct (proj2 (He b) (or_introl eq_refl)) as [->|Hb]; [reflexivity|].
      specialize (Hf1 _ Hb). specialize (Hf2 _ Ha). lia. }
    subst b. f_equal. apply IH; [assumption|assumption|].
    intros x. specialize (He x). cbn in He. split; intros Hx.
    + destruct (proj1 He (or_intror Hx)) as [->|]; [|assumption].
      specialize (Hf1 _ Hx). lia.
    + destruct (proj2 He (or_intror Hx)) as [->|]; [|assumption].
      specialize (Hf2 _ Hx). lia.
Qed.

Lemma filter_map_comm {A B} (f : B -> bool) (g : A -> B) l :
  filter f (map g l) = map g (filter (fun x => f (g x)) l).
Proof.
  induction l as [|a l IH]; cbn; [reflexivity|].
  destruct (f (g a)); cbn; now rewrite IH.
Qed.

Lemma forallb_sweep (P : N -> bool) (n : nat) :
  forallb P (nrange 0 n) = true -> forall x, x < N.of_nat n -> P x = true.
Proof.
  intros H x Hx. rewrite forallb_forall in H. apply H. apply in_nrange. lia.
Qed.

Lemma lookup_in {A} i (l : list (N * A)) x : lookup i l = Some x -> In (i, x) l.
Proof.
  induction l as [|[j y] l IH]; cbn; [discriminate|].
  destruct (N.eqb_spec i j) as [->|]; intros H.
  - injection H as ->. now left.
  - right. now apply IH.
Qed.

Lemma lookup_none {A} i (l : list (N * A)) : lookup i l = None <-> ~ In i (map fst l).
Proof.
  induction l as [|[j y] l IH]; cbn; [tauto|].
  destruct (N.eqb_spec i j) as [->|Hn]; [split; [discriminate|tauto]|].
  rewrite IH. split; [intros H [->|H']; tauto | tauto].
Qed.

Lemma in_lookup {A} i x (l : list (N * A)) :
  NoDup (map fst l) -> In (i, x) l -> lookup i l = Some x.
Proof.
  induction l as [|[j y] l IH]; cbn; [tauto|].
  intros Hnd Hin. inversion Hnd as [|? ? Hn Hnd']; subst.
  destruct Hin as [Heq|Hin].
  - injection Heq as -> ->. now rewrite N.eqb_refl.
  - destruct (N.eqb_spec i j) as [->|]; [|now apply IH].
    exfalso. apply Hn. apply in_map_iff. exists (j, x). now split.
Qed.

Lemma firstn_skipn_app_len {A} (a b : list A) n :
  length a = n -> firstn n (a ++ b) = a /\ skipn n (a ++ b) = b.
Proof.
  intros <-. split.
  - rewrite firstn_app, Nat.sub_diag, firstn_all, firstn_O, app_nil_r. reflexivity.
  - rewrite skipn_app, Nat.sub_diag, skipn_all. reflexivity.
Qed.
