(** Proofs about the configuration (C50). *)
From Verif Require Import SpecCli Tac.

Lemma text_eqb_eq a : forall b, text_eqb a b = true <-> a = b.
Proof.
  induction a as [|x a IH]; intros [|y b]; cbn; try (split; congruence).
  rewrite andb_true_iff, IH, N.eqb_eq. split; [intros [-> ->]; reflexivity|intros [= -> ->]; auto].
Qed.
Lemma link_local_ok a : is_link_local a = true <-> link_local a.
Proof.
  unfold is_link_local, link_local. rewrite text_eqb_eq. split.
  - intros H. exists (skipn 4 a). rewrite <- H. symmetry. apply firstn_skipn.
  - intros [r ->]. reflexivity.
Qed.
Lemma has_cons i l name a : has_address (i :: l) name a <->
  (if_name i = name /\ if_addr i = Some (In6 a)) \/ has_address l name a.
Proof.
  unfold has_address. cbn [In]. split.
  - intros (j & [ <- | H] & E); [now left|]. right. now exists j.
  - intros [H|(j & H & E)]; [exists i; tauto|]. exists j. tauto.
Qed.
Lemma ip6_some i a : if_ip6 i = Some a <-> if_addr i = Some (In6 a).
Proof.
  unfold if_ip6. destruct (if_addr i) as [[b|]|]; cbn; split; try congruence.
Qed.

(** [find_map] over entries of the interface whose address satisfies a test. *)
Lemma find_first (P : ipv6 -> bool) name f : (forall i, f i = if text_eqb (if_name i) name then
    match if_ip6 i with Some a => if P a then Some a else None | None => None end else None) ->
  forall l a, find_map f l = Some a <-> first_address (fun a => P a = true) l name a.
Proof.
  intros Hf l a. induction l as [|i l IH]; cbn [find_map].
  - split; [discriminate|]. intros (before & j & after & E & _). now destruct before.
  - assert (D : f i = Some a \/ (exists b, f i = Some b /\ b <> a) \/ f i = None).
    { destruct (f i) as [b|]; [|tauto]. destruct (list_eq_dec N.eq_dec b a) as [->|]; eauto. }
    assert (S : forall b, f i = Some b <-> if_name i = name /\ if_addr i = Some (In6 b) /\ P b = true).
    { intros b. rewrite Hf. destruct (text_eqb (if_name i) name) eqn:E.
      - apply text_eqb_eq in E. rewrite <- ip6_some. destruct (if_ip6 i) as [c|]; [|split; [discriminate|intros (_ & [=] & _)]].
        destruct (P c) eqn:Ec; split; try congruence.
        + intros [= <-]. auto.
        + intros (_ & [= <-] & _). reflexivity.
        + intros (_ & [= <-] & ?). congruence.
      - split; [discriminate|]. intros (<- & _). assert (text_eqb (if_name i) (if_name i) = true) by now apply text_eqb_eq. congruence. }
    destruct D as [E|[(b & E & Hb)|E]].
    + rewrite E. split; [intros _|reflexivity]. apply S in E. destruct E as (E1 & E2 & E3).
      exists [], i, l. repeat split; try assumption. intros c (j & [] & _).
    + rewrite E. split; [intros [= ->]; congruence|]. intros (before & j & after & El & E1 & E2 & E3 & Nb).
      exfalso. apply S in E. destruct E as (F1 & F2 & F3).
      destruct before as [|k before]; injection El as -> ->; [congruence|].
      apply (Nb b); [|exact F3]. apply has_cons. now left.
    + rewrite E, IH. split.
      * intros (before & j & after & -> & E1 & E2 & E3 & Nb). exists (i :: before), j, after.
        repeat split; try assumption. intros b [[F1 F2]|H]%has_cons; [|now apply Nb].
        intros F3. assert (f i = Some b) by (apply S; auto). congruence.
      * intros (before & j & after & El & E1 & E2 & E3 & Nb). destruct before as [|k before]; injection El as -> ->.
        { assert (f j = Some a) by (apply S; auto). congruence. }
        exists before, j, after. repeat split; try assumption. intros b H. apply Nb. apply has_cons. now right.
Qed.
Lemma find_none (P : ipv6 -> bool) name f : (forall i, f i = if text_eqb (if_name i) name then
    match if_ip6 i with Some a => if P a then Some a else None | None => None end else None) ->
  forall l, find_map f l = None <-> forall a, has_address l name a -> P a = false.
Proof.
  intros Hf l. induction l as [|i l IH]; cbn [find_map].
  - split; [|reflexivity]. intros _ a (i & [] & _).
  - destruct (f i) as [b|] eqn:E.
    + split; [discriminate|]. intros H. rewrite Hf in E. destruct (text_eqb (if_name i) name) eqn:En; [|discriminate].
      apply text_eqb_eq in En. destruct (if_ip6 i) as [c|] eqn:Ec; [|discriminate]. destruct (P c) eqn:Ep; [|discriminate].
      apply ip6_some in Ec. rewrite (H c) in Ep; [discriminate|]. apply has_cons. now left.
    + rewrite IH. split; intros H a Ha.
      * apply has_cons in Ha. destruct Ha as [[<- F2]|Ha]; [|now apply H].
        rewrite Hf in E. replace (text_eqb (if_name i) (if_name i)) with true in E by (symmetry; now apply text_eqb_eq).
        apply ip6_some in F2. rewrite F2 in E. now destruct (P a).
      * apply H. apply has_cons. now right.
Qed.

(** The test in [is_valid_address], in terms of the first IPv6 address. *)
Lemma valid_first ifs name a : is_valid_address ifs name a = true <->
  exists l, ifs = Some l /\ first_address (fun _ => True) l name a.
Proof.
  unfold is_valid_address. destruct ifs as [l|]; [|split; [discriminate|intros (l & [=] & _)]].
  set (g := fun i => if text_eqb (if_name i) name then if_ip6 i else None).
  assert (Hg : forall i, g i = if text_eqb (if_name i) name then
     match if_ip6 i with Some a => if (fun _ : ipv6 => true) a then Some a else None | None => None end else None).
  { intros i. unfold g. destruct (text_eqb _ _); [|reflexivity]. now destruct (if_ip6 i). }
  pose proof (find_first (fun _ => true) name g Hg l) as F.
  assert (E : find_map (fun i => if text_eqb (if_name i) name then option_map (fun ip => text_eqb ip a) (if_ip6 i) else None) l
              = option_map (fun ip => text_eqb ip a) (find_map g l)).
  { clear. induction l as [|i l IH]; [reflexivity|]. cbn [find_map]. rewrite IH. change (g i) with (if text_eqb (if_name i) name then if_ip6 i else None).
    destruct (text_eqb _ _); [|reflexivity]. now destruct (if_ip6 i). }
  rewrite E. destruct (find_map g l) as [b|] eqn:Eb; cbn [option_map].
  - rewrite text_eqb_eq. split.
    + intros ->. exists l. split; [reflexivity|]. destruct (proj1 (F a) eq_refl) as (x & i & y & H).
      exists x, i, y. destruct H as (H1 & H2 & H3 & _ & H4). repeat split; try assumption. intros c Hc _. now apply (H4 c Hc).
    + intros (l' & [= <-] & x & i & y & H1 & H2 & H3 & _ & H4).
      assert (Some b = Some a) as [= ->]; [|reflexivity]. apply F. exists x, i, y. repeat split; try assumption. intros c Hc _. now apply (H4 c Hc).
  - split; [discriminate|]. intros (l' & [= <-] & x & i & y & H1 & H2 & H3 & _ & H4).
    assert (None = Some a) as [=]. apply F. exists x, i, y. repeat split; try assumption. intros c Hc _. now apply (H4 c Hc).
Qed.

Lemma build_explicit ifs b a : cb_address b = Some a ->
  (forall c, build ifs b = Ok c <->
     (exists l, ifs = Some l /\ first_address (fun _ => True) l (cb_interface b) a) /\ c = filled b a) /\
  (forall e, build ifs b = Err e -> e = EBadInterface (cb_interface b)) /\ build ifs b <> Panic.
Proof.
  intros Ha. unfold build. rewrite Ha. pose proof (valid_first ifs (cb_interface b) a) as V.
  destruct (is_valid_address ifs (cb_interface b) a); cbn [obind].
  - split; [|split; [discriminate|discriminate]]. intros c. split.
    + intros [= <-]. split; [now apply V|reflexivity].
    + intros [_ ->]. reflexivity.
  - split; [|split; [now intros e [= <-]|discriminate]]. intros c. split; [discriminate|].
    intros [H _]. apply V in H. discriminate.
Qed.
Lemma build_default ifs b : cb_address b = None ->
  (forall c, build ifs b = Ok c <->
     exists l a, ifs = Some l /\ first_address link_local l (cb_interface b) a /\ c = filled b a) /\
  (forall e, build ifs b = Err e <-> e = EBadInterface (cb_interface b) /\
     forall l a, ifs = Some l -> has_address l (cb_interface b) a -> ~ link_local a) /\
  build ifs b <> Panic.
Proof.
  intros Ha. unfold build. rewrite Ha. unfold find_interface_link_local_addr. destruct ifs as [l|]; cbn [obind].
  2:{ split; [|split; [|discriminate]].
      - intros c. split; [discriminate|]. intros (l & a & [=] & _).
      - intros e. split; [intros [= <-]; split; [reflexivity|]; intros l a [=]|]. now intros [-> _]. }
  assert (Hg : forall i, first_valid_address (cb_interface b) i = if text_eqb (if_name i) (cb_interface b) then
     match if_ip6 i with Some a => if is_link_local a then Some a else None | None => None end else None).
  { intros i. unfold first_valid_address. destruct (text_eqb (cb_interface b) (if_name i)) eqn:E.
    - apply text_eqb_eq in E. rewrite <- E. replace (text_eqb (cb_interface b) (cb_interface b)) with true by (symmetry; now apply text_eqb_eq).
      reflexivity.
    - destruct (text_eqb (if_name i) (cb_interface b)) eqn:E'; [|reflexivity]. apply text_eqb_eq in E'. rewrite E' in E.
      assert (text_eqb (cb_interface b) (cb_interface b) = true) by now apply text_eqb_eq. congruence. }
  pose proof (find_first is_link_local _ _ Hg l) as F. pose proof (find_none is_link_local _ _ Hg l) as Fn.
  assert (L : forall a, first_address (fun a => is_link_local a = true) l (cb_interface b) a <-> first_address link_local l (cb_interface b) a).
  { intros a. unfold first_address. split; intros (x & i & y & H1 & H2 & H3 & H4 & H5); exists x, i, y; repeat split; try assumption.
    - now apply link_local_ok.
    - intros c Hc Hl. apply (H5 c Hc). now apply link_local_ok.
    - now apply link_local_ok.
    - intros c Hc Hl. apply (H5 c Hc). now apply link_local_ok. }
  destruct (find_map _ l) as [a|] eqn:E; cbn [obind].
  - assert (Fa : first_address link_local l (cb_interface b) a) by (apply L, F; reflexivity).
    split; [|split; [|discriminate]].
    + intros c. split.
      * intros [= <-]. exists l, a. auto.
      * intros (l' & a' & [= <-] & H & ->). apply L, F in H. injection H as ->. reflexivity.
    + intros e. split; [discriminate|]. intros [_ H]. exfalso.
      destruct Fa as (x & i & y & -> & H2 & H3 & H4 & _). apply (H _ a eq_refl); [|exact H4].
      exists i. split; [apply in_or_app; right; now left|]. now split.
  - pose proof (proj1 Fn eq_refl) as Hn. split; [|split; [|discriminate]].
    + intros c. split; [discriminate|]. intros (l' & a' & [= <-] & H & ->). apply L, F in H. discriminate.
    + intros e. split.
      * intros [= <-]. split; [reflexivity|]. intros l' a [= <-] H Hl. apply link_local_ok in Hl. rewrite (Hn a H) in Hl. discriminate.
      * now intros [-> _].
Qed.
Lemma first_has P l name a : first_address P l name a -> has_address l name a.
Proof.
  intros (x & i & y & -> & H2 & H3 & _). exists i. split; [apply in_or_app; right; now left|]. now split.
Qed.
Lemma sole_first l name a : has_address l name a -> (forall b, has_address l name b -> b = a) ->
  first_address (fun _ => True) l name a.
Proof.
  intros H U. induction l as [|i l IH]; [destruct H as (j & [] & _)|].
  destruct (text_eqb (if_name i) name) eqn:En.
  - apply text_eqb_eq in En. destruct (if_addr i) as [[b|]|] eqn:Ea.
    + assert (b = a) as -> by (apply U, has_cons; left; auto). exists [], i, l.
      repeat split; auto. intros c (j & [] & _).
    + assert (H' : has_address l name a) by (apply has_cons in H; destruct H as [[_ ?]|?]; [congruence|assumption]).
      destruct (IH H') as (x & j & y & -> & H2 & H3 & H4 & H5); [intros c Hc; apply U, has_cons; now right|].
      exists (i :: x), j, y. repeat split; auto. intros c [[_ ?]|Hc]%has_cons; [congruence|]. exact (H5 c Hc).
    + assert (H' : has_address l name a) by (apply has_cons in H; destruct H as [[_ ?]|?]; [congruence|assumption]).
      destruct (IH H') as (x & j & y & -> & H2 & H3 & H4 & H5); [intros c Hc; apply U, has_cons; now right|].
      exists (i :: x), j, y. repeat split; auto. intros c [[_ ?]|Hc]%has_cons; [congruence|]. exact (H5 c Hc).
  - assert (Ne : if_name i <> name) by (intros E; apply text_eqb_eq in E; congruence).
    assert (H' : has_address l name a) by (apply has_cons in H; destruct H as [[? _]|?]; [congruence|assumption]).
    destruct (IH H') as (x & j & y & -> & H2 & H3 & H4 & H5); [intros c Hc; apply U, has_cons; now right|].
    exists (i :: x), j, y. repeat split; auto. intros c [[? _]|Hc]%has_cons; [congruence|]. exact (H5 c Hc).
Qed.
Lemma build_sole l b a : cb_address b = Some a ->
  (forall x y, has_address l (cb_interface b) x -> has_address l (cb_interface b) y -> x = y) ->
  (build (Some l) b = Ok (filled b a) <-> has_address l (cb_interface b) a).
Proof.
  intros Ha U. destruct (build_explicit (Some l) b a Ha) as (H & _). rewrite H. split.
  - intros ((l' & [= <-] & F) & _). exact (first_has _ _ _ _ F).
  - intros Hh. split; [|reflexivity]. exists l. split; [reflexivity|]. apply sole_first; [exact Hh|]. intros x Hx. exact (U x a Hx Hh).
Qed.
