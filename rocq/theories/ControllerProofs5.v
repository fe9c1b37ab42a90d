(** Proofs about the controller, part 5: grouping by identifier and parsing (C40). *)
From Coq Require Import Permutation.
From Verif Require Export ControllerProofs4.

(** ** The order on identifiers *)
Lemma benum_eqb_eq a b : benum_eqb a b = true <-> a = b.
Proof.
  destruct a as [x|i x], b as [y|j y]; cbn; try (split; congruence).
  - rewrite N.eqb_eq. split; congruence.
  - rewrite andb_true_iff, Nat.eqb_eq, N.eqb_eq. split; [intros [-> ->]; reflexivity|].
    intros E. injection E as -> ->. auto.
Qed.
Lemma benum_ltb_irrefl a : benum_ltb a a = false.
Proof.
  destruct a as [x|i x]; unfold benum_ltb; rewrite ?Nat.ltb_irrefl, ?Nat.eqb_refl, N.ltb_irrefl; reflexivity.
Qed.
Lemma benum_ltb_trans a b c : benum_ltb a b = true -> benum_ltb b c = true -> benum_ltb a c = true.
Proof.
  destruct a as [x|i x], b as [y|j y], c as [z|k z]; unfold benum_ltb; try congruence.
  - rewrite !N.ltb_lt. lia.
  - rewrite !orb_true_iff, !andb_true_iff, !Nat.ltb_lt, !Nat.eqb_eq, !N.ltb_lt. lia.
Qed.
Lemma benum_total a b : benum_eqb a b = false -> benum_ltb a b = false -> benum_ltb b a = true.
Proof.
  destruct a as [x|i x], b as [y|j y]; unfold benum_ltb, benum_eqb; try congruence.
  - rewrite N.eqb_neq, N.ltb_ge, N.ltb_lt. lia.
  - rewrite andb_false_iff, orb_false_iff, andb_false_iff, orb_true_iff, andb_true_iff,
      !Nat.eqb_neq, !Nat.ltb_ge, !N.eqb_neq, !N.ltb_ge, !Nat.ltb_lt, !Nat.eqb_eq, !N.ltb_lt.
    intros. lia.
Qed.

(** ** Groups *)
Definition groups_t := list (Identifier * ModuleId).
Definition gsorted (gs : groups_t) := StronglySorted (fun a b => benum_ltb (fst a) (fst b) = true) gs.

(** [gs] groups exactly the pairs of [l]. *)
Definition groups_of (l : list (N * Identifier)) (gs : groups_t) : Prop :=
  gsorted gs /\
  (forall k mk, In (k, mk) gs -> mk <> 0 /\ forall i, N.testbit mk i = true <-> In (i, k) l) /\
  (forall i k, In (i, k) l -> exists mk, In (k, mk) gs).

Lemma ident_insert_in k p gs : gsorted gs -> forall k' m',
  In (k', m') (ident_insert k p gs) <->
  (k' <> k /\ In (k', m') gs) \/
  (k' = k /\ exists m0, m' = N.lor m0 (N.shiftl 1 p) /\
               ((In (k, m0) gs) \/ (m0 = 0 /\ forall m1, ~ In (k, m1) gs))).
Proof.
  intros Hs k' m'. induction Hs as [|[k1 m1] gs Hs IH Hf]; cbn [ident_insert].
  - cbn. split.
    + intros [E|[]]. injection E as <- <-. right. split; [reflexivity|]. exists 0. auto.
    + intros [[_ []]|(-> & m0 & -> & [[]|[-> _]])]. now left.
  - rewrite Forall_forall in Hf.
    destruct (benum_eqb k k1) eqn:E1; [|destruct (benum_ltb k k1) eqn:E2].
    + apply benum_eqb_eq in E1. subst k1. cbn [In]. split.
      * intros [E|H]; [injection E as <- <-; right; split; [reflexivity|]; exists m1; auto|].
        left. split; [|auto]. intros ->. specialize (Hf _ H). cbn in Hf. rewrite benum_ltb_irrefl in Hf. discriminate.
      * intros [[Hn [E|H]]|(-> & m0 & -> & [[E|H]|[-> H]])].
        -- injection E as -> ->. congruence.
        -- now right.
        -- injection E as ->. now left.
        -- exfalso. specialize (Hf _ H). cbn in Hf. rewrite benum_ltb_irrefl in Hf. discriminate.
        -- exfalso. eapply H. now left.
    + assert (Hno : forall m1', ~ In (k, m1') ((k1, m1) :: gs)).
      { intros m1' [E|H]; [injection E as -> ->; rewrite benum_ltb_irrefl in E2; discriminate|].
        specialize (Hf _ H). cbn in Hf. pose proof (benum_ltb_trans _ _ _ E2 Hf) as T.
        rewrite benum_ltb_irrefl in T. discriminate. }
      cbn [In]. split.
      * intros [E|H]; [injection E as <- <-; right; split; [reflexivity|]; exists 0; split; [reflexivity|];
          right; split; [reflexivity|]; exact Hno|].
        left. split; [|exact H]. intros ->. exact (Hno _ H).
      * intros [[Hn H]|(-> & m0 & -> & [H|[-> _]])]; [now right| |now left].
        exfalso. exact (Hno _ H).
    + cbn [In]. rewrite IH. split.
      * intros [E|[[Hn H]|(-> & m0 & -> & H)]].
        -- injection E as <- <-. left. split; [|now left]. intros ->.
           rewrite (proj2 (benum_eqb_eq k k) eq_refl) in E1. discriminate.
        -- left. split; [exact Hn|now right].
        -- right. split; [reflexivity|]. exists m0. split; [reflexivity|].
           destruct H as [H|[-> H]]; [now left; right|]. right. split; [reflexivity|].
           intros m2 [E|H2]; [|exact (H _ H2)]. injection E as -> ->.
           rewrite (proj2 (benum_eqb_eq k k) eq_refl) in E1. discriminate.
      * intros [[Hn [E|H]]|(-> & m0 & -> & H)].
        -- now left.
        -- right. left. auto.
        -- right. right. split; [reflexivity|]. exists m0. split; [reflexivity|].
           destruct H as [[E|H]|[-> H]]; [|now left|right; split; [reflexivity|]].
           ++ injection E as -> ->. rewrite (proj2 (benum_eqb_eq k k) eq_refl) in E1. discriminate.
           ++ intros m2 H2. apply (H m2). now right.
Qed.

Lemma ident_insert_sorted k p gs : gsorted gs -> gsorted (ident_insert k p gs).
Proof.
  intros Hs. pose proof Hs as Hs0. induction Hs as [|[k1 m1] gs Hs IH Hf]; cbn [ident_insert].
  - constructor; constructor.
  - destruct (benum_eqb k k1) eqn:E1; [|destruct (benum_ltb k k1) eqn:E2].
    + constructor; assumption.
    + constructor; [exact Hs0|]. constructor; [exact E2|].
      eapply Forall_impl; [|exact Hf]. intros [k2 m2] H. cbn in *. eapply benum_ltb_trans; eassumption.
    + constructor; [now apply IH|]. apply Forall_forall. intros [k2 m2] H2.
      apply ident_insert_in in H2; [|exact Hs]. cbn. rewrite Forall_forall in Hf.
      destruct H2 as [[_ H2]|(-> & _)]; [exact (Hf _ H2)|]. now apply benum_total.
Qed.

Lemma shiftl_bit p i : N.testbit (N.shiftl 1 p) i = (p =? i).
Proof. rewrite shiftl1. apply N.pow2_bits_eqb. Qed.

Lemma groups_insert l gs p k : groups_of l gs -> groups_of (l ++ [(p, k)]) (ident_insert k p gs).
Proof.
  intros (Hs & Hm & He). split; [now apply ident_insert_sorted|]. split.
  - intros k' m' H. apply ident_insert_in in H; [|exact Hs].
    destruct H as [[Hn H]|(-> & m0 & -> & H)].
    + destruct (Hm _ _ H) as [Hz Hb]. split; [exact Hz|]. intros i. rewrite Hb, in_app_iff. cbn.
      split; [now left|]. intros [|[E|[]]]; [assumption|]. injection E as -> ->. congruence.
    + split.
      * intros E. assert (X : N.testbit (N.lor m0 (N.shiftl 1 p)) p = true)
          by (rewrite N.lor_spec, shiftl_bit, N.eqb_refl; apply orb_true_r).
        rewrite E, N.bits_0 in X. discriminate.
      * intros i. rewrite N.lor_spec, shiftl_bit, orb_true_iff, N.eqb_eq, in_app_iff. cbn.
        assert (A : N.testbit m0 i = true <-> In (i, k) l).
        { destruct H as [H|[-> H]]; [apply (Hm _ _ H)|]. rewrite N.bits_0. split; [discriminate|].
          intros K. destruct (He _ _ K) as [m1 K1]. exfalso. exact (H _ K1). }
        rewrite A. split; (intros [X|X]; [now left|right]).
        -- left. now subst.
        -- destruct X as [E|[]]. congruence.
  - intros i k' H. apply in_app_or in H. destruct H as [H|[E|[]]].
    + destruct (He _ _ H) as [m0 H0]. destruct (benum_eqb k' k) eqn:Ek.
      * apply benum_eqb_eq in Ek. subst k'. eexists. apply ident_insert_in; [exact Hs|].
        right. split; [reflexivity|]. exists m0. split; [reflexivity|]. now left.
      * exists m0. apply ident_insert_in; [exact Hs|]. left. split; [|exact H0]. intros ->.
        rewrite (proj2 (benum_eqb_eq k k) eq_refl) in Ek. discriminate.
    + injection E as <- <-. destruct (existsb (fun g => benum_eqb (fst g) k) gs) eqn:X.
      * apply existsb_exists in X. destruct X as ([k1 m1] & Hin & X). cbn in X. apply benum_eqb_eq in X. subst k1.
        eexists. apply ident_insert_in; [exact Hs|]. right. split; [reflexivity|].
        exists m1. split; [reflexivity|]. now left.
      * eexists. apply ident_insert_in; [exact Hs|]. right. split; [reflexivity|]. exists 0.
        split; [reflexivity|]. right. split; [reflexivity|]. intros m1 K.
        assert (existsb (fun g => benum_eqb (fst g) k) gs = true); [|congruence].
        apply existsb_exists. exists (k, m1). split; [exact K|]. now apply benum_eqb_eq.
Qed.

Lemma groups_fold l : forall l0 gs, groups_of l0 gs ->
  groups_of (l0 ++ l) (fold_left (fun o p => ident_insert (snd p) (fst p) o) l gs).
Proof.
  induction l as [|[p k] l IH]; intros l0 gs H; cbn [fold_left]; [now rewrite app_nil_r|].
  change ((p, k) :: l) with ([(p, k)] ++ l). rewrite app_assoc. apply IH. now apply groups_insert.
Qed.

Lemma split_groups m ids : aligned m ids ->
  exists gs, split_modules_by_identifier m ids = Ok gs /\ groups_of (zip_data m ids) gs.
Proof.
  intros [Hm Hl]. unfold split_modules_by_identifier. rewrite Hl, Nat.eqb_refl.
  eexists. split; [reflexivity|]. apply (groups_fold (zip_data m ids) [] []).
  split; [constructor|]. split; [intros ? ? []|intros ? ? []].
Qed.

Lemma in_zip_get {A} m (d : list A) i x : In (i, x) (zip_data m d) <-> get m d i = Some x.
Proof. apply at_port_get. Qed.

(** ** Reading all the pieces *)
Section Pieces.
  Context {St : Type} (a : honest St) (Hok : honest_ok a).
  Context (mem : N -> MemoryRead -> verdict).
  Implicit Type w : world St.
  Local Notation sp := (honest_sp a).

  Definition only_reads (ds : list done) : Prop :=
    Forall (fun x => match x with DRequest (HRead _ _) None => True | _ => False end) ds.

  Lemma honest_read_each rds : forall w m, mask_ok m = true -> reads_as a (w_sp w) mem ->
    Forall (fun rd => 1 <= rd_len rd <= 255) rds ->
    exists rs w' ds, read_each sp m rds w = (w', Ok rs) /\ reads_as a (w_sp w') mem /\
      grew w w' ds /\ only_reads ds /\
      Forall2 (fun rd r => rrep m (told (fun x => x) (fun i => mem i rd)) r) rds rs.
  Proof.
    induction rds as [|rd rds IH]; intros w m Hm Hr Hl.
    - exists [], w, []. split; [reflexivity|]. split; [exact Hr|]. split; [apply grew_refl|]. split; constructor.
    - pose proof (Forall_inv Hl) as Hl1. apply Forall_inv_tail in Hl.
      destruct (honest_read_impl a Hok mem rd Hl1 w m Hr Hm) as (r & w1 & gs & E1 & R1 & A1 & L1 & _ & _).
      destruct (IH w1 m Hm A1 Hl) as (rs & w2 & ds & E2 & A2 & L2 & O2 & F2).
      exists (r :: rs), w2, (map (fun g => DRequest (HRead g rd) None) gs ++ ds).
      split; [|split; [exact A2|split; [eapply grew_trans; eassumption|split]]].
      + cbn [read_each]. erewrite cbind_ok by exact E1. erewrite cbind_ok by exact E2. reflexivity.
      + apply Forall_app. split; [|exact O2]. apply Forall_forall. intros x Hx. apply in_map_iff in Hx.
        destruct Hx as (g & <- & _). exact I.
      + constructor; assumption.
  Qed.

  Lemma pieces_gather m rds rs i : N.testbit m i = true ->
    Forall2 (fun rd r => rrep m (told (fun x => x) (fun i => mem i rd)) r) rds rs ->
    match gather mem i rds with
    | inr e => first_err rs i = Some e
    | inl ds => first_err rs i = None /\
                omapM (fun r => @opt_unwrap Error _ (result_nth r i)) rs = Ok ds
    end.
  Proof.
    intros Hi H. induction H as [|rd r rds rs [_ R] _ IH]; [split; reflexivity|].
    cbn [gather first_err omapM]. destruct (R i) as [G E]. rewrite Hi in G, E. unfold told in G, E.
    unfold result_nth_err. rewrite failed_nth_get, result_nth_get. unfold rerr in E. rewrite E, G.
    destruct (mem i rd) as [d|b]; [|reflexivity].
    destruct (gather mem i rds) as [ds|e]; [|exact IH]. destruct IH as [-> ->]. split; reflexivity.
  Qed.
End Pieces.

(** ** Building the result *)
Lemma index_insert_spec {P} k (x : P) l : StronglySorted N.lt (map fst l) ->
  StronglySorted N.lt (map fst (index_insert k x l)) /\
  (forall i, lookup i (index_insert k x l) = if i =? k then Some x else lookup i l) /\
  (forall i, In i (map fst (index_insert k x l)) <-> i = k \/ In i (map fst l)).
Proof.
  induction l as [|[j y] l IH]; intros Hs; cbn [index_insert].
  - split; [repeat constructor|]. split; [intros i; cbn; reflexivity|]. intros i. cbn. intuition.
  - cbn [map fst] in Hs. inversion Hs as [|? ? Hs' Hf]; subst. destruct (IH Hs') as (S & L & I).
    destruct (N.eqb_spec k j) as [->|Hkj]; [|destruct (N.ltb_spec k j)].
    + split; [exact Hs|]. split; [|intros i; cbn; intuition].
      intros i. cbn [lookup]. destruct (i =? j); reflexivity.
    + split; [|split; [intros i; reflexivity|intros i; cbn; intuition]].
      cbn [map fst]. constructor; [exact Hs|]. constructor; [assumption|].
      eapply Forall_impl; [|exact Hf]. intros z Hz. cbn in Hz. lia.
    + split; [|split].
      * cbn [map fst]. constructor; [exact S|]. apply Forall_forall. intros z Hz. apply I in Hz.
        rewrite Forall_forall in Hf. destruct Hz as [->|Hz]; [lia|auto].
      * intros i. cbn [lookup]. rewrite L. destruct (N.eqb_spec i j) as [->|]; [|reflexivity].
        destruct (N.eqb_spec j k); [congruence|reflexivity].
      * intros i. cbn [map fst In]. rewrite I. intuition.
Qed.

Definition is_err {E P} (o : outcome E P) : bool := match o with Err _ => true | _ => false end.
Definition err_of {P} (o : outcome TransceiverError P) : TransceiverError :=
  match o with Err e => e | _ => TeDecode DeParseFailed end.

Section Build.
  Context {P : Type} (F : N -> outcome TransceiverError P) (im ifm : N) (ierrs : list TransceiverError).

  Record built (ps : list N) (s : parsing P) : Prop := {
    b_mod : forall i, N.testbit (ps_modules s) i =
              N.testbit im i && negb (existsb (N.eqb i) (filter (fun j => is_err (F j)) ps));
    b_modok : mask_ok (ps_modules s) = true;
    b_fail : forall i, N.testbit (ps_failed s) i =
              N.testbit ifm i || existsb (N.eqb i) (filter (fun j => is_err (F j)) ps);
    b_failok : mask_ok (ps_failed s) = true;
    b_errs : ps_errors s = ierrs ++ map (fun j => err_of (F j)) (filter (fun j => is_err (F j)) ps);
    b_sorted : StronglySorted N.lt (map fst (ps_data s));
    b_data : forall i, lookup i (ps_data s) =
               if existsb (N.eqb i) ps then match F i with Ok x => Some x | _ => None end else None }.

  Lemma existsb_snoc i l j : existsb (N.eqb i) (l ++ [j]) = existsb (N.eqb i) l || (i =? j).
  Proof. rewrite existsb_app. cbn. now rewrite orb_false_r. Qed.

  Lemma built_fail ps s i e : built ps s -> i < 64 -> F i = Err e -> ~ In i ps ->
    exists s', parse_fail s i e = Ok s' /\ built (ps ++ [i]) s'.
  Proof.
    intros [H1 H2 H3 H4 H5 H6 H7] Hi Hf Hn. unfold parse_fail, m_clear, m_set, MAX_INDEX.
    destruct (N.leb_spec 64 i); [lia|]. cbn [ounwrap obind]. eexists. split; [reflexivity|].
    assert (Fl : filter (fun j => is_err (F j)) (ps ++ [i]) = filter (fun j => is_err (F j)) ps ++ [i])
      by (rewrite filter_app; cbn; now rewrite Hf).
    constructor; cbn [ps_modules ps_failed ps_errors ps_data]; rewrite ?Fl.
    - intros j. rewrite existsb_snoc, N.land_spec, not64_spec, H1, shiftl_bit, (N.eqb_sym j i).
      destruct (N.testbit im j) eqn:Ej; [|reflexivity]. cbn [andb].
      destruct (existsb (N.eqb j) (filter (fun j0 => is_err (F j0)) ps)) eqn:Ex; [reflexivity|]. cbn [negb andb orb].
      assert (Hj : j <? 64 = true).
      { apply N.ltb_lt. apply (proj1 (mask_ok_testbit (ps_modules s)) H2). rewrite H1, Ej, Ex. reflexivity. }
      rewrite Hj. reflexivity.
    - now apply mask_ok_land_l.
    - intros j. rewrite existsb_snoc, N.lor_spec, H3, shiftl_bit, (N.eqb_sym j i). now rewrite orb_assoc.
    - rewrite mask_ok_lor, H4. cbn. apply mask_ok_testbit. intros j. rewrite shiftl_bit, N.eqb_eq. now intros <-.
    - rewrite H5, map_app, app_assoc. cbn. now rewrite Hf.
    - exact H6.
    - intros j. rewrite H7, existsb_snoc. destruct (N.eqb_spec j i) as [->|]; [|now rewrite orb_false_r].
      rewrite Hf. now destruct (existsb _ _).
  Qed.

  Lemma built_ok ps s i x : built ps s -> F i = Ok x ->
    built (ps ++ [i]) (mkParsing (ps_modules s) (ps_failed s) (ps_errors s) (index_insert i x (ps_data s))).
  Proof.
    intros [H1 H2 H3 H4 H5 H6 H7] Hf.
    assert (Fl : filter (fun j => is_err (F j)) (ps ++ [i]) = filter (fun j => is_err (F j)) ps)
      by (rewrite filter_app; cbn; rewrite Hf; apply app_nil_r).
    destruct (index_insert_spec i x _ H6) as (S & L & _).
    constructor; cbn [ps_modules ps_failed ps_errors ps_data]; rewrite ?Fl; auto.
    intros j. rewrite L, H7, existsb_snoc. destruct (N.eqb_spec j i) as [->|]; [|now rewrite orb_false_r].
    rewrite orb_true_r, Hf. reflexivity.
  Qed.
End Build.

(** ** The query *)
Section QueryProofs.
  Context {St : Type} (a : honest St) (Hok : honest_ok a).
  Context {P : Type} (reads : Identifier -> outcome DecodeError (list MemoryRead))
          (parse : Identifier -> list (list N) -> outcome DecodeError P)
          (mem : N -> MemoryRead -> verdict).
  Implicit Type w : world St.
  Local Notation sp := (honest_sp a).
  Let F := said reads parse mem.
  Let ids := ident_told mem.

  Lemma parse_each_built im ifm ierrs id mk rds rs :
    reads id = Ok rds ->
    Forall2 (fun rd r => rrep mk (told (fun x => x) (fun i => mem i rd)) r) rds rs ->
    forall l ps s, built F im ifm ierrs ps s ->
      Forall (fun i => N.testbit mk i = true /\ i < 64 /\ ids i = inl id /\ F i <> Panic) l ->
      NoDup (ps ++ l) ->
      exists s', parse_each parse id rs l s = Ok s' /\ built F im ifm ierrs (ps ++ l) s'.
  Proof.
    intros Hrd HF. induction l as [|i l IH]; intros ps s Hb Hl Hd.
    - exists s. rewrite app_nil_r. auto.
    - pose proof (Forall_inv Hl) as (Hi & H64 & Hid & Hp). apply Forall_inv_tail in Hl.
      assert (Hstep : exists s1, parse_one parse id rs s i = Ok s1 /\ built F im ifm ierrs (ps ++ [i]) s1).
      { unfold parse_one. pose proof (pieces_gather mem mk rds rs i Hi HF) as G.
        assert (Fi : F i = own reads parse mem id i).
        { unfold F, said. fold ids. now rewrite Hid. }
        unfold own in Fi. rewrite Hrd in Fi.
        assert (Hnin : ~ In i ps).
        { intros K. clear -Hd K. induction ps as [|p ps IHp]; [destruct K|]. cbn in Hd.
          inversion Hd as [|? ? N1 N2]; subst. destruct K as [->|K]; [|auto].
          apply N1, in_or_app. right. now left. }
        destruct (gather mem i rds) as [ds|e].
        - destruct G as [-> ->]. cbn [obind]. destruct (parse id ds) as [x|e|].
          + eexists. split; [reflexivity|]. now apply built_ok.
          + now apply built_fail.
          + congruence.
        - rewrite G. now apply built_fail. }
      destruct Hstep as (s1 & E1 & B1). destruct (IH (ps ++ [i]) s1 B1 Hl) as (s2 & E2 & B2).
      { now rewrite <- app_assoc. }
      exists s2. split; [cbn [parse_each]; rewrite E1; exact E2|]. now rewrite <- app_assoc in B2.
  Qed.

  Lemma parse_groups_built im ifm ierrs gs : forall w ps s,
    reads_as a (w_sp w) mem -> built F im ifm ierrs ps s ->
    Forall (fun g => mask_ok (snd g) = true /\
      (exists rds, reads (fst g) = Ok rds /\ Forall (fun rd => 1 <= rd_len rd <= 255) rds) /\
      forall i, N.testbit (snd g) i = true -> ids i = inl (fst g) /\ F i <> Panic) gs ->
    NoDup (ps ++ concat (map (fun g => to_indices (snd g)) gs)) ->
    exists s' w' ds, parse_groups sp reads parse gs s w = (w', Ok s') /\ reads_as a (w_sp w') mem /\
      grew w w' ds /\ only_reads ds /\
      built F im ifm ierrs (ps ++ concat (map (fun g => to_indices (snd g)) gs)) s'.
  Proof.
    induction gs as [|[id mk] gs IH]; intros w ps s Hr Hb Hg Hd.
    - exists s, w, []. cbn. rewrite app_nil_r. split; [reflexivity|]. split; [exact Hr|].
      split; [apply grew_refl|]. split; [constructor|exact Hb].
    - pose proof (Forall_inv Hg) as (Hmk & (rds & Hrds & Hlen) & Hin). apply Forall_inv_tail in Hg.
      cbn [fst snd] in *.
      destruct (honest_read_each a Hok mem rds w mk Hmk Hr Hlen) as (rs & w1 & ds1 & E1 & A1 & L1 & O1 & F1).
      cbn [map concat] in Hd. cbn [snd] in Hd.
      destruct (parse_each_built im ifm ierrs id mk rds rs Hrds F1 (to_indices mk) ps s Hb) as (s1 & E2 & B1).
      { apply Forall_forall. intros i Hi. apply in_to_indices in Hi. destruct Hi as [H64 Hi].
        destruct (Hin i Hi). auto. }
      { rewrite app_assoc in Hd. clear -Hd. induction (ps ++ to_indices mk) as [|x l IHl]; [constructor|].
        cbn in Hd. inversion Hd as [|? ? N1 N2]; subst. constructor; [|auto].
        intros X. apply N1, in_or_app. now left. }
      destruct (IH w1 (ps ++ to_indices mk) s1 A1 B1 Hg) as (s2 & w2 & ds2 & E3 & A2 & L2 & O2 & B2).
      { now rewrite <- app_assoc. }
      exists s2, w2, (ds1 ++ ds2). split; [|split; [exact A2|split; [eapply grew_trans; eassumption|split]]].
      + cbn [parse_groups]. rewrite Hrds. cbn [omap_err]. erewrite cbind_ok by reflexivity.
        erewrite cbind_ok by exact E1. rewrite E2. erewrite cbind_ok by reflexivity. exact E3.
      + apply Forall_app. auto.
      + cbn [map concat snd]. now rewrite <- app_assoc in B2.
  Qed.

  (** The ports in the order in which the query meets them. *)
  Definition meets (l : list N) : Prop :=
    forall p q i j, l = p ++ i :: q -> In j q ->
      match ids i, ids j with
      | inr _, inr _ => i < j
      | inr _, inl _ => True
      | inl _, inr _ => False
      | inl x, inl y => benum_ltb x y = true \/ (x = y /\ i < j)
      end.

  Lemma group_mask_lt (l : list (N * Identifier)) mk k :
    (forall i, N.testbit mk i = true <-> In (i, k) l) -> Forall (fun p => fst p < 64) l -> mask_ok mk = true.
  Proof.
    intros H Hl. apply mask_ok_testbit. intros i Hi. apply H in Hi. rewrite Forall_forall in Hl.
    exact (Hl _ Hi).
  Qed.

  Lemma groups_nodup (l : list (N * Identifier)) gs : groups_of l gs -> NoDup (map fst l) ->
    Forall (fun p => fst p < 64) l ->
    NoDup (concat (map (fun g => to_indices (snd g)) gs)) /\
    (forall i, In i (concat (map (fun g => to_indices (snd g)) gs)) <-> In i (map fst l)) /\
    (forall p q i j, concat (map (fun g => to_indices (snd g)) gs) = p ++ i :: q -> In j q ->
       exists x y, In (i, x) l /\ In (j, y) l /\ (benum_ltb x y = true \/ (x = y /\ i < j))).
  Proof.
    intros (Hs & Hm & He) Hd H64.
    assert (Hmk : forall k mk, In (k, mk) gs -> mask_ok mk = true).
    { intros k mk H. apply (group_mask_lt l mk k); [apply (Hm _ _ H)|exact H64]. }
    assert (Hord : forall p q i j, concat (map (fun g => to_indices (snd g)) gs) = p ++ i :: q -> In j q ->
       exists x y, In (i, x) l /\ In (j, y) l /\ (benum_ltb x y = true \/ (x = y /\ i < j))).
    { assert (Hm' : forall k mk, In (k, mk) gs -> forall i, N.testbit mk i = true <-> In (i, k) l)
        by (intros k mk H; apply (Hm _ _ H)).
      clear Hm He. revert Hs Hm' Hmk. induction gs as [|[k mk] gs IH]; intros Hs Hm' Hmk p q i j E Hj.
      - cbn in E. destruct p; discriminate.
      - cbn [map concat snd] in E. inversion Hs as [|? ? Hs' Hf]; subst. rewrite Forall_forall in Hf.
        assert (Hk : forall x, In x (to_indices mk) -> In (x, k) l).
        { intros x Hx. apply (Hm' k mk); [now left|]. apply in_to_indices in Hx. tauto. }
        assert (Hrest : forall x, In x (concat (map (fun g => to_indices (snd g)) gs)) ->
                  exists y, In (x, y) l /\ benum_ltb k y = true).
        { intros x Hx. apply in_concat in Hx. destruct Hx as (t & Ht & Hx). apply in_map_iff in Ht.
          destruct Ht as ([k2 m2] & <- & Hin). exists k2. split; [|exact (Hf _ Hin)].
          apply (Hm' k2 m2); [now right|]. cbn in Hx. apply in_to_indices in Hx. tauto. }
        apply app_eq_app in E. destruct E as (t & [[E1 E2]|[E1 E2]]).
        + destruct t as [|z t].
          * cbn in E2. rewrite app_nil_r in E1. 
            destruct (IH Hs' (fun k0 m0 H => Hm' k0 m0 (or_intror H)) (fun k0 m0 H => Hmk k0 m0 (or_intror H))
                        [] q i j (eq_sym E2) Hj) as (x & y & A).
            exists x, y. exact A.
          * cbn in E2. injection E2 as -> ->. exists k.
            pose proof (to_indices_sorted mk) as Hso. rewrite E1 in Hso. apply sorted_app_inv in Hso.
            destruct Hso as (_ & Hso & _). inversion Hso as [|? ? _ Hfz]; subst. rewrite Forall_forall in Hfz.
            assert (Hz : In (z, k) l) by (apply Hk; rewrite E1; apply in_or_app; right; now left).
            apply in_app_or in Hj. destruct Hj as [Hj|Hj].
            -- exists k. split; [exact Hz|]. split; [apply Hk; rewrite E1; apply in_or_app; right; now right|].
               right. split; [reflexivity|]. now apply Hfz.
            -- destruct (Hrest j Hj) as (y & Hy & Hlt). exists y. auto.
        + destruct (IH Hs' (fun k0 m0 H => Hm' k0 m0 (or_intror H)) (fun k0 m0 H => Hmk k0 m0 (or_intror H))
                        t q i j E2 Hj) as (x & y & A).
          exists x, y. exact A. }
    assert (Hin : forall i, In i (concat (map (fun g => to_indices (snd g)) gs)) <-> In i (map fst l)).
    { intros i. rewrite in_concat. setoid_rewrite in_map_iff. split.
      - intros (t & ([k mk] & <- & Hin) & Hi). exists (i, k). split; [reflexivity|]. apply (Hm k mk Hin).
        cbn in Hi. apply in_to_indices in Hi. tauto.
      - intros ([i' k] & E & Hin). cbn in E. subst i'. destruct (He _ _ Hin) as [mk Hg].
        exists (to_indices mk). split; [exists (k, mk); auto|]. apply in_to_indices_ok; [eapply Hmk; exact Hg|].
        now apply (Hm k mk Hg). }
    split; [|split; [exact Hin|exact Hord]].
    assert (Hnd : forall c : list N, (forall p q i j, c = p ++ i :: q -> In j q -> i <> j) -> NoDup c).
    { clear. induction c as [|x c IH]; intros H; constructor.
      - intros K. exact (H [] c x x eq_refl K eq_refl).
      - apply IH. intros p q i j E. apply (H (x :: p) q i j). cbn. now rewrite E. }
    apply Hnd. intros p q i j E Hj ->. destruct (Hord p q j j E Hj) as (x & y & Hx & Hy & Hc).
    assert (x = y).
    { pose proof (in_lookup j x l Hd Hx) as Lx. pose proof (in_lookup j y l Hd Hy) as Ly. congruence. }
    subst y. destruct Hc as [Hc|[_ Hc]]; [rewrite benum_ltb_irrefl in Hc; discriminate|lia].
  Qed.

  (** What the query returns. *)
  Lemma query_correct w m : m < 2 ^ 64 -> reads_as a (w_sp w) mem -> queryable reads parse mem m ->
    exists r w' order ds, parse_modules_by_identifier sp reads parse m w = (w', Ok r) /\
      reads_as a (w_sp w') mem /\ grew w w' ds /\ only_reads ds /\
      aligned (mr_modules r) (mr_data r) /\
      (forall i, rget r i = if N.testbit m i then match F i with Ok x => Some x | _ => None end else None) /\
      mask_ok (fm_modules (mr_failures r)) = true /\
      (forall i, N.testbit (fm_modules (mr_failures r)) i = N.testbit m i && is_err (F i)) /\
      fm_errors (mr_failures r) = map (fun i => err_of (F i)) order /\
      NoDup order /\ (forall i, In i order <-> N.testbit m i = true /\ is_err (F i) = true) /\
      (forall p q i j, order = p ++ i :: q -> In j q ->
        match ids i, ids j with
        | inr _, inr _ => i < j
        | inr _, inl _ => True
        | inl _, inr _ => False
        | inl x, inl y => benum_ltb x y = true \/ (x = y /\ i < j)
        end).
  Proof.
    intros Hm0 Hr Hq. assert (Hm := Hm0). rewrite <- mask_ok_lt in Hm.
    destruct (honest_identifier_mem a Hok w m mem Hm Hr) as (ri & w1 & E1 & R1 & L1 & A1).
    pose proof R1 as [[Ai Fi] Ri].
    destruct (split_groups _ _ Ai) as (gs & Eg & Hgs).
    assert (Hz : forall i x, In (i, x) (zip_data (mr_modules ri) (mr_data ri)) <->
                             N.testbit m i = true /\ ids i = inl x).
    { intros i x. rewrite in_zip_get. destruct (Ri i) as [G _]. unfold rget in G. rewrite G. unfold ids.
      destruct (N.testbit m i), (ident_told mem i); intuition congruence. }
    assert (H64 : Forall (fun p : N * Identifier => fst p < 64) (zip_data (mr_modules ri) (mr_data ri))).
    { apply Forall_forall. intros [i x] H. apply Hz in H. cbn. apply (proj1 (mask_ok_testbit m) Hm). tauto. }
    destruct (groups_nodup _ gs Hgs (zip_nodup _ _) H64) as (Gd & Gi & Go).
    set (ps := concat (map (fun g => to_indices (snd g)) gs)) in *.
    assert (Gi' : forall i, In i ps <-> N.testbit m i = true /\ exists x, ids i = inl x).
    { intros i. rewrite Gi, in_map_iff. split.
      - intros ([i' x] & <- & H). apply Hz in H. cbn. destruct H. eauto.
      - intros (H & x & Hx). exists (i, x). split; [reflexivity|]. apply Hz. auto. }
    set (s0 := mkParsing (P := P) (mr_modules ri) (fm_modules (mr_failures ri)) (fm_errors (mr_failures ri)) []).
    assert (B0 : built F (mr_modules ri) (fm_modules (mr_failures ri)) (fm_errors (mr_failures ri)) [] s0).
    { constructor; cbn; auto.
      - intros i. now rewrite andb_true_r.
      - apply Ai.
      - intros i. now rewrite orb_false_r.
      - apply Fi.
      - now rewrite app_nil_r.
      - constructor. }
    destruct (parse_groups_built (mr_modules ri) (fm_modules (mr_failures ri)) (fm_errors (mr_failures ri)) gs w1 [] s0 A1 B0)
      as (s & w2 & ds & E2 & A2 & L2 & O2 & B).
    { apply Forall_forall. intros [k mk] Hin. cbn [fst snd]. destruct Hgs as (_ & Hg2 & _).
      destruct (Hg2 _ _ Hin) as [Hmk Hb]. split; [|split].
      - eapply group_mask_lt; [exact Hb|exact H64].
      - assert (exists i, N.testbit mk i = true) as [i Hi].
        { exists (N.log2 mk). apply N.bit_log2. exact Hmk. }
        apply Hb, Hz in Hi. destruct Hi as [Hi Hid]. destruct (Hq i) as [_ K]; [now apply member_testbit|].
        exact (K k Hid).
      - intros i Hi. apply Hb, Hz in Hi. destruct Hi as [Hi Hid]. split; [exact Hid|].
        destruct (Hq i) as [K _]; [now apply member_testbit|]. exact K. }
    { exact Gd. }
    cbn [app] in B. fold ps in B.
    set (r := mkResult (ps_modules s) (map snd (ps_data s)) (mkFailed (ps_failed s) (ps_errors s))).
    set (order := filter (fun i => match ids i with inr _ => true | inl _ => false end) (to_indices m) ++
                  filter (fun i => is_err (F i)) ps).
    assert (Fids : forall i e, ids i = inr e -> F i = Err e).
    { intros i e Hi. unfold F, said. fold ids. now rewrite Hi. }
    destruct B as [b1 b2 b3 b4 b5 b6 b7].
    assert (Mod : forall i, N.testbit (ps_modules s) i = N.testbit m i && match F i with Ok _ => true | _ => false end).
    { intros i. rewrite b1, (rrep_modules _ _ _ i R1). fold ids. destruct (N.testbit m i) eqn:Em; [|reflexivity].
      cbn [andb]. destruct (ids i) as [x|e] eqn:Ei; [|rewrite (Fids i e Ei); reflexivity]. cbn [andb].
      destruct (Hq i) as [Hp _]; [now apply member_testbit|]. fold F in Hp.
      assert (X : existsb (N.eqb i) (filter (fun j => is_err (F j)) ps) = is_err (F i)).
      { apply eq_true_iff_eq. rewrite existsb_eqb_in, filter_In, Gi'. split; [tauto|]. intros; split; eauto. }
      rewrite X. destruct (F i); cbn; congruence. }
    assert (Key : map fst (ps_data s) = to_indices (ps_modules s)).
    { apply sorted_lt_ext; [exact b6|apply to_indices_sorted|]. intros i. rewrite in_to_indices_ok by exact b2.
      rewrite Mod. split.
      - intros H. assert (L : lookup i (ps_data s) <> None) by (rewrite lookup_none; tauto).
        rewrite b7 in L. destruct (existsb (N.eqb i) ps) eqn:X; [|congruence].
        apply existsb_eqb_in, Gi' in X. destruct X as [-> _]. destruct (F i); [reflexivity|congruence|congruence].
      - intros H. destruct (in_dec N.eq_dec i (map fst (ps_data s))) as [|Hn]; [assumption|]. exfalso.
        apply lookup_none in Hn. rewrite b7 in Hn. apply andb_true_iff in H. destruct H as [Hmi HF].
        assert (X : existsb (N.eqb i) ps = true).
        { apply existsb_eqb_in, Gi'. split; [exact Hmi|]. destruct (ids i) as [x|e] eqn:Ei; [eauto|].
          rewrite (Fids i e Ei) in HF. discriminate. }
        rewrite X in Hn. destruct (F i); congruence. }
    destruct (aligned_of_assoc (ps_modules s) (ps_data s) b2 Key) as [Al Zl].
    assert (Fm : forall i, N.testbit (ps_failed s) i = N.testbit m i && is_err (F i)).
    { intros i. rewrite b3, (rrep_failed _ _ _ i R1). fold ids.
      apply eq_true_iff_eq. rewrite orb_true_iff, !andb_true_iff, existsb_eqb_in, filter_In, Gi'. split.
      - intros [[H1 H2]|[[H1 _] H2]]; [|auto]. split; [exact H1|]. destruct (ids i) as [|e] eqn:Ei; [discriminate|].
        now rewrite (Fids i e Ei).
      - intros [H1 H2]. destruct (ids i) as [x|e] eqn:Ei; [right; eauto|left; auto]. }
    exists r, w2, order, (ident_request m ++ ds).
    split; [|split; [exact A2|split; [eapply grew_trans; eassumption|split; [|split; [exact Al|split; [|split; [exact b4|split; [exact Fm|split; [|split; [|split]]]]]]]]]].
    - unfold parse_modules_by_identifier. erewrite cbind_ok by exact E1. rewrite Eg.
      erewrite cbind_ok by reflexivity. fold s0. erewrite cbind_ok by exact E2. reflexivity.
    - apply Forall_app. split; [|exact O2]. unfold ident_request. destruct (m =? 0); repeat constructor.
    - intros i. unfold rget, get. cbn [r mr_modules mr_data]. rewrite Zl, b7.
      destruct (existsb (N.eqb i) ps) eqn:X.
      + apply existsb_eqb_in, Gi' in X. now destruct X as [-> _].
      + destruct (N.testbit m i) eqn:Em; [|reflexivity]. destruct (ids i) as [x|e] eqn:Ei.
        * exfalso. assert (existsb (N.eqb i) ps = true); [|congruence]. apply existsb_eqb_in, Gi'. eauto.
        * now rewrite (Fids i e Ei).
    - cbn [r mr_failures fm_errors]. rewrite b5. unfold order. rewrite map_app. f_equal.
      pose proof (zip_snd _ _ Fi) as Zs. rewrite <- Zs.
      pose proof (zip_fst _ _ Fi) as Zf.
      assert (Ef : to_indices (fm_modules (mr_failures ri)) =
                   filter (fun i => match ids i with inr _ => true | inl _ => false end) (to_indices m)).
      { apply sorted_lt_ext; [apply to_indices_sorted|apply filter_ports_sorted|]. intros i.
        rewrite in_to_indices_ok by apply Fi. rewrite (rrep_failed _ _ _ i R1), filter_In, in_to_indices_ok by exact Hm.
        fold ids. rewrite andb_true_iff. destruct (ids i); tauto. }
      rewrite <- Ef, <- Zf, map_map. apply map_ext_in. intros [i e] Hin. cbn [fst snd].
      apply in_zip_get in Hin. destruct (Ri i) as [_ Re]. unfold rerr, fget in Re. rewrite Hin in Re. fold ids in Re.
      destruct (N.testbit m i); [|discriminate]. destruct (ids i) as [x|e'] eqn:Ei; [discriminate|].
      injection Re as ->. now rewrite (Fids i e' Ei).
    - unfold order. clear -Gd Gi' Fids.
      assert (N1 : NoDup (filter (fun i => match ids i with inr _ => true | inl _ => false end) (to_indices m)))
        by (apply NoDup_filter, to_indices_nodup).
      assert (N2 : NoDup (filter (fun i => is_err (F i)) ps)) by now apply NoDup_filter.
      assert (D : forall i, In i (filter (fun i => match ids i with inr _ => true | inl _ => false end) (to_indices m)) ->
                   ~ In i (filter (fun i => is_err (F i)) ps)).
      { intros i H1 H2. apply filter_In in H1, H2. destruct H1 as [_ H1], H2 as [H2 _]. apply Gi' in H2.
        destruct H2 as (_ & x & Hx). rewrite Hx in H1. discriminate. }
      revert N1 N2 D. generalize (filter (fun i => is_err (F i)) ps) as l2.
      generalize (filter (fun i => match ids i with inr _ => true | inl _ => false end) (to_indices m)) as l1.
      induction l1 as [|x l1 IH]; intros l2 N1 N2 D; [exact N2|]. cbn.
      inversion N1 as [|? ? X1 X2]; subst. constructor.
      + rewrite in_app_iff. intros [K|K]; [auto|]. apply (D x); [now left|exact K].
      + apply IH; auto. intros i Hi. apply D. now right.
    - intros i. unfold order. rewrite in_app_iff, !filter_In, in_to_indices_ok, Gi' by exact Hm. split.
      + intros [[H1 H2]|[[H1 _] H2]]; [|auto]. split; [exact H1|]. destruct (ids i) as [|e] eqn:Ei; [discriminate|].
        now rewrite (Fids i e Ei).
      + intros [H1 H2]. destruct (ids i) as [x|e] eqn:Ei; [right; eauto|left; auto].
    - assert (Psub : forall p q i j, filter (fun i => is_err (F i)) ps = p ++ i :: q -> In j q ->
        exists p' q', ps = p' ++ i :: q' /\ In j q').
      { clear. induction ps as [|x ps IH]; intros p q i j E Hj; [destruct p; discriminate|].
        cbn in E. destruct (is_err (F x)).
        - destruct p as [|y p]; cbn in E.
          + injection E as -> <-. exists [], ps. split; [reflexivity|]. apply filter_In in Hj. tauto.
          + injection E as -> E. destruct (IH p q i j E Hj) as (p' & q' & -> & H). exists (y :: p'), q'. auto.
        - destruct (IH p q i j E Hj) as (p' & q' & -> & H). exists (x :: p'), q'. auto. }
      intros p q i j E Hj. unfold order in E. apply app_eq_app in E. destruct E as (t & [[E1' E2']|[E1' E2']]).
      + destruct t as [|z t].
        * cbn in E2'. destruct (Psub [] q i j (eq_sym E2') Hj) as (p' & q' & Ep & Hj').
          destruct (Go p' q' i j Ep Hj') as (x & y & Hx & Hy & Hc). apply Hz in Hx, Hy.
          destruct Hx as [_ ->], Hy as [_ ->]. exact Hc.
        * cbn in E2'. injection E2' as -> ->.
          pose proof (filter_ports_sorted (fun i => match ids i with inr _ => true | inl _ => false end) m) as So.
          assert (Hzin : In z (filter (fun i => match ids i with inr _ => true | inl _ => false end) (to_indices m)))
            by (rewrite E1'; apply in_or_app; right; now left).
          apply filter_In in Hzin. destruct Hzin as [_ Hzin]. destruct (ids z) as [|ez]; [discriminate|].
          apply in_app_or in Hj. destruct Hj as [Hj|Hj].
          -- rewrite E1' in So. apply sorted_app_inv in So. destruct So as (_ & So & _).
             inversion So as [|? ? _ Sf]; subst. rewrite Forall_forall in Sf. specialize (Sf _ Hj).
             destruct (ids j); [exact I|exact Sf].
          -- apply filter_In in Hj. destruct Hj as [Hj _]. apply Gi' in Hj. destruct Hj as (_ & y & ->). exact I.
      + destruct (Psub t q i j E2' Hj) as (p' & q' & Ep & Hj').
        destruct (Go p' q' i j Ep Hj') as (x & y & Hx & Hy & Hc). apply Hz in Hx, Hy.
        destruct Hx as [_ ->], Hy as [_ ->]. exact Hc.
  Qed.

  Lemma order_sorted m order : fails_in_order reads parse mem m -> queryable reads parse mem m ->
    (forall i, In i order <-> N.testbit m i = true /\ is_err (F i) = true) ->
    (forall p q i j, order = p ++ i :: q -> In j q ->
        match ids i, ids j with
        | inr _, inr _ => i < j
        | inr _, inl _ => True
        | inl _, inr _ => False
        | inl x, inl y => benum_ltb x y = true \/ (x = y /\ i < j)
        end) -> NoDup order -> StronglySorted N.lt order.
  Proof.
    intros Hf Hq Hin Hord Hnd.
    assert (Hs : forall i, In i order -> exists e, says reads parse mem i = inr e).
    { intros i Hi. apply Hin in Hi. destruct Hi as [_ Hi]. unfold says. fold F.
      destruct (F i); [discriminate|eauto|eauto]. }
    assert (Key : forall p q i j, order = p ++ i :: q -> In j q -> i < j).
    { intros p q i j E Hj. pose proof (Hord p q i j E Hj) as K.
      assert (Ii : In i order) by (rewrite E; apply in_or_app; right; now left).
      assert (Ij : In j order) by (rewrite E; apply in_or_app; right; now right).
      destruct (N.lt_trichotomy i j) as [|[Eij|Hlt]]; [assumption| |].
      - subst j. exfalso. rewrite E in Hnd. apply NoDup_remove_2 in Hnd. apply Hnd, in_or_app. now right.
      - exfalso. destruct (Hs i Ii) as [ei Si]. destruct (Hs j Ij) as [ej Sj].
        apply Hin in Ii, Ij. destruct Ii as [Mi _], Ij as [Mj _].
        pose proof (Hf j i ej ei Hlt (proj2 (member_testbit _ _) Mj) (proj2 (member_testbit _ _) Mi) Sj Si) as W.
        fold ids in W. destruct (ids i) as [x|], (ids j) as [y|]; try tauto; [|lia].
        destruct W as [W|W]; destruct K as [K|[Exy K]]; try lia.
        + subst y. rewrite benum_ltb_irrefl in K. discriminate.
        + pose proof (benum_ltb_trans _ _ _ W K) as T. rewrite benum_ltb_irrefl in T. discriminate. }
    clear -Key. induction order as [|x l IH]; constructor.
    - apply IH. intros p q i j E. apply (Key (x :: p) q i j). cbn. now rewrite E.
    - apply Forall_forall. intros y Hy. exact (Key [] l x y eq_refl Hy).
  Qed.

  Lemma query_reports w m : m < 2 ^ 64 -> reads_as a (w_sp w) mem -> queryable reads parse mem m ->
    exists r w', parse_modules_by_identifier sp reads parse m w = (w', Ok r) /\
      reads_as a (w_sp w') mem /\
      (exists ds, grew w w' ds /\ only_reads ds) /\
      (forall i x, succeeds r i x <-> member i m /\ says reads parse mem i = inl x) /\
      one_each (mr_modules r) (mr_data r) /\
      (forall i, failed r i <-> member i m /\ exists e, says reads parse mem i = inr e) /\
      fm_modules (mr_failures r) < 2 ^ 64 /\
      length (fm_errors (mr_failures r)) = length (to_indices (fm_modules (mr_failures r))) /\
      (forall e, In e (fm_errors (mr_failures r)) <->
                 exists i, member i m /\ says reads parse mem i = inr e) /\
      (fails_in_order reads parse mem m -> reports m (says reads parse mem) r) /\
      exists order, StronglySorted (met_before mem) order /\
        (forall i, In i order <-> member i m /\ exists e, says reads parse mem i = inr e) /\
        Forall2 (fun i e => says reads parse mem i = inr e) order (fm_errors (mr_failures r)).
  Proof.
    intros Hm Hr Hq.
    destruct (query_correct w m Hm Hr Hq) as (r & w' & order & ds & E & A & L & O & Al & G & Fo & Fm & Fe & Nd & Oi & Oo).
    exists r, w'. split; [exact E|]. split; [exact A|]. split; [eauto|].
    assert (Sy : forall i, N.testbit m i = true ->
       says reads parse mem i = match F i with Ok x => inl x | o => inr (err_of o) end /\
       (is_err (F i) = match F i with Ok _ => false | _ => true end)).
    { intros i Hi. destruct (Hq i) as [Hp _]; [now apply member_testbit|]. fold F in Hp.
      unfold says. fold F. destruct (F i); cbn; auto; congruence. }
    assert (Suc : forall i x, succeeds r i x <-> member i m /\ says reads parse mem i = inl x).
    { intros i x. rewrite succeeds_get, G, member_testbit. destruct (N.testbit m i) eqn:Em; [|intuition congruence].
      destruct (Sy i Em) as [-> _]. destruct (F i); intuition congruence. }
    assert (Fai : forall i, failed r i <-> member i m /\ exists e, says reads parse mem i = inr e).
    { intros i. unfold failed. rewrite !member_testbit, Fm, andb_true_iff.
      split; intros [H1 H2]; (split; [exact H1|]); destruct (Sy i H1) as [S1 S2].
      - rewrite S1. destruct (F i); [discriminate|eauto|eauto].
      - destruct H2 as [e H2]. rewrite S1 in H2. rewrite S2. destruct (F i); [discriminate|reflexivity|reflexivity]. }
    assert (Len : length (fm_errors (mr_failures r)) = length (to_indices (fm_modules (mr_failures r)))).
    { rewrite Fe, map_length. apply Permutation_length. apply NoDup_Permutation; [exact Nd|apply to_indices_nodup|].
      intros i. rewrite Oi, in_to_indices_ok, Fm, andb_true_iff by exact Fo. reflexivity. }
    split; [exact Suc|]. split; [now apply one_each_aligned|]. split; [exact Fai|].
    split; [now apply mask_ok_lt|]. split; [exact Len|]. split; [|split].
    - intros e. rewrite Fe, in_map_iff. setoid_rewrite member_testbit. split.
      + intros (i & <- & Hi). apply Oi in Hi. destruct Hi as [H1 H2]. exists i. split; [exact H1|].
        destruct (Sy i H1) as [-> _]. destruct (F i); [discriminate|reflexivity|reflexivity].
      + intros (i & H1 & H2). exists i. destruct (Sy i H1) as [S1 S2]. rewrite S1 in H2.
        split; [destruct (F i); congruence|]. apply Oi. split; [exact H1|]. rewrite S2.
        destruct (F i); [discriminate|reflexivity|reflexivity].
    - intros Hf. pose proof (order_sorted m order Hf Hq Oi Oo Nd) as Hs.
      assert (Eo : order = to_indices (fm_modules (mr_failures r))).
      { apply sorted_lt_ext; [exact Hs|apply to_indices_sorted|]. intros i.
        rewrite Oi, in_to_indices_ok, Fm, andb_true_iff by exact Fo. reflexivity. }
      apply rrep_reports. split.
      + split; [exact Al|]. split; [exact Fo|]. rewrite Len. symmetry. now apply count_to_indices.
      + intros i. split.
        * rewrite G. destruct (N.testbit m i) eqn:Em; [|reflexivity]. destruct (Sy i Em) as [-> _].
          destruct (F i); reflexivity.
        * unfold rerr, fget. rewrite Fe.
          replace (fm_modules (mr_failures r)) with (port_mask order)
            by (rewrite Eo; now apply port_mask_to_indices).
          rewrite get_port_mask; [|exact Hs|].
          -- destruct (existsb (N.eqb i) order) eqn:X.
             ++ apply existsb_eqb_in, Oi in X. destruct X as [X1 X2]. rewrite X1. destruct (Sy i X1) as [-> _].
                destruct (F i); [discriminate|reflexivity|reflexivity].
             ++ destruct (N.testbit m i) eqn:Em; [|reflexivity]. destruct (Sy i Em) as [S1 S2]. rewrite S1.
                assert (Fe' : is_err (F i) = false).
                { destruct (is_err (F i)) eqn:Ef; [|reflexivity]. rewrite <- X. symmetry. apply existsb_eqb_in, Oi. auto. }
                rewrite Fe' in S2. destruct (F i); [reflexivity|discriminate|discriminate].
          -- rewrite Eo. apply to_indices_lt.
    - exists order. split; [|split].
      + clear -Oo. unfold met_before. unfold ids in Oo. induction order as [|x l IH]; constructor.
        * apply IH. intros p q i j E. apply (Oo (x :: p) q i j). cbn. now rewrite E.
        * apply Forall_forall. intros y Hy. exact (Oo [] l x y eq_refl Hy).
      + intros i. rewrite Oi, member_testbit. split; intros [H1 H2]; (split; [exact H1|]); destruct (Sy i H1) as [S1 S2].
        * rewrite S1. destruct (F i); [discriminate|eauto|eauto].
        * destruct H2 as [e H2]. rewrite S1 in H2. rewrite S2. destruct (F i); [discriminate|reflexivity|reflexivity].
      + rewrite Fe. assert (Oi' : forall i, In i order -> N.testbit m i = true /\ is_err (F i) = true) by (intros i; apply Oi).
        clear -Oi' Sy. induction order as [|x l IH]; cbn [map]; constructor.
        * destruct (Oi' x (or_introl eq_refl)) as [H1 H2]. destruct (Sy x H1) as [-> _]. destruct (F x); [discriminate|reflexivity|reflexivity].
        * apply IH. intros i Hi. apply Oi'. now right.
  Qed.
End QueryProofs.
