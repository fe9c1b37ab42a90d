(** Proofs for C99, part 3: queries by identifier, and power. *)
From Verif Require Export ApartProofs2.
From Verif Require Import Tac Spec ModuleIdProofs ModuleIdProps ResultsProofs ControllerProofs ControllerProofs3 ControllerProofs4 ControllerProofs5
  ControllerProofs6 LiveProofs LiveProofs2.
From Coq Require Import Permutation.
Import ListNotations.
Open Scope N_scope.

Lemma nodup_app_l {A} (l1 l2 : list A) : NoDup (l1 ++ l2) -> NoDup l1.
Proof.
  induction l1 as [|x l IH]; intros H; [constructor|]. cbn in H. inversion H as [|? ? N1 N2]; subst. constructor; [|auto].
  intros K. apply N1, in_or_app. now left.
Qed.
Lemma nodup_app_not {A} (l1 l2 : list A) x : NoDup (l1 ++ l2) -> In x l1 -> In x l2 -> False.
Proof.
  induction l1 as [|y l IH]; intros H K1 K2; [destruct K1|]. cbn in H. inversion H as [|? ? N1 N2]; subst.
  destruct K1 as [->|K1]; [|auto]. apply N1, in_or_app. now right.
Qed.

(** A report with the same data, and an error for the same modules. *)
Definition lrep {P} (m : N) (F : N -> P + TransceiverError) (r : Result P) : Prop :=
  exists F', rrep m F' r /\ forall i x, N.testbit m i = true -> (F' i = inl x <-> F i = inl x).

Section Apart.
  Context {X : Type} (b : bay X) (Hb : bay_ok b).
  Implicit Type w : world (N -> X).
  Local Notation a := (apart b).
  Local Notation sp := (honest_sp (apart b)).
  Local Notation says := (ApartProofs.says b).
  Local Notation goes := (ApartProofs.goes b).
  Local Notation id_of := (id_of b).

  Fixpoint run_reads (rds : list MemoryRead) (i : N) (x : X) : X :=
    match rds with [] => x | rd :: rest => run_reads rest i (goes (HRead 0 rd) None i x) end.
  Fixpoint pieces (rds : list MemoryRead) (i : N) (x : X) : list (list N) + TransceiverError :=
    match rds with
    | [] => inl []
    | rd :: rest =>
        match says (fun d => d) (HRead 0 rd) None i x, pieces rest i (goes (HRead 0 rd) None i x) with
        | inr e, _ => inr e
        | inl _, inr e => inr e
        | inl d, inl ds => inl (d :: ds)
        end
    end.
  Definition sized (rds : list MemoryRead) : Prop := Forall (fun rd => 1 <= rd_len rd <= 255) rds.

  Lemma read_each_apart rds : forall w m, mask_ok m = true -> sized rds ->
    exists rs w', read_each sp m rds w = (w', Ok rs) /\ moved m (run_reads rds) w w' /\
      forall i, N.testbit m i = true ->
        match pieces rds i (w_sp w i) with
        | inr e => first_err rs i = Some e
        | inl ds => first_err rs i = None /\ omapM (fun r => @opt_unwrap Error _ (result_nth r i)) rs = Ok ds
        end.
  Proof.
    induction rds as [|rd rds IH]; intros w m Hm Hl.
    - exists [], w. split; [reflexivity|]. split; [intros i; cbn; now destruct (N.testbit m i)|]. intros i _. split; reflexivity.
    - pose proof (Forall_inv Hl) as Hl1. apply Forall_inv_tail in Hl.
      destruct (pt_read b Hb rd Hl1 m Hm w) as (w1 & r & E1 & R1 & M1).
      destruct (IH w1 m Hm Hl) as (rs & w2 & E2 & M2 & H2).
      exists (r :: rs), w2. split; [cbn [read_each]; erewrite cbind_ok by exact E1; erewrite cbind_ok by exact E2; reflexivity|].
      split.
      + intros i. rewrite M2, M1. destruct (N.testbit m i); reflexivity.
      + intros i Hi. specialize (H2 i Hi). rewrite M1, Hi in H2. cbn [pieces first_err omapM]. destruct R1 as [_ R1].
        destruct (R1 i) as [G E]. rewrite Hi in G, E.
        unfold result_nth_err. rewrite failed_nth_get, result_nth_get. unfold rerr in E. rewrite E, G.
        destruct (says (fun x => x) (HRead 0 rd) None i (w_sp w i)) as [d|e]; [|reflexivity].
        destruct (pieces rds i _) as [ds|e]; [|exact H2]. destruct H2 as [-> ->]. split; reflexivity.
  Qed.

  Section Query.
    Context {P : Type} (reads : Identifier -> outcome DecodeError (list MemoryRead))
            (parse : Identifier -> list (list N) -> outcome DecodeError P).
    Context (Hreads : forall id rds, reads id = Ok rds -> sized rds).

    (** Of a module of kind [id], in state [x] once its identifier was read. *)
    Definition own_says (id : Identifier) (i : N) (x : X) : outcome TransceiverError P :=
      match reads id with
      | Ok rds => match pieces rds i x with
                  | inl ds => match parse id ds with Ok y => Ok y | Err e => Err (TeDecode e) | Panic => Panic end
                  | inr e => Err e
                  end
      | Err e => Err (TeDecode e)
      | Panic => Panic
      end.
    Definition own_goes (id : Identifier) (i : N) (x : X) : X := match reads id with Ok rds => run_reads rds i x | _ => x end.
    Definition own_fine (id : Identifier) (i : N) (x : X) : Prop := (exists rds, reads id = Ok rds) /\ own_says id i x <> Panic.
    Definition query_out (i : N) (x : X) : outcome TransceiverError P :=
      match id_of i x with inr e => Err e | inl id => own_says id i (goes idq None i x) end.
    Definition query_says (i : N) (x : X) : P + TransceiverError :=
      match query_out i x with Ok y => inl y | o => inr (err_of o) end.
    Definition query_goes (i : N) (x : X) : X :=
      let y := goes idq None i x in match id_of i x with inr _ => y | inl id => own_goes id i y end.
    Definition query_fine (i : N) (x : X) : Prop :=
      match id_of i x with inr _ => True | inl id => own_fine id i (goes idq None i x) end.

    Section One.
      Context (F : N -> outcome TransceiverError P) (im ifm : N) (ierrs : list TransceiverError).
      Lemma parse_each_apart id rs l : forall ps s,
        (forall s i, In i l -> i < 64 /\ parse_one parse id rs s i =
           match F i with
           | Ok x => Ok (mkParsing (ps_modules s) (ps_failed s) (ps_errors s) (index_insert i x (ps_data s)))
           | Err e => parse_fail s i e | Panic => Panic end) ->
        built F im ifm ierrs ps s -> NoDup (ps ++ l) ->
        (exists s', parse_each parse id rs l s = Ok s' /\ built F im ifm ierrs (ps ++ l) s' /\ forall i, In i l -> F i <> Panic) \/
        (parse_each parse id rs l s = Panic /\ exists i, In i l /\ F i = Panic).
      Proof.
        induction l as [|i l IH]; intros ps s Hst B Nd.
        - left. exists s. rewrite app_nil_r. split; [reflexivity|]. split; [exact B|intros i []].
        - destruct (Hst s i (or_introl eq_refl)) as [H64 E]. cbn [parse_each]. rewrite E.
          assert (Ni : ~ In i ps) by (intros K; apply (nodup_app_not _ _ i Nd K); now left).
          assert (Go : forall s1, built F im ifm ierrs (ps ++ [i]) s1 -> F i <> Panic ->
            (exists s', parse_each parse id rs l s1 = Ok s' /\ built F im ifm ierrs (ps ++ i :: l) s' /\ forall j, In j (i :: l) -> F j <> Panic) \/
            (parse_each parse id rs l s1 = Panic /\ exists j, In j (i :: l) /\ F j = Panic)).
          { intros s1 B1 Hi. destruct (IH (ps ++ [i]) s1) as [(s' & E' & B' & H')|(E' & j & Hj & Hp)].
            - intros s2 j Hj. apply Hst. now right.
            - exact B1.
            - now rewrite <- app_assoc.
            - left. exists s'. rewrite <- app_assoc in B'. split; [exact E'|]. split; [exact B'|]. intros j [<-|Hj]; auto.
            - right. split; [exact E'|]. exists j. split; [now right|exact Hp]. }
          destruct (F i) as [x|e|] eqn:Fi.
          + cbn [obind]. apply Go; [|discriminate]. now apply built_ok.
          + destruct (built_fail F im ifm ierrs ps s i e B H64 Fi Ni) as (s1 & E1 & B1). rewrite E1. cbn [obind]. apply Go; [exact B1|discriminate].
          + right. split; [reflexivity|]. exists i. split; [now left|exact Fi].
      Qed.

      (** [s1] is what the modules are once their identifiers were read. *)
      Context (s1 : N -> X).
      Lemma parse_groups_apart gs : forall w ps s,
        (forall k mk, In (k, mk) gs -> mk <> 0 /\ mask_ok mk = true /\
           forall i, N.testbit mk i = true -> F i = own_says k i (s1 i) /\ w_sp w i = s1 i) ->
        built F im ifm ierrs ps s -> NoDup (ps ++ concat (map (fun g => to_indices (snd g)) gs)) ->
        (exists s' w', parse_groups sp reads parse gs s w = (w', Ok s') /\
           built F im ifm ierrs (ps ++ concat (map (fun g => to_indices (snd g)) gs)) s' /\
           (forall k mk i, In (k, mk) gs -> N.testbit mk i = true -> own_fine k i (s1 i) /\ w_sp w' i = own_goes k i (s1 i)) /\
           (forall i, ~ In i (concat (map (fun g => to_indices (snd g)) gs)) -> w_sp w' i = w_sp w i)) \/
        ((forall w' s', parse_groups sp reads parse gs s w <> (w', Ok s')) /\
         exists k mk i, In (k, mk) gs /\ N.testbit mk i = true /\ ~ own_fine k i (s1 i)).
      Proof.
        induction gs as [|[k mk] gs IH]; intros w ps s Hg B Nd.
        - left. exists s, w. cbn. rewrite app_nil_r. split; [reflexivity|]. split; [exact B|]. split; [intros ? ? ? []|auto].
        - destruct (Hg k mk (or_introl eq_refl)) as (Hz & Hmk & Hi). cbn [map concat snd] in Nd |- *. cbn [parse_groups].
          destruct (reads k) as [rds|e|] eqn:Er.
          2,3: right; split; [intros w' s'; cbn [omap_err]; (erewrite cbind_err by reflexivity) || (erewrite cbind_panic by reflexivity); discriminate|];
               exists k, mk, (N.log2 mk); split; [now left|]; split; [now apply N.bit_log2|]; intros [(rds & K) _]; congruence.
          cbn [omap_err]. erewrite cbind_ok by reflexivity.
          destruct (read_each_apart rds w mk Hmk (Hreads k rds Er)) as (rs & w1 & E1 & M1 & H1). erewrite cbind_ok by exact E1.
          assert (Hst : forall s i, In i (to_indices mk) -> i < 64 /\ parse_one parse k rs s i =
             match F i with
             | Ok x => Ok (mkParsing (ps_modules s) (ps_failed s) (ps_errors s) (index_insert i x (ps_data s)))
             | Err e => parse_fail s i e | Panic => Panic end).
          { intros s2 i Hin. apply in_to_indices in Hin. destruct Hin as [H64 Bi]. split; [exact H64|].
            destruct (Hi i Bi) as [Fi Wi]. specialize (H1 i Bi). rewrite Wi in H1. rewrite Fi. unfold parse_one, own_says. rewrite Er.
            destruct (pieces rds i (s1 i)) as [ds|e]; [destruct H1 as [-> ->]|now rewrite H1]. cbn [obind]. now destruct (parse k ds). }
          rewrite app_assoc in Nd. pose proof (nodup_app_l _ _ Nd) as Nd1.
          destruct (parse_each_apart k rs (to_indices mk) ps s Hst B Nd1) as [(s2 & E2 & B2 & F2)|(E2 & i & Hin & Fp)]; rewrite E2.
          + erewrite cbind_ok by reflexivity.
            assert (Fine : forall i, N.testbit mk i = true -> own_fine k i (s1 i) /\ w_sp w1 i = own_goes k i (s1 i)).
            { intros i Bi. destruct (Hi i Bi) as [Fi Wi]. split.
              - split; [eauto|]. rewrite <- Fi. apply F2. now apply in_to_indices_ok.
              - rewrite M1, Bi, Wi. unfold own_goes. now rewrite Er. }
            destruct (IH w1 (ps ++ to_indices mk) s2) as [(s3 & w3 & E3 & B3 & H3 & O3)|(E3 & k3 & m3 & i3 & H3)].
            * intros k' mk' Hin. destruct (Hg k' mk' (or_intror Hin)) as (Hz' & Hmk' & Hi'). split; [exact Hz'|]. split; [exact Hmk'|].
              intros i Bi. destruct (Hi' i Bi) as [Fi Wi]. split; [exact Fi|]. rewrite M1, Wi.
              destruct (N.testbit mk i) eqn:Bm; [|reflexivity]. exfalso.
              apply (nodup_app_not _ _ i Nd); [apply in_or_app; right; now apply in_to_indices_ok|].
              apply in_concat. exists (to_indices mk'). split; [|now apply in_to_indices_ok]. apply in_map_iff. exists (k', mk'). auto.
            * exact B2.
            * exact Nd.
            * left. exists s3, w3. split; [exact E3|]. rewrite app_assoc. split; [exact B3|]. split.
              -- intros k' mk' i [K|Hin] Bi; [|exact (H3 k' mk' i Hin Bi)]. injection K as <- <-. destruct (Fine i Bi) as [Fi Wi].
                 split; [exact Fi|]. rewrite <- Wi. apply O3. intros K. apply (nodup_app_not _ _ i Nd); [|exact K].
                 apply in_or_app. right. now apply in_to_indices_ok.
              -- intros i Ni. rewrite in_app_iff in Ni. rewrite O3 by tauto. rewrite M1.
                 destruct (N.testbit mk i) eqn:Bm; [|reflexivity]. exfalso. apply Ni. left. now apply in_to_indices_ok.
            * right. split; [exact E3|]. exists k3, m3, i3. destruct H3 as (H3 & H4). split; [now right|exact H4].
          + right. split; [intros w' s'; erewrite cbind_panic by reflexivity; discriminate|].
            exists k, mk, i. apply in_to_indices in Hin. destruct Hin as [_ Bi]. split; [now left|]. split; [exact Bi|].
            intros [_ K]. apply K. destruct (Hi i Bi) as [Fi _]. congruence.
      Qed.
    End One.

    Lemma fate_query m : mask_ok m = true ->
      fate lrep m (parse_modules_by_identifier sp reads parse m) query_fine query_says query_goes.
    Proof.
      intros Hm w. destruct (pt_identifier b Hb m Hm w) as (w1 & ri & E1 & R1 & M1).
      pose proof R1 as [[Ai Fi] Ri].
      destruct (split_groups _ _ Ai) as (gs & Eg & Hgs).
      set (ids := fun i => id_of i (w_sp w i)). set (F := fun i => query_out i (w_sp w i)).
      assert (Hz : forall i x, In (i, x) (zip_data (mr_modules ri) (mr_data ri)) <-> N.testbit m i = true /\ ids i = inl x).
      { intros i x. rewrite in_zip_get. destruct (Ri i) as [G _]. unfold rget in G. rewrite G. unfold ids.
        destruct (N.testbit m i), (id_of i (w_sp w i)); intuition congruence. }
      assert (H64 : Forall (fun p : N * Identifier => fst p < 64) (zip_data (mr_modules ri) (mr_data ri))).
      { apply Forall_forall. intros [i x] H. apply Hz in H. cbn. apply (proj1 (mask_ok_testbit m) Hm). tauto. }
      destruct (groups_nodup reads parse (fun _ _ => inr 0) _ gs Hgs (zip_nodup _ _) H64) as (Gd & Gi & _).
      set (ps := concat (map (fun g => to_indices (snd g)) gs)) in *.
      assert (Gi' : forall i, In i ps <-> N.testbit m i = true /\ exists x, ids i = inl x).
      { intros i. rewrite Gi, in_map_iff. split.
        - intros ([i' x] & <- & H). apply Hz in H. cbn. destruct H. eauto.
        - intros (H & x & Hx). exists (i, x). split; [reflexivity|]. apply Hz. auto. }
      set (s0 := mkParsing (P := P) (mr_modules ri) (fm_modules (mr_failures ri)) (fm_errors (mr_failures ri)) []).
      assert (B0 : built F (mr_modules ri) (fm_modules (mr_failures ri)) (fm_errors (mr_failures ri)) [] s0).
      { constructor; cbn; auto.
        - intros i. now rewrite andb_true_r.
        - apply Ai.
        - intros i. now rewrite orb_false_r.
        - apply Fi.
        - now rewrite app_nil_r.
        - constructor. }
      set (s1 := fun i => goes idq None i (w_sp w i)).
      assert (Hgm : forall k mk, In (k, mk) gs -> forall i, N.testbit mk i = true <-> N.testbit m i = true /\ ids i = inl k).
      { intros k mk Hin i. destruct Hgs as (_ & Hg2 & _). destruct (Hg2 _ _ Hin) as [_ Hbt]. rewrite Hbt. apply Hz. }
      assert (Fine : forall i k, ids i = inl k -> (query_fine i (w_sp w i) <-> own_fine k i (s1 i))).
      { intros i k Hk. unfold query_fine. fold (ids i). rewrite Hk. reflexivity. }
      assert (Hall : forall i k, N.testbit m i = true -> ids i = inl k -> exists mk, In (k, mk) gs /\ N.testbit mk i = true).
      { intros i k Bi Hk. destruct Hgs as (_ & _ & Hg3). destruct (Hg3 i k) as [mk Hin]; [apply Hz; auto|].
        exists mk. split; [exact Hin|]. apply (Hgm k mk Hin). auto. }
      unfold parse_modules_by_identifier. erewrite cbind_ok by exact E1. rewrite Eg. erewrite cbind_ok by reflexivity. fold s0.
      destruct (parse_groups_apart F (mr_modules ri) (fm_modules (mr_failures ri)) (fm_errors (mr_failures ri)) s1 gs w1 [] s0)
        as [(s & w2 & E2 & B & H2 & O2)|(E2 & k & mk & i & Hin & Bi & Nf)].
      { intros k mk Hin. split; [apply (proj1 (proj2 Hgs) _ _ Hin)|]. split.
        - eapply group_mask_lt; [apply (proj1 (proj2 Hgs) _ _ Hin)|exact H64].
        - intros i Bi. apply (Hgm k mk Hin) in Bi. destruct Bi as [Bi Hk]. split.
          + unfold F, query_out. fold (ids i). rewrite Hk. reflexivity.
          + rewrite M1, Bi. reflexivity. }
      { exact B0. }
      { exact Gd. }
      2:{ right. split.
          - intros w' r K. apply cbind_inv in K. destruct K as (w2 & s & K & _). exact (E2 _ _ K).
          - intros _. exists i. apply (Hgm k mk Hin) in Bi. destruct Bi as [Bi Hk]. split; [exact Bi|]. now rewrite (Fine i k Hk). }
      left. erewrite cbind_ok by exact E2. eexists w2, _. split; [reflexivity|]. cbn [app] in B. fold ps in B, O2.
      assert (Hf : forall i, N.testbit m i = true -> query_fine i (w_sp w i)).
      { intros i Bi. destruct (ids i) as [k|e] eqn:Hk.
        - destruct (Hall i k Bi Hk) as (mk & Hin & Bk). apply (Fine i k Hk). apply (H2 k mk i Hin Bk).
        - unfold query_fine. fold (ids i). now rewrite Hk. }
      split; [exact Hf|].
      assert (Hp : forall i, N.testbit m i = true -> F i <> Panic).
      { intros i Bi. specialize (Hf i Bi). unfold query_fine in Hf. unfold F, query_out. fold (ids i) in Hf |- *.
        destruct (ids i); [apply Hf|discriminate]. }
      assert (Fids : forall i e, ids i = inr e -> F i = Err e).
      { intros i e Hi. unfold F, query_out. fold (ids i). now rewrite Hi. }
      split.
      - destruct B as [b1 b2 b3 b4 b5 b6 b7].
        assert (Mod : forall i, N.testbit (ps_modules s) i = N.testbit m i && match F i with Ok _ => true | _ => false end).
        { intros i. rewrite b1, (rrep_modules _ _ _ i R1). fold (ids i). destruct (N.testbit m i) eqn:Em; [|reflexivity].
          cbn [andb]. destruct (ids i) as [x|e] eqn:Ei; [|rewrite (Fids i e Ei); reflexivity]. cbn [andb].
          assert (K : existsb (N.eqb i) (filter (fun j => is_err (F j)) ps) = is_err (F i)).
          { apply eq_true_iff_eq. rewrite existsb_eqb_in, filter_In, Gi'. split; [tauto|]. intros; split; eauto. }
          rewrite K. pose proof (Hp i Em). destruct (F i); cbn; congruence. }
        assert (Key : map fst (ps_data s) = to_indices (ps_modules s)).
        { apply sorted_lt_ext; [exact b6|apply to_indices_sorted|]. intros i. rewrite in_to_indices_ok by exact b2.
          rewrite Mod. split.
          - intros H. assert (L : lookup i (ps_data s) <> None) by (rewrite lookup_none; tauto).
            rewrite b7 in L. destruct (existsb (N.eqb i) ps) eqn:K; [|congruence].
            apply existsb_eqb_in, Gi' in K. destruct K as [-> _]. destruct (F i); [reflexivity|congruence|congruence].
          - intros H. destruct (in_dec N.eq_dec i (map fst (ps_data s))) as [|Hn]; [assumption|]. exfalso.
            apply lookup_none in Hn. rewrite b7 in Hn. apply andb_true_iff in H. destruct H as [Hmi HF].
            assert (K : existsb (N.eqb i) ps = true).
            { apply existsb_eqb_in, Gi'. split; [exact Hmi|]. destruct (ids i) as [x|e] eqn:Ei; [eauto|].
              rewrite (Fids i e Ei) in HF. discriminate. }
            rewrite K in Hn. destruct (F i); congruence. }
        destruct (aligned_of_assoc (ps_modules s) (ps_data s) b2 Key) as [Al Zl].
        assert (Fm : forall i, N.testbit (ps_failed s) i = N.testbit m i && is_err (F i)).
        { intros i. rewrite b3, (rrep_failed _ _ _ i R1). fold (ids i).
          apply eq_true_iff_eq. rewrite orb_true_iff, !andb_true_iff, existsb_eqb_in, filter_In, Gi'. split.
          - intros [[H1 H3]|[[H1 _] H3]]; [|auto]. split; [exact H1|]. destruct (ids i) as [|e] eqn:Ei; [discriminate|].
            now rewrite (Fids i e Ei).
          - intros [H1 H3]. destruct (ids i) as [x|e] eqn:Ei; [right; eauto|left; auto]. }
        set (r := mkResult (ps_modules s) (map snd (ps_data s)) (mkFailed (ps_failed s) (ps_errors s))).
        assert (Len : length (ps_errors s) = m_count (ps_failed s)).
        { rewrite b5, app_length, map_length, (count_to_indices _ b4). rewrite (proj2 Fi), (count_to_indices _ (proj1 Fi)).
          rewrite <- app_length. apply Permutation_length. apply NoDup_Permutation.
          - assert (D : forall i, In i (to_indices (fm_modules (mr_failures ri))) -> ~ In i (filter (fun j => is_err (F j)) ps)).
            { intros i H1 H3. rewrite in_to_indices_ok, (rrep_failed _ _ _ i R1) in H1 by apply Fi. fold (ids i) in H1.
              apply filter_In in H3. destruct H3 as [H3 _]. apply Gi' in H3. destruct H3 as (_ & x & Hx). rewrite Hx, andb_false_r in H1. discriminate. }
            assert (N1 : NoDup (to_indices (fm_modules (mr_failures ri)))) by apply to_indices_nodup.
            assert (N2 : NoDup (filter (fun i => is_err (F i)) ps)) by now apply NoDup_filter.
            revert N1 N2 D. generalize (filter (fun i => is_err (F i)) ps) as l2. generalize (to_indices (fm_modules (mr_failures ri))) as l1.
            clear. induction l1 as [|x l1 IH]; intros l2 N1 N2 D; [exact N2|]. cbn.
            inversion N1 as [|? ? X1 X2]; subst. constructor.
            + rewrite in_app_iff. intros [K|K]; [auto|]. apply (D x); [now left|exact K].
            + apply IH; auto. intros i Hi. apply D. now right.
          - apply to_indices_nodup.
          - intros i. rewrite in_app_iff.
            rewrite !in_to_indices_ok, b3, orb_true_iff, existsb_eqb_in by (apply Fi || exact b4). reflexivity. }
        assert (G : forall i, rget r i = if N.testbit m i then match F i with Ok x => Some x | _ => None end else None).
        { intros i. unfold rget, get. cbn [r mr_modules mr_data]. rewrite Zl, b7.
          destruct (existsb (N.eqb i) ps) eqn:K.
          - apply existsb_eqb_in, Gi' in K. now destruct K as [-> _].
          - destruct (N.testbit m i) eqn:Em; [|reflexivity]. destruct (ids i) as [x|e] eqn:Ei.
            + exfalso. assert (existsb (N.eqb i) ps = true); [|congruence]. apply existsb_eqb_in, Gi'. eauto.
            + now rewrite (Fids i e Ei). }
        assert (Ra : raligned r) by (split; [exact Al|split; [exact b4|exact Len]]).
        exists (fun i => match F i with Ok x => inl x | _ => inr match rerr r i with Some e => e | None => TeDecode DeParseFailed end end).
        split; [split; [exact Ra|]|].
        + intros i. split.
          * rewrite G. destruct (N.testbit m i); [|reflexivity]. now destruct (F i).
          * assert (Er : match rerr r i with Some _ => true | None => false end = N.testbit m i && is_err (F i)).
            { unfold rerr, fget. rewrite <- (testbit_get _ _ i (proj2 Ra)). exact (Fm i). }
            destruct (N.testbit m i) eqn:Em; cbn [andb] in Er; [|destruct (rerr r i); [discriminate|reflexivity]].
            pose proof (Hp i Em). destruct (F i); cbn [is_err] in Er; destruct (rerr r i); try discriminate; try reflexivity; congruence.
        + intros i x Bi. unfold query_says. fold (F i). destruct (F i); split; congruence.
      - intros i. destruct (N.testbit m i) eqn:Em.
        + unfold query_goes. fold (ids i). destruct (ids i) as [k|e] eqn:Hk.
          * destruct (Hall i k Em Hk) as (mk & Hin & Bk). apply (H2 k mk i Hin Bk).
          * rewrite O2, M1, Em; [reflexivity|]. rewrite Gi'. intros (_ & x & Hx). congruence.
        + rewrite O2, M1, Em; [reflexivity|]. rewrite Gi', Em. intros (K & _). discriminate.
    Qed.
  End Query.
End Apart.
