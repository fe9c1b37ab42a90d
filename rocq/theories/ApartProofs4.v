(** Proofs for C99, part 4: power. *)
From Verif Require Export ApartProofs3.
From Verif Require Import Tac Spec ModuleIdProofs ModuleIdProps ResultsProofs ControllerProofs ControllerProofs3 ControllerProofs4 ControllerProofs5
  ControllerProofs6 LiveProofs LiveProofs2 LiveProofs3.
Import ListNotations.
Open Scope N_scope.

Section Apart.
  Context {X : Type} (b : bay X) (Hb : bay_ok b).
  Implicit Type w : world (N -> X).
  Local Notation a := (apart b).
  Local Notation sp := (honest_sp (apart b)).
  Local Notation goes := (ApartProofs.goes b).

  Definition st_of (x : X) (i : N) : verdict := by_verdict b i x (HStatus 0) None.
  Definition st_goes (i : N) (x : X) : X := goes (HStatus 0) None i x.
  Definition control_of (i : N) (x : X) := query_says b power_reads power_parse i (st_goes i x).
  Definition mode_of (i : N) (x : X) : PowerMode + TransceiverError := power_says (st_of x) (fun i => control_of i x) i.
  Definition mode_goes (i : N) (x : X) : X := if readable (st_of x) i then query_goes b power_reads i (st_goes i x) else st_goes i x.
  Definition mode_fine (i : N) (x : X) : Prop := readable (st_of x) i = true -> query_fine b power_reads power_parse i (st_goes i x).

  Lemma fate_power m : mask_ok m = true -> fate lrep m (power sp m) mode_fine mode_of mode_goes.
  Proof.
    intros Hm w. destruct (honest_status a (apart_ok b Hb) w m Hm) as (rs & E0 & _ & R0).
    set (st := vd a w (HStatus m) None) in *.
    assert (St : forall i, st i = st_of (w_sp w i) i) by reflexivity.
    assert (Rd : forall i, readable st i = readable (st_of (w_sp w i)) i) by reflexivity.
    pose proof R0 as [[As Fs] Rs].
    set (w0 := next a w (HStatus m) None) in *.
    unfold power. erewrite cbind_ok by exact E0.
    destruct (filter_module_data (mr_modules rs) (mr_data rs) _) as [powered pst] eqn:EP.
    destruct (filter_eq _ _ _ _ _ (proj1 As) EP) as [Ap Gp].
    destruct (filter_module_data powered pst _) as [in_reset irst] eqn:ER.
    destruct (filter_eq _ _ _ _ _ (proj1 Ap) ER) as [Ar Gr].
    destruct (remove_module_data powered pst in_reset) as [rdb rst] eqn:ED.
    destruct (remove_eq _ _ _ _ _ Ap ED) as [Ad Gd].
    (* lookups in terms of [st] *)
    assert (Gs : forall i, get (mr_modules rs) (mr_data rs) i =
                   if N.testbit m i then match st i with inl d => Some (hd 0 d) | inr _ => None end else None).
    { intros i. destruct (Rs i) as [K _]. unfold rget in K. rewrite K. unfold told.
      destruct (N.testbit m i), (st i); reflexivity. }
    assert (Gp' : forall i, get powered pst i =
                   if N.testbit m i then match st i with
                     | inl d => if supplied (hd 0 d) then Some (hd 0 d) else None
                     | inr _ => None end else None).
    { intros i. rewrite Gp, Gs. destruct (N.testbit m i); [|reflexivity]. destruct (st i); [|reflexivity].
      now rewrite contains_supplied. }
    assert (Gr' : forall i, N.testbit in_reset i =
                   N.testbit m i && match st i with
                     | inl d => supplied (hd 0 d) && held_in_reset (hd 0 d)
                     | inr _ => false end).
    { intros i. rewrite (testbit_get _ _ i Ar), Gr, Gp'. destruct (N.testbit m i); [|reflexivity].
      destruct (st i) as [d|]; [|reflexivity]. cbn [andb]. destruct (supplied (hd 0 d)); [|reflexivity]. rewrite contains_reset.
      now destruct (held_in_reset (hd 0 d)). }
    assert (Gd' : forall i, get rdb rst i =
                   if N.testbit m i && readable st i then match st i with inl d => Some (hd 0 d) | inr _ => None end else None).
    { intros i. rewrite Gd, Gr', Gp'. unfold readable. destruct (N.testbit m i); [|reflexivity]. cbn [andb].
      destruct (st i) as [d|]; [|reflexivity].
      destruct (supplied (hd 0 d)), (held_in_reset (hd 0 d)); reflexivity. }
    assert (Tb : forall i, N.testbit rdb i = N.testbit m i && readable st i).
    { intros i. rewrite (testbit_get _ _ i Ad), Gd'. unfold readable. destruct (N.testbit m i); [|reflexivity].
      cbn [andb]. destruct (st i) as [d|]; [|reflexivity]. destruct (_ && _); reflexivity. }
    assert (M0 : forall i, w_sp w0 i = if N.testbit m i then st_goes i (w_sp w i) else w_sp w i).
    { intros i. unfold w0. rewrite next_sp. reflexivity. }
    assert (Inner : (exists r w' C,
      (if Nat.eqb (m_count rdb) 0 then cret (Ok result_default)
           else
             cbind (power_control sp rdb) (fun control =>
             let (_, rs) := filter_module_data rdb rst
                              (fun i _ => m_contains (mr_modules control) i) in
             cret (Ok (mkResult (mr_modules control)
                         (map (fun p => power_mode_of (fst p) (snd p))
                              (combine (mr_data control) rs))
                         (mr_failures control))))) w0 = (w', Ok r) /\
      rrep rdb (power_says st C) r /\
      (forall i, N.testbit rdb i = true -> query_fine b power_reads power_parse i (w_sp w0 i)) /\
      (forall i c, N.testbit rdb i = true -> (C i = inl c <-> control_of i (w_sp w i) = inl c)) /\
      moved rdb (query_goes b power_reads) w0 w') \/
      ((forall w' r, (if Nat.eqb (m_count rdb) 0 then cret (Ok result_default)
           else
             cbind (power_control sp rdb) (fun control =>
             let (_, rs) := filter_module_data rdb rst
                              (fun i _ => m_contains (mr_modules control) i) in
             cret (Ok (mkResult (mr_modules control)
                         (map (fun p => power_mode_of (fst p) (snd p))
                              (combine (mr_data control) rs))
                         (mr_failures control))))) w0 <> (w', Ok r)) /\
       exists i, N.testbit rdb i = true /\ ~ query_fine b power_reads power_parse i (w_sp w0 i))).
    { destruct (Nat.eqb_spec (m_count rdb) 0) as [Hz|Hz].
      - left. apply count0 in Hz; [|apply Ad]. exists result_default, w0, (fun i => control_of i (w_sp w i)).
        split; [reflexivity|]. rewrite Hz. split; [apply rrep_empty|]. split; [intros i; now rewrite N.bits_0|].
        split; [intros; reflexivity|]. intros i. now rewrite N.bits_0.
      - destruct (fate_query b Hb power_reads power_parse power_lengths rdb (proj1 Ad) w0)
          as [(w1 & rc & Ec & Hf & (C & Rc & Cs) & M1)|(Ec & Hf)].
        2:{ right. split; [|apply Hf; intros K; apply Hz; now apply (count0 rdb (proj1 Ad))].
            intros w' r K. apply cbind_inv in K. destruct K as (w1 & rc & K & _). exact (Ec _ _ K). }
        left.
        pose proof Rc as [[Ac Fc] RC].
        assert (Xs : exists rs', filter_module_data rdb rst (fun i _ => m_contains (mr_modules rc) i) = (mr_modules rc, rs') /\
                    aligned (mr_modules rc) rs' /\
                    forall i, get (mr_modules rc) rs' i = if N.testbit (mr_modules rc) i then get rdb rst i else None).
        { destruct (filter_module_data rdb rst (fun i _ => m_contains (mr_modules rc) i)) as [mm rs'] eqn:EF.
          destruct (filter_eq _ _ _ _ _ (proj1 Ad) EF) as [Af Gf].
          assert (mm = mr_modules rc).
          { apply mask_ext. intros i. rewrite (testbit_get _ _ i Af), Gf, Gd'.
            pose proof (rrep_modules _ _ _ i Rc) as M. rewrite Tb in M.
            unfold readable in *. destruct (N.testbit m i); [|now rewrite M]. cbn [andb] in *.
            destruct (st i) as [d|]; [|now rewrite M].
            destruct (supplied (hd 0 d) && negb (held_in_reset (hd 0 d))); [|now rewrite M].
            rewrite m_contains_testbit by apply Ac. now destruct (N.testbit (mr_modules rc) i). }
          subst mm. exists rs'. split; [reflexivity|]. split; [exact Af|]. intros i. rewrite Gf.
          rewrite m_contains_testbit by apply Ac.
          destruct (get rdb rst i), (N.testbit (mr_modules rc) i); reflexivity. }
        destruct Xs as (rs' & EF & Af & Gf).
        eexists _, w1, C. split; [erewrite cbind_ok by exact Ec; rewrite EF; reflexivity|]. split; [|split; [exact Hf|split; [|exact M1]]].
        + split.
          * split; [|exact Fc]. cbn [mr_modules mr_data].
            exact (proj1 (get_map_combine (fun p => power_mode_of (fst p) (snd p)) _ _ _ 0 Ac Af)).
          * intros i. unfold rget. cbn [mr_modules mr_data mr_failures].
            rewrite (proj2 (get_map_combine (fun p => power_mode_of (fst p) (snd p)) _ _ _ i Ac Af)).
            destruct (RC i) as [G1 G2]. unfold rget in G1. unfold rerr in *. cbn [mr_failures] in *.
            rewrite G1, G2, Gf. rewrite (rrep_modules _ _ _ i Rc), Gd', Tb.
            unfold power_says, readable. destruct (N.testbit m i); [|auto]. cbn [andb].
            destruct (st i) as [d|]; [|auto]. destruct (supplied (hd 0 d)), (held_in_reset (hd 0 d)); cbn [andb negb orb]; auto.
            destruct (C i) as [c|e]; cbn [andb]; [|auto]. cbn [fst snd]. unfold power_mode_of, low_or_high.
            destruct c; [|auto]. rewrite contains_lpmode. auto.
        + intros i c Hi. rewrite (Cs i c Hi). assert (Bm : N.testbit m i = true) by (rewrite Tb in Hi; now apply andb_true_iff in Hi).
          unfold control_of. now rewrite M0, Bm. }
    assert (W0 : forall i, N.testbit rdb i = true -> w_sp w0 i = st_goes i (w_sp w i)).
    { intros i Hi. rewrite Tb in Hi. apply andb_true_iff in Hi. rewrite M0. now rewrite (proj1 Hi). }
    destruct Inner as [(r & w1 & C & Ei & Ri & Hf & Cs & M1)|(Ei & i & Bi & Nf)].
    2:{ right. split.
        - intros w' r K. apply cbind_inv in K. destruct K as (w1 & rc & K & _). exact (Ei _ _ K).
        - intros _. exists i. rewrite (W0 i Bi) in Nf. rewrite Tb in Bi. apply andb_true_iff in Bi. destruct Bi as [Bi Br].
          split; [exact Bi|]. intros K. apply Nf, K. now rewrite <- Rd. }
    left.
    erewrite cbind_ok by exact Ei. clear Ei. pose proof Ri as [[Ai Fi] RI].
    set (off := m_merge (m_remove (mr_modules rs) powered) in_reset).
    assert (To : forall i, N.testbit off i = N.testbit m i && match st i with
                   | inl d => negb (supplied (hd 0 d)) || held_in_reset (hd 0 d) | inr _ => false end).
    { intros i. unfold off. rewrite m_merge_spec, m_remove_spec by apply As.
      rewrite (rrep_modules _ _ _ i R0), (testbit_get _ _ i Ap), Gp', Gr'. unfold told.
      destruct (N.testbit m i); [|reflexivity]. cbn [andb]. destruct (st i) as [d|]; [|reflexivity].
      destruct (supplied (hd 0 d)), (held_in_reset (hd 0 d)); reflexivity. }
    assert (Oo : mask_ok off = true).
    { apply mask_ok_testbit. intros i Hi. rewrite To in Hi. apply andb_true_iff in Hi.
      apply (proj1 (mask_ok_testbit m) Hm). tauto. }
    assert (Em : merge_module_data off (repeat power_mode_default 64) (mr_modules r) (mr_data r) =
                 merge_module_data off (repeat power_mode_default (m_count off)) (mr_modules r) (mr_data r)).
    { unfold merge_module_data. now rewrite (zip_repeat64 off). }
    rewrite Em. clear Em.
    destruct (merge_module_data off _ (mr_modules r) (mr_data r)) as [am ad] eqn:EM.
    destruct (merge_eq _ _ _ _ _ _ (aligned_repeat off power_mode_default Oo) Ai EM) as [Aa Ga].
    destruct (failed_merge_spec _ _ Fi Fs) as (Ff & _ & Gf).
    eexists w1, _. split; [reflexivity|]. split; [|split].
    - intros i Bi Br. rewrite <- Rd in Br. assert (K : N.testbit rdb i = true) by (now rewrite Tb, Bi, Br).
      rewrite <- (W0 i K). now apply Hf.
    - exists (power_says st C). split.
      + split; [split; [exact Aa|exact Ff]|]. intros i. unfold rget, rerr. cbn [mr_modules mr_data mr_failures].
      rewrite Ga, Gf, get_repeat by exact Oo. rewrite To. destruct (RI i) as [G1 G2]. unfold rget, rerr in G1, G2.
      rewrite G1, G2. destruct (Rs i) as [_ G3]. unfold rerr in G3. rewrite G3, Tb.
      unfold told, power_says, readable. destruct (N.testbit m i); [|auto]. cbn [andb].
      destruct (st i) as [d|]; [|auto].
      destruct (supplied (hd 0 d)), (held_in_reset (hd 0 d)); cbn [andb negb orb]; auto.
      destruct (C i) as [[|]|]; auto.
      + intros i x Bi. unfold mode_of, power_says. rewrite <- St. specialize (Cs i). rewrite Tb, Bi in Cs. cbn [andb] in Cs.
        unfold readable in Cs. destruct (st i) as [d|]; [|reflexivity].
        destruct (supplied (hd 0 d)), (held_in_reset (hd 0 d)); cbn [andb negb orb] in *; try reflexivity.
        destruct (C i) as [c|e] eqn:Ec; destruct (control_of i (w_sp w i)) as [c'|e'] eqn:Ec'.
        * pose proof (proj1 (Cs c eq_refl) eq_refl) as K. injection K as ->. reflexivity.
        * pose proof (proj1 (Cs c eq_refl) eq_refl). discriminate.
        * pose proof (proj2 (Cs c' eq_refl) eq_refl). discriminate.
        * split; discriminate.
    - intros i. rewrite M1, M0, Tb, Rd. unfold mode_goes. destruct (N.testbit m i); cbn [andb]; [|reflexivity].
      now destruct (readable (st_of (w_sp w i)) i).
  Qed.
End Apart.
