(** Proofs for C97: the calls. *)
From Verif Require Export PinsProofs.
From Verif Require Import Tac Spec ModuleIdProofs ModuleIdProps ResultsProofs ControllerProofs ControllerProofs3
  ControllerProofs4 ControllerProofs5 ControllerProofs6 ControllerProofs7 ScopeProofs ScopeProofs2 LiveProofs LiveProofs2 LiveProofs3.

Section Calls.
  Context {St : Type} (a : honest St) (view : St -> N -> slot) (Hok : honest_ok a) (Hd : drives a view) (Hf : firm a view).
  Implicit Type w : world St.
  Local Notation sp := (honest_sp a).
  Context (T : N -> bool * bool * bool).
  Local Notation is_ t s := (forall i, pins (view s i) = t i).

  Lemma mild_look q d : lk q d -> is_power_pin q = false /\ mild q d.
  Proof. intros [H _]. split; [now destruct q|now left]. Qed.

  Section Power.
    Context (st : PowerState).
    (** What is asked of each module at each request. *)
    Definition fit (s : St) (q : HostRequest) : Prop := forall i, N.testbit (request_modules q) i = true -> is_power_pin q = true ->
      match q with
      | HAssertLpMode _ => supplied (sl_status (view s i)) = true
      | HDisablePower _ => held_in_reset (sl_status (view s i)) = true /\ lpmode_pin (sl_status (view s i)) = false
      | _ => True
      end /\ (obeys a i \/ st = PowerOff -> pins_met st (T i) q = Some (pins (view s i))).
    Lemma fit_quiet s q : is_power_pin q = false -> fit s q.
    Proof. intros H i _ K. congruence. Qed.
    Local Notation way := (way a fit).

    Lemma way_off m : st = PowerOff -> mask_ok m = true -> way (fun s => is_ T s) (set_power_off sp m) (fun _ _ => True).
    Proof.
      intros Est Hm. unfold set_power_off.
      eapply way_bind; [apply way_pin with (view := view); auto|].
      { intros s Hs i _ _. split; [exact I|]. intros _. rewrite Hs, Est. cbn. now destruct (T i) as [[p r] l]. }
      cbn [request_modules]. intros x. apply way_ex. intros s0. eapply way_conseq with (P := fun s => (is_ T s0 /\ sub (mr_modules x) m) /\ _); [| |intros ? ? K; exact K].
      { intros s (H1 & H2 & H3 & H4). split; [split; [exact H1|exact H2]|]. exact (conj H3 H4). }
      apply way_pure. intros (T0 & Sx). assert (Hx : mask_ok (mr_modules x) = true) by now apply (sub_ok _ m).
      eapply way_bind; [apply way_pin with (view := view); auto|].
      { intros s (H3 & H4) i Hi _. split; [exact I|]. intros _. cbn in Hi. rewrite H4, Hi, T0, Est. destruct (T i) as [[p r] l]. reflexivity. }
      cbn [request_modules]. intros y. apply way_ex. intros s1.
      eapply way_conseq with (P := fun s => (sub (mr_modules y) (mr_modules x) /\ forall i, N.testbit (mr_modules x) i = true -> pins (view s1 i) = pins_after (HDeassertLpMode 0) (T i)) /\ _); [| |intros ? ? K; exact K].
      { intros s ((H3 & H4) & H5 & H6 & H7). split; [|exact (conj H6 H7)]. split; [exact H5|]. intros i Hi. now rewrite H4, Hi, T0. }
      apply way_pure. intros (Sy & T1). assert (Hy : mask_ok (mr_modules y) = true) by now apply (sub_ok _ (mr_modules x)).
      eapply way_bind; [apply way_pin with (view := view); auto|].
      { intros s (H6 & H7) i Hi _. cbn in Hi. specialize (H7 i). rewrite Hi, T1 in H7 by now apply Sy. split.
        - destruct (T i) as [[p r] l]. cbn in H7. unfold pins in H7. injection H7 as _ H8 H9. auto.
        - intros _. rewrite H7, Est. now destruct (T i) as [[p r] l]. }
      intros z. apply way_ret. auto.
    Qed.

    Definition on (t : bool * bool * bool) : bool := let '(p, r, _) := t in p && negb r.
    Definition lp : bool := match st with PowerLow => true | _ => false end.
    Lemma mild_soft q d : lk q d \/ software_power_write st q d -> is_power_pin q = false /\ mild q d.
    Proof.
      intros [H|H]; [now apply mild_look|]. destruct H as (m & b & -> & H). destruct H as [[-> H]|[-> H]]; (split; [reflexivity|]); right; right;
      eexists _, _, [b]; (split; [reflexivity|]); (split; [reflexivity|]); destruct st; try contradiction; destruct H as [-> | ->]; reflexivity.
    Qed.
    Lemma way_soft (P : St -> Prop) pr : st <> PowerOff -> way P (set_software_power_state sp pr st) (fun _ _ => True).
    Proof.
      intros Hst. eapply (way_quiet a fit fit_quiet P _ (only (fun q d => lk q d \/ software_power_write st q d) false)); [| |auto].
      - intros q d H. now apply mild_soft.
      - apply asks_ssps; [| |exact Hst]; unfold lk; auto.
    Qed.
    Lemma way_power m : mask_ok m = true -> way (fun s => is_ T s) (power sp m) (fun p s => mask_ok (mr_modules p) = true /\ is_ T s).
    Proof.
      intros Hm. assert (HA : asks sp lk false (power sp m)) by (apply asks_power; split; reflexivity).
      eapply (way_quiet a fit fit_quiet); [|exact HA|].
      - intros q d H. now apply mild_look.
      - intros w Hw x Hx. split.
        + apply (sub_ok _ m); [|exact Hm]. destruct (in_power sp (honest_scoped a) m w) as (_ & _ & _ & K). exact (proj1 (K x Hx)).
        + intros i. rewrite <- Hw. f_equal. exact (looks_keep a view Hd false _ HA w i).
    Qed.
    Definition tells_pins (r : Result N) : Prop := aligned (mr_modules r) (mr_data r) /\
      forall i x, get (mr_modules r) (mr_data r) i = Some x -> (supplied x, held_in_reset x, lpmode_pin x) = T i.
    Lemma way_status m : mask_ok m = true -> way (fun s => is_ T s) (ctl_status sp m) (fun r s => tells_pins r /\ is_ T s).
    Proof.
      intros Hm. assert (HA : asks sp lk false (ctl_status sp m)) by (apply asks_status; split; reflexivity).
      eapply (way_quiet a fit fit_quiet); [|exact HA|].
      - intros q d H. now apply mild_look.
      - intros w Hw x Hx. destruct (ctl_status sp m w) as [w' o] eqn:E. cbn [fst snd] in *. subst o.
        destruct (live_status a view Hok Hd w m w' x Hm E) as (_ & H2 & H3 & H4). split.
        + split; [exact H2|]. intros i y Hy. rewrite (H3 _ _ Hy), <- Hw. reflexivity.
        + intros i. now rewrite H4.
    Qed.

    Lemma way_on m : st <> PowerOff -> mask_ok m = true -> way (fun s => is_ T s) (set_power_on sp m st) (fun _ _ => True).
    Proof.
      intros Hst Hm. unfold set_power_on. eapply way_bind; [apply way_power; exact Hm|]. intros p. apply way_pure. intros Hp.
      destruct (_ && _); [now apply way_ret|].
      eapply way_bind; [apply way_status; exact Hp|]. intros s. apply way_pure. intros [Hal Hst2].
      assert (Hsm : mask_ok (mr_modules s) = true) by apply Hal.
      destruct (filter_module_data (mr_modules s) (mr_data s) (fun _ s => negb _ || _)) as [npe l1] eqn:EF.
      destruct (filter_eq _ _ _ _ _ Hsm EF) as [Aln Gn].
      destruct (filter_module_data (mr_modules s) (mr_data s) (fun _ s => st_contains s ST_RESET)) as [nrd l2] eqn:EG.
      destruct (filter_eq _ _ _ _ _ Hsm EG) as [Alr Gr].
      set (f0 := failed_merge (mr_failures p) (mr_failures s)) in *. clearbody f0.
      set (nbr := m_remove npe nrd) in *.
      assert (Hnpe : mask_ok npe = true) by apply Aln. assert (Hnb : sub nbr npe) by apply sub_remove.
      assert (Hnbr : mask_ok nbr = true) by now apply (sub_ok _ npe).
      assert (Bn : forall i, N.testbit npe i = N.testbit (mr_modules s) i && negb (on (T i))).
      { intros i. rewrite (testbit_get _ _ i Aln), Gn, (testbit_get _ _ i Hal). destruct (get (mr_modules s) (mr_data s) i) as [x|] eqn:G; [|reflexivity].
        rewrite <- (Hst2 _ _ G), contains_supplied, contains_reset. cbn. now destruct (supplied x), (held_in_reset x). }
      assert (Br : forall i, N.testbit nrd i = N.testbit (mr_modules s) i && snd (fst (T i))).
      { intros i. rewrite (testbit_get _ _ i Alr), Gr, (testbit_get _ _ i Hal). destruct (get (mr_modules s) (mr_data s) i) as [x|] eqn:G; [|reflexivity].
        rewrite <- (Hst2 _ _ G), contains_reset. cbn. now destruct (held_in_reset x). }
      assert (Bb : forall i, N.testbit nbr i = N.testbit (mr_modules s) i && negb (fst (fst (T i))) && negb (snd (fst (T i)))).
      { intros i. unfold nbr. rewrite m_remove_spec by assumption. rewrite Bn, Br. destruct (T i) as [[b c] e]. cbn. now destruct (N.testbit (mr_modules s) i), b, c. }
      clear EF Gn EG Gr Alr Aln Hst2. clearbody nbr.
      (* reset *)
      apply way_bind with (Q := fun (s1 : ModuleId * FailedModules TransceiverError) s' =>
        (npe = 0 -> fst s1 = mr_modules s) /\ exists R : N, (sub R nbr /\ forall i, obeys a i -> N.testbit R i = N.testbit nbr i) /\
          is_ (fun i => if N.testbit R i then pins_after (HAssertReset 0) (T i) else T i) s').
      { destruct (Nat.ltb_spec 0 (m_count nbr)) as [Hc|Hc].
        - eapply way_bind; [apply way_pin with (view := view); auto|].
          { intros s' Hs' i Hi _. split; [exact I|]. intros _. cbn in Hi. rewrite Bb in Hi. rewrite Hs'.
            destruct (T i) as [[b c] e]. cbn in Hi. rewrite !andb_true_iff, !negb_true_iff in Hi. destruct Hi as [[_ ->] ->]. cbn. now destruct st. }
          intros x. eapply way_bind; [apply way_sleep|]. intros u. apply way_ret. intros y s' [= <-] (s'' & H1 & H2 & H3 & H4). cbn [fst]. split.
          + intros Z. exfalso. assert (Z' : nbr = 0); [|rewrite Z' in Hc; cbn in Hc; lia]. apply mask_ext. intros i. rewrite N.bits_0.
            destruct (N.testbit nbr i) eqn:X; [|reflexivity]. apply Hnb in X. now rewrite Z, N.bits_0 in X.
          + exists (mr_modules x). split; [split; [exact H2|exact H3]|]. intros i. rewrite H4, H1. now destruct (N.testbit (mr_modules x) i).
        - apply way_ret. intros y s' [= <-] Hs'. split; [reflexivity|]. exists 0. split.
          + split; [apply sub_0|]. intros i _. rewrite N.bits_0. assert (Z : m_count nbr = 0%nat) by lia. apply count0 in Z; [|exact Hnbr]. now rewrite Z, N.bits_0.
          + intros i. now rewrite N.bits_0. }
      intros s1. apply way_pure. intros Hz. apply way_ex. intros R. apply way_pure. intros [HR HRo].
      (* power *)
      set (T1 := fun i => if N.testbit R i then pins_after (HAssertReset 0) (T i) else T i).
      assert (HT1 : forall i, obeys a i -> N.testbit npe i = true -> T1 i = (fst (fst (T i)), true, snd (T i))).
      { intros i Ho Hi. unfold T1. rewrite (HRo i Ho), Bb. rewrite Bn in Hi. destruct (T i) as [[b c] e]. cbn in *.
        destruct (N.testbit (mr_modules s) i), b, c; try discriminate; reflexivity. }
      apply way_bind with (Q := fun (s2 : ModuleId * FailedModules TransceiverError) s' => exists T2,
        ((forall i, N.testbit (fst s2) i = true -> fst (fst (T2 i)) = true) /\ mask_ok (fst s2) = true /\
         (forall i, obeys a i -> N.testbit (fst s2) i = true -> T2 i = if on (T i) then T i else (true, true, snd (T i))) /\
         (forall i, obeys a i -> N.testbit npe i = true -> N.testbit (fst s2) i = true /\ T2 i = (true, true, snd (T i)))) /\ is_ T2 s').
      { destruct (Nat.ltb_spec 0 (m_count npe)) as [Hc|Hc].
        - eapply way_bind; [apply way_pin with (view := view); auto|].
          { intros s' Hs' i Hi _. split; [exact I|]. intros [Ho|]; [|contradiction]. cbn in Hi. rewrite Hs'. change (pins_met st (T i) (HEnablePower npe) = Some (T1 i)).
            rewrite HT1 by assumption. rewrite Bn in Hi. destruct (T i) as [[b c] e]. apply andb_true_iff in Hi. destruct Hi as [_ Hi]. cbn in *.
            apply negb_true_iff in Hi. rewrite Hi. now destruct st. }
          intros x. apply way_ret. intros y s' [= <-] (s'' & H1 & H2 & H3 & H4). cbn [fst request_modules] in *.
          exists (fun i => if N.testbit (mr_modules x) i then pins_after (HEnablePower npe) (T1 i) else T1 i). split; [|intros i; rewrite H4, H1; reflexivity].
          split; [|split; [|split]].
          + intros i Hi. rewrite Hi. now destruct (T1 i) as [[b c] e].
          + now apply (sub_ok _ npe).
          + intros i Ho Hi. rewrite Hi. pose proof (H2 i Hi) as Hn. rewrite HT1 by assumption. cbn. rewrite Bn in Hn.
            apply andb_true_iff in Hn. destruct Hn as [_ Hn]. apply negb_true_iff in Hn. now rewrite Hn.
          + intros i Ho Hi. rewrite H3 by exact Ho. split; [exact Hi|]. rewrite Hi, HT1 by assumption. reflexivity.
        - apply way_ret. intros y s' [= <-] Hs'. assert (Z : npe = 0) by (apply count0; [exact Hnpe|lia]). exists T1. split; [|exact Hs'].
          rewrite (Hz Z) in *.
          assert (Hon : forall i, N.testbit (mr_modules s) i = true -> on (T i) = true /\ T1 i = T i).
          { intros i Hi. specialize (Bn i). rewrite Z, N.bits_0, Hi in Bn. cbn in Bn. split; [now destruct (on (T i))|].
            unfold T1. destruct (N.testbit R i) eqn:X; [|reflexivity]. apply HR, Hnb in X. rewrite Z, N.bits_0 in X. discriminate. }
          split; [|split; [|split]].
          + intros i Hi. destruct (Hon i Hi) as [H1 ->]. destruct (T i) as [[b c] e]. cbn in *. now destruct b.
          + exact Hsm.
          + intros i _ Hi. destruct (Hon i Hi) as [-> ->]. reflexivity.
          + intros i _. rewrite Z, N.bits_0. discriminate. }
      intros s2. apply way_ex. intros T2. apply way_pure. intros (Hsup & Hm2 & HT2 & HT2').
      (* the LPMode pin *)
      apply way_bind with (Q := fun _ s' => forall i, obeys a i -> N.testbit npe i = true -> pins (view s' i) = (true, true, lp)).
      { replace (match st with PowerLow => assert_lpmode sp (fst s2) | _ => deassert_lpmode sp (fst s2) end)
          with (no_payload_request sp (lpmode_request st (fst s2))) by (now destruct st).
        eapply way_conseq with (c := no_payload_request sp (lpmode_request st (fst s2))) (P := fun s' => is_ T2 s'); [intros ? K; exact K| |].
        - assert (L : is_power_pin (lpmode_request st (fst s2)) = true /\ request_modules (lpmode_request st (fst s2)) = fst s2) by (destruct st; split; reflexivity).
          destruct L as [L1 L2]. apply way_pin with (view := view); auto; [now rewrite L2|].
          intros s' Hs' i Hi _. rewrite L2 in Hi. split.
          + pose proof (Hsup i Hi) as K. rewrite <- Hs' in K. unfold lpmode_request. destruct st; try exact I. exact K.
          + intros [Ho|]; [|contradiction]. rewrite Hs', (HT2 i Ho Hi). destruct (T i) as [[b c] e]. unfold lpmode_request. destruct st; [congruence| |]; reflexivity.
        - intros x s' (s'' & H1 & H2 & H3 & H4) i Ho Hi. destruct (HT2' i Ho Hi) as [K1 K2]. rewrite H4, H3 by exact Ho.
          rewrite H1, K2. replace (request_modules (lpmode_request st (fst s2))) with (fst s2) by (now destruct st). rewrite K1.
          unfold lpmode_request, lp. destruct st; [congruence| |]; reflexivity. }
      intros l. set (f3 := failed_merge (snd s2) (mr_failures l)). clearbody f3.
      apply way_bind with (Q := fun _ _ => True).
      { destruct (Nat.ltb_spec 0 (m_count npe)) as [Hc|Hc]; [|now apply way_ret].
        eapply way_bind; [apply way_pin with (view := view); auto|].
        { intros s' Hs' i Hi _. cbn in Hi. split; [exact I|]. intros [Ho|]; [|contradiction]. rewrite (Hs' i Ho Hi). rewrite Bn in Hi. apply andb_true_iff in Hi. destruct Hi as [_ Hi].
          apply negb_true_iff in Hi. destruct (T i) as [[b c] e]. unfold on in Hi. unfold lp, pins_met. rewrite Hi. destruct st; [congruence| |]; reflexivity. }
        intros x. eapply way_bind; [apply way_sleep|]. intros u. now apply way_ret. }
      intros s4. destruct (keep_module_data _ _ _) as [k1 k2]. now apply way_soft.
    Qed.
  End Power.
End Calls.
