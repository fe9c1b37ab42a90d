(** Proofs about runs of the command-line tool on modules that are there (C98). *)
From Coq Require Import String.
From Verif Require Export SpecTool.
From Verif Require Import Tac Spec ModuleIdProofs ModuleIdProps ResultsProofs ControllerProofs ControllerProofs3 ControllerProofs4
  ControllerProofs5 ControllerProofs6 ControllerProofs7 ScopeProofs ScopeProofs2 LiveProofs LiveProofs2 LiveProofs3 CliProofs5 MainProofs CoverProofs CoverProofs2 CoverProofs3.
Import ListNotations.
Open Scope N_scope.

Lemma shown_failures show (f : Failures) i out : faligned f -> N.testbit (fm_modules f) i = true ->
  error_line show i (mkScreen out (print_failures show f)).
Proof.
  intros F Hi. unfold error_line, print_failures. cbn [sc_err].
  pose proof F as [F1 F2].
  pose proof Hi as G. rewrite (testbit_get _ (fm_errors f) i F) in G. destruct (get (fm_modules f) (fm_errors f) i) as [e|] eqn:Ge; [clear G|discriminate].
  assert (I : In (i, e) (failed_iter f)) by (unfold failed_iter; now apply in_zip_get).
  exists e. destruct (Nat.eqb_spec (m_count (fm_modules f)) 0) as [Z|Z].
  - apply count0 in Z; [|exact F1]. rewrite Z, N.bits_0 in Hi. discriminate.
  - apply in_or_app. right. apply in_map_iff. exists (i, e). split; [|exact I]. cbn [fst snd]. rewrite port_shown_ok; [reflexivity|].
    pose proof (proj1 (mask_ok_testbit _) F1 i Hi). lia.
Qed.

Section Tool.
  Context {St : Type} (a : honest St) (view : St -> N -> slot) (Hok : honest_ok a) (Hd : drives a view)
          (show_f32 : f32 -> text) (show : TransceiverError -> text).
  Implicit Type w : world St.
  Local Notation sp := (honest_sp a).
  Local Notation main := (main sp show_f32 show).

  (** Each module was told of. *)
  Lemma ack_told_of q w w' r : request_unit q = 0%nat -> (forall x y, response_to q x y = SAck x y) ->
    mask_ok (request_modules q) = true -> no_payload_request sp q w = (w', Ok r) -> told_of (request_modules q) (mr_modules r) (mr_failures r).
  Proof.
    intros H1 H2 Hm E. destruct (honest_ack a Hok w q H1 H2 Hm) as (r' & E' & _ & R). rewrite E in E'. injection E' as _ ->.
    eapply rrep_told_of, R.
  Qed.
  Lemma ack_sub q w w' r : request_unit q = 0%nat -> (forall x y, response_to q x y = SAck x y) ->
    mask_ok (request_modules q) = true -> no_payload_request sp q w = (w', Ok r) -> mask_ok (mr_modules r) = true.
  Proof.
    intros H1 H2 Hm E. destruct (honest_ack a Hok w q H1 H2 Hm) as (r' & E' & _ & R). rewrite E in E'. injection E' as _ ->. apply R.
  Qed.
  Lemma told_merge m x y (f g : Failures) : told_of m x f -> told_of x y g -> told_of m y (failed_merge f g).
  Proof.
    intros [F T] [G U]. split; [now apply failed_merge_ok|]. intros i Hi. rewrite failed_merge_bit, orb_true_iff.
    destruct (T i Hi) as [X|X]; [destruct (U i X); auto|auto].
  Qed.
  Lemma reset_told_of m w w' r : mask_ok m = true -> reset sp m w = (w', Ok r) -> told_of m (mr_modules r) (mr_failures r).
  Proof.
    intros Hm E. unfold reset in E. apply cbind_inv in E. destruct E as (w1 & x & E1 & E).
    pose proof (ack_sub (HAssertReset m) _ _ _ eq_refl (fun _ _ => eq_refl) Hm E1) as Hx.
    apply ack_told_of in E1; [|reflexivity|reflexivity|exact Hm].
    apply cbind_inv in E. destruct E as (w2 & u & _ & E). apply cbind_inv in E. destruct E as (w3 & y & E2 & E).
    apply ack_told_of in E2; [|reflexivity|reflexivity|exact Hx].
    apply cbind_inv in E. destruct E as (w4 & v & _ & E). injection E as _ <-. cbn [ack_new mr_modules mr_failures].
    exact (told_merge _ _ _ _ _ E1 E2).
  Qed.
  Lemma off_told_of m w w' r : mask_ok m = true -> set_power_off sp m w = (w', Ok r) -> told_of m (mr_modules r) (mr_failures r).
  Proof.
    intros Hm E. unfold set_power_off in E. apply cbind_inv in E. destruct E as (w1 & x & E1 & E).
    pose proof (ack_sub (HDeassertLpMode m) _ _ _ eq_refl (fun _ _ => eq_refl) Hm E1) as Hx.
    apply ack_told_of in E1; [|reflexivity|reflexivity|exact Hm].
    apply cbind_inv in E. destruct E as (w2 & y & E2 & E).
    pose proof (ack_sub (HAssertReset _) _ _ _ eq_refl (fun _ _ => eq_refl) Hx E2) as Hy.
    apply ack_told_of in E2; [|reflexivity|reflexivity|exact Hx].
    apply cbind_inv in E. destruct E as (w3 & z & E3 & E).
    apply ack_told_of in E3; [|reflexivity|reflexivity|exact Hy].
    injection E as _ <-. cbn [mr_modules mr_failures]. exact (told_merge _ _ _ _ _ (told_merge _ _ _ _ _ E1 E2) E3).
  Qed.
  Lemma write_told_of m wr data w w' r : mask_ok m = true -> wr_len wr = Nlen data -> ctl_write sp m wr data w = (w', Ok r) ->
    told_of m (mr_modules r) (mr_failures r).
  Proof.
    intros Hm Hl E. unfold ctl_write in E. apply cbind_inv in E. destruct E as (w1 & ri & E1 & E).
    destruct (live_identifier a view Hok Hd w m _ (fun i => eq_refl) Hm) as (ri' & w1' & f & E1' & R & _). rewrite E1 in E1'. injection E1' as <- <-.
    apply cbind_inv in E. destruct E as (w2 & u & E2 & E). unfold cret in E2. injection E2 as <- _.
    apply cbind_inv in E. destruct E as (w3 & x & E3 & E). injection E as _ <-. cbn [ack_new mr_modules mr_failures].
    destruct (honest_write a Hok w1 (mr_modules ri) wr data Hl (proj1 (proj1 (proj1 R)))) as (x' & E3' & _ & R3). rewrite E3 in E3'. injection E3' as _ ->.
    exact (told_merge _ _ _ _ _ (rrep_told_of _ _ _ R) (rrep_told_of _ _ _ R3)).
  Qed.

  (** ** The run *)
  Lemma run_address g w w1 m : addressing sp g w w1 m -> main g w = run_cmd sp show_f32 show (ar_ignore_errors g) m (ar_cmd g) w1.
  Proof. intros A. unfold CliMain.main. fold (named g). unfold addressing in A. now rewrite A. Qed.
  Lemma address_keeps t w : forall i, view (w_sp (fst (address_transceivers sp t w))) i = view (w_sp w) i.
  Proof. intros i. apply (looks_keep a view Hd false _ (asks_address sp t) w i). Qed.
  Lemma addressing_keeps g w w1 m i : addressing sp g w w1 m -> view (w_sp w1) i = view (w_sp w) i.
  Proof. intros A. pose proof (address_keeps (named g) w i) as K. unfold addressing in A. now rewrite A in K. Qed.
  Lemma run_others g w w1 m i : addressing sp g w w1 m -> ~ member i m -> view (w_sp (fst (main g w))) i = view (w_sp w) i.
  Proof.
    intros A Hi. rewrite (run_address _ _ _ _ A), <- (addressing_keeps _ _ _ _ i A).
    destruct (runs_touch sp show_f32 show (honest_scoped a) (ar_ignore_errors g) m (ar_cmd g) w1) as (ds & G & F).
    eapply (went_keeps a view); [|exact G|exact F]. intros s q d K. apply (dr_apart _ _ Hd). cbn in K. rewrite member_testbit in *. auto.
  Qed.
  (** Commands that only look. *)
  Definition looks_only (c : Cmd) : Prop := forall q d, ~ may_send c q d.
  Lemma run_quiet g w i : looks_only (ar_cmd g) -> view (w_sp (fst (main g w))) i = view (w_sp w) i.
  Proof.
    intros L. destruct (main_runs sp show_f32 show g w) as (ds & G & F).
    eapply (went_keeps a view); [|exact G|exact F]. intros s q d [[K _]|K]; [now apply (dr_look _ _ Hd)|destruct (L _ _ K)].
  Qed.

  Lemma acting_inv ign (c : ctl (St := St) (Result unit)) w w' scr :
    (let (w'', r) := acting show ign c w in (w'', omap_err (@Some Error) r)) = (w', Ok scr) ->
    exists r, c w = (w', Ok r) /\ scr = mkScreen [] (failures_shown show ign (mr_failures r)).
  Proof.
    unfold acting. destruct (cbind c _ w) as [w'' o] eqn:E. destruct o as [s| |]; cbn [omap_err]; [|discriminate|discriminate].
    intros [= <- <-]. apply cbind_inv in E. destruct E as (w1 & r & E1 & E). injection E as <- <-. eauto.
  Qed.

  Lemma alike_keeps s s' m : same_case a view s m -> (forall j, view s' j = view s j) -> same_case a view s' m.
  Proof. intros (K & L & O) V. split; [exact K|]. split; intros j k; rewrite !V; [apply L|apply O]. Qed.
  Lemma off_power x : off_slot x = true <-> slot_power x = Some PowerOff.
  Proof.
    unfold off_slot, slot_power, slot_mode. destruct (_ || _); [cbn; tauto|]. split; [discriminate|].
    destruct (slot_control x) as [[|[|]]|]; cbn; try discriminate. now destruct (lpmode_pin _).
  Qed.
  Lemma power_up_obeyed m st w w' r i : mask_ok m = true -> st <> PowerOff -> set_power_on sp m st w = (w', Ok r) ->
    (forall j, member j m -> j = i) \/ same_case a view (w_sp w) m -> N.testbit m i = true -> N.testbit (fm_modules (mr_failures r)) i = false ->
    slot_power (view (w_sp w') i) = Some st.
  Proof.
    intros Hm Hst E [O|(K & L & O)] Hi Hf.
    - eapply power_on_one; eauto. intros j Hj. now apply O, member_testbit.
    - eapply power_on_alike with (id0 := slot_kind (view (w_sp w) i)); eauto.
      + intros t q d j Hq Hj. apply K; [exact Hq|now apply member_testbit].
      + intros j Hj. apply L; now apply member_testbit.
      + intros j k Hj Hk. rewrite !off_power. apply O; now apply member_testbit.
  Qed.

  Theorem run_obeyed g w w1 w' m scr i : ar_ignore_errors g = false -> addressing sp g w w1 m -> m < 2 ^ 64 ->
    main g w = (w', Ok scr) -> member i m -> ~ error_line show i scr ->
    (powers_up (ar_cmd g) = true -> (forall j, member j m -> j = i) \/ same_case a view (w_sp w) m) ->
    obeyed (ar_cmd g) (view (w_sp w) i) (view (w_sp w') i).
  Proof.
    intros Hig A Hm E Hi Hl Hone. rewrite (run_address _ _ _ _ A), Hig in E. rewrite <- (addressing_keeps _ _ _ _ i A).
    pose proof (proj2 (mask_ok_lt m) Hm) as Hm'. apply member_testbit in Hi.
    assert (L : forall c : ctl (St := St) (Result unit), (let (w'', r) := acting show false c w1 in (w'', omap_err (@Some Error) r)) = (w', Ok scr) ->
      (forall r, c w1 = (w', Ok r) -> told_of m (mr_modules r) (mr_failures r)) ->
      exists r, snd (c w1) = Ok r /\ w' = fst (c w1) /\ succeeded r i).
    { intros c K T. apply acting_inv in K. destruct K as (r & K & ->). exists r. specialize (T r K). destruct T as [F T]. rewrite K. repeat split.
      unfold succeeded. rewrite member_testbit. destruct (T i Hi) as [X|X]; [exact X|]. destruct Hl. now apply shown_failures. }
    assert (P : forall q, is_power_pin q = true -> request_modules q = m ->
      (let (w'', r) := acting show false (no_payload_request sp q) w1 in (w'', omap_err (@Some Error) r)) = (w', Ok scr) ->
      pins (view (w_sp w') i) = pins_after q (pins (view (w_sp w1) i))).
    { intros q Hq Hqm K. destruct (L _ K) as (r & K1 & -> & K2).
      - intros r X. rewrite <- Hqm. apply ack_told_of in X; auto; [now destruct q|now destruct q|now rewrite Hqm].
      - rewrite <- Hqm in Hm. exact (proj2 (proj2 (live_pins a view Hok Hd w1 q r Hq Hm K1 i K2))). }
    pose proof (run_quiet g w i) as Q. rewrite (run_address _ _ _ _ A), Hig, E in Q. cbn [fst] in Q. rewrite <- (addressing_keeps _ _ _ _ i A) in Q.
    unfold obeyed. unfold pins in P |- *. destruct (ar_cmd g) as [ | |st| | | | | | | | | | |page input offset| | | | | |l| | ] eqn:Ec.
    all: try (apply Q; intros q d X; exact X).
    all: try exact I.
    all: cbn [run_cmd run_call] in E.
    - destruct (L _ E) as (r & K1 & -> & K2); [intros r; now apply reset_told_of|].
      exact (proj2 (proj2 (live_reset a view Hok Hd w1 m r Hm K1 i K2))).
    - destruct st.
      + destruct (L _ E) as (r & K1 & -> & K2); [intros r; now apply off_told_of|]. cbn [set_power] in *. unfold succeeded in K2. rewrite member_testbit in K2.
        destruct (set_power_off sp m w1) as [w2 o] eqn:X. cbn [fst snd] in *. subst o. eapply live_set_power_off; eauto.
      + apply acting_inv in E. destruct E as (r & E & ->). cbn [set_power] in E.
        eapply power_up_obeyed; eauto; [discriminate| |].
        * destruct (Hone eq_refl) as [O|O]; [now left|right]. eapply alike_keeps; [exact O|]. intros j. now apply addressing_keeps with (1 := A).
        * destruct (N.testbit (fm_modules (mr_failures r)) i) eqn:X; [|reflexivity]. destruct Hl. apply shown_failures; [|exact X].
          eapply power_on_failures; eauto. discriminate.
      + apply acting_inv in E. destruct E as (r & E & ->). cbn [set_power] in E.
        eapply power_up_obeyed; eauto; [discriminate| |].
        * destruct (Hone eq_refl) as [O|O]; [now left|right]. eapply alike_keeps; [exact O|]. intros j. now apply addressing_keeps with (1 := A).
        * destruct (N.testbit (fm_modules (mr_failures r)) i) eqn:X; [|reflexivity]. destruct Hl. apply shown_failures; [|exact X].
          eapply power_on_failures; eauto. discriminate.
    - exact (P (HEnablePower m) eq_refl eq_refl E).
    - exact (P (HDisablePower m) eq_refl eq_refl E).
    - exact (P (HAssertReset m) eq_refl eq_refl E).
    - exact (P (HDeassertReset m) eq_refl eq_refl E).
    - exact (P (HAssertLpMode m) eq_refl eq_refl E).
    - exact (P (HDeassertLpMode m) eq_refl eq_refl E).
    - unfold cmd_write in E. destruct (args_data input) as [d| |]; [|discriminate|discriminate].
      destruct (255 <? Nlen d); [discriminate|].
      match type of E with context [cbind ?x ?y w1] => destruct (cbind x y w1) as [w2 o] eqn:Y end.
      destruct o as [r| |]; cbn [omap_err omap] in E; [|discriminate|discriminate]. injection E as -> S. symmetry in S.
      apply cbind_inv in Y. destruct Y as (w2 & p & Y1 & Y). unfold cret in Y1. injection Y1 as <- Yp.
      apply cbind_inv in Y. destruct Y as (w2 & wr & Y1 & X). unfold cret in Y1. injection Y1 as <- Yw.
      unfold write_new in Yw. destruct (verify_write p offset (Nlen d)); cbn in Yw; [|discriminate|discriminate]. injection Yw as <-.
      exists p, d. split; [exact Yp|]. split; [reflexivity|]. intros Hb.
      pose proof (write_told_of _ (mkWrite p offset (Nlen d)) d _ _ _ Hm' eq_refl X) as [F T].
      assert (K : succeeded r i).
      { unfold succeeded. rewrite member_testbit. destruct (T i Hi) as [Z|Z]; [exact Z|]. destruct Hl. subst scr. now apply shown_failures. }
      assert (Z : snd (ctl_write sp m (mkWrite p offset (Nlen d)) d w1) = Ok r) by now rewrite X.
      pose proof (live_write a view Hok Hd w1 m _ d r Hm Hb Z i K) as V. unfold seen_after in V. rewrite X in V. cbn [fst] in V.
      destruct V as (_ & _ & _ & V1 & V2 & V3). split; [exact V1|]. split; [exact V2|]. exact V3.
    - destruct (L _ E) as (r & K1 & -> & K2).
      + intros r X. apply (ack_told_of (HSetLedState m l)) in X; auto.
      + exact (proj2 (live_set_led a view Hok Hd w1 m l r Hm K1 i K2)).
  Qed.
End Tool.
