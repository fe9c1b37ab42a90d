(** Proofs about the whole command-line tool (C68): what it prints. *)
From Coq Require Import String.
From Verif Require Export SpecMain.
From Verif Require Import Tac Spec ModuleIdProofs ModuleIdProps ResultsProofs ControllerProofs ControllerProofs2 ControllerProofs3
  ControllerProofs4 ControllerProofs5 ControllerProofs9 ScopeProofs ScopeProofs2 CliProofs5 CliProofs6 TableProofs2 TableProofs3
  MonitorProofs2 QueryProofs CliProofs4 MainProofs.
Import ListNotations.
Open Scope N_scope.

Lemma kind_shown {F} (p : ParsableArgs F) : args_kind p = shown_as p.
Proof. destruct p as [[|] o [s|] h]; reflexivity. Qed.

Lemma hoare_weak {St A sp} (D D' : done -> Prop) (c : ctl (St := St) A) Q : (forall x, D x -> D' x) -> hoare sp D c Q -> hoare sp D' c Q.
Proof. intros K H w. destruct (H w) as (ds & G & F & X). exists ds. split; [exact G|]. split; [|exact X]. eapply Forall_impl; eauto. Qed.

Lemma warning_note wi wo all pa sep kind : status_kind wi wo all pa sep = Ok kind -> status_warning wi wo all pa = status_note wi wo.
Proof.
  unfold status_kind, status_warning, status_note.
  destruct wi as [[|f]|], wo as [[|x]|], all, pa; intro H; try discriminate; reflexivity.
Qed.
Lemma status_form wi wo sep :
  status_kind None None false false sep = Ok SkNormal /\ status_kind None None true false sep = Ok SkAll /\
  status_kind None None false true sep = Ok (SkParseable (match sep with Some s => s | None => T ":" end)) /\
  (wi <> None \/ wo <> None -> status_kind wi wo false false sep = Ok (SkLimited (flags_given wi) (flags_given wo))) /\
  (forall all pa, (wi <> None \/ wo <> None) /\ (all = true \/ pa = true) \/ all = true /\ pa = true ->
     status_kind wi wo all pa sep = Panic).
Proof.
  repeat split.
  - destruct wi, wo; intros [H|H]; try reflexivity; now destruct H.
  - intros all pa H. destruct wi, wo, all, pa; try reflexivity; exfalso; intuition congruence.
Qed.

Section Screens.
  Context {St : Type} (sp : St -> Rpc -> St * reply) (show_f32 : f32 -> text) (show : TransceiverError -> text).
  Local Notation main := (main sp show_f32 show).
  Context (g : Args).
  Local Notation ign := (ar_ignore_errors g).

  Lemma main_call w w1 m : addressing sp g w w1 m -> (forall p i o, ar_cmd g <> CWrite p i o) ->
    main g w = (let (w', r) := run_call sp show_f32 show ign m (ar_cmd g) w1 in (w', omap_err Some r)).
  Proof.
    intros A H. unfold CliMain.main. fold (named g). unfold addressing in A. rewrite A. unfold run_cmd.
    destruct (ar_cmd g); try reflexivity. exfalso. eapply H; reflexivity.
  Qed.
  Lemma main_read_empty w w1 m page binary offset args : addressing sp g w w1 m -> ar_cmd g = CRead page binary offset 0 args ->
    main g w = (w1, Ok (mkScreen [] [])).
  Proof.
    intros A Hc. rewrite (main_call w w1 m A) by (rewrite Hc; discriminate). rewrite Hc. reflexivity.
  Qed.
  Lemma errors_shown {P} m (f : N -> P + TransceiverError) r : m < 2 ^ 64 -> reports m f r ->
    failures_shown show ign (mr_failures r) = error_report show g (failed_ports m f).
  Proof.
    intros Hm R. unfold failures_shown, error_report. destruct ign; [reflexivity|].
    rewrite (print_fails m f r show Hm R). now destruct (failed_ports m f).
  Qed.
  Lemma acting_main w w1 m call f r : addressing sp g w w1 m -> m < 2 ^ 64 -> (forall p i o, ar_cmd g <> CWrite p i o) ->
    run_call sp show_f32 show ign m (ar_cmd g) = acting show ign call ->
    snd (call w1) = Ok r -> reports m f r ->
    snd (main g w) = Ok (mkScreen [] (error_report show g (failed_ports m f))).
  Proof.
    intros A Hm Hw E Hc R. rewrite (main_call w w1 m A Hw), E. unfold acting, cbind.
    destruct (call w1) as [w2 x]. cbn [snd] in Hc. subst x. cbn. now rewrite (errors_shown m f r Hm R).
  Qed.
  Lemma acting_deeds w w1 m call ds : addressing sp g w w1 m -> (forall p i o, ar_cmd g <> CWrite p i o) ->
    run_call sp show_f32 show ign m (ar_cmd g) = acting show ign call ->
    grew w1 (fst (call w1)) ds ->
    deeds_of (main g) w = deeds (address_transceivers sp (named g)) w ++ ds.
  Proof.
    intros A Hw E G. pose proof (asks_address sp (named g) w) as (da & Ga & _).
    pose proof (main_deeds sp show_f32 show g w w1 (Ok m) da A) as K. unfold addressing in A. rewrite A in Ga. cbn [fst] in Ga.
    rewrite (deeds_grew _ _ _ _ _ A (went_grew _ _ _ _ Ga)). rewrite (K Ga). f_equal. apply deeds_of_grew.
    unfold run_cmd. assert (X : fst (run_call sp show_f32 show ign m (ar_cmd g) w1) = fst (call w1)).
    { rewrite E. unfold acting, cbind. destruct (call w1) as [w2 [r|e|]]; reflexivity. }
    destruct (ar_cmd g); try (match goal with |- context [let (_, _) := ?c in _] => destruct c end; cbn [fst] in *; now rewrite X).
    exfalso. eapply Hw; reflexivity.
  Qed.
  Lemma printing_main {P} w w1 m (call : ctl (St := St) (Result P)) print f r out : addressing sp g w w1 m -> m < 2 ^ 64 ->
    (forall p i o, ar_cmd g <> CWrite p i o) -> run_call sp show_f32 show ign m (ar_cmd g) = printing show ign call print ->
    snd (call w1) = Ok r -> print r = Ok out -> reports m f r ->
    snd (main g w) = Ok (mkScreen out (error_report show g (failed_ports m f))).
  Proof.
    intros A Hm Hw E Hc Hp R. rewrite (main_call w w1 m A Hw), E. unfold printing, cbind.
    destruct (call w1) as [w2 x]. cbn [snd] in Hc. subst x. rewrite Hp. cbn. now rewrite (errors_shown m f r Hm R).
  Qed.
End Screens.

Section Honest.
  Context {St : Type} (a : honest St) (Hok : honest_ok a) (show_f32 : f32 -> text) (show : TransceiverError -> text).
  Local Notation sp := (honest_sp a).
  Local Notation main := (main sp show_f32 show).
  Context (g : Args) (w w1 : world St) (m : N) (A : addressing sp g w w1 m) (Hm : m < 2 ^ 64).
  Local Notation before := (deeds (address_transceivers sp (named g)) w).

  Lemma pin_run s c q : In (c, q) (pin_commands m s) -> ar_cmd g = c ->
    (forall p i o, ar_cmd g <> CWrite p i o) /\
    run_call sp show_f32 show (ar_ignore_errors g) m (ar_cmd g) = acting show (ar_ignore_errors g) (no_payload_request sp q) /\
    request_unit q = 0%nat /\ (forall x y, response_to q x y = SAck x y) /\ request_modules q = m.
  Proof.
    intros H ->. unfold pin_commands in H. cbn [In] in H. repeat (destruct H as [[= <- <-]|H]; [repeat split; discriminate|]). destruct H.
  Qed.
  Lemma main_pins s c q : In (c, q) (pin_commands m s) -> ar_cmd g = c ->
    deeds_of (main g) w = before ++ [DRequest q None] /\
    snd (main g w) = Ok (mkScreen [] (error_report show g (failed_ports m (told (fun _ => tt) (hs_verdict a (w_sp w1) q None))))).
  Proof.
    intros H Hc. destruct (pin_run s c q H Hc) as (Hw & E & U & R & Mq). pose proof Hm as Hm'. rewrite <- mask_ok_lt in Hm'.
    rewrite <- Mq in Hm'. destruct (honest_ack a Hok w1 q U R Hm') as (r & Er & _ & Rr). rewrite Mq in Rr.
    apply rrep_reports in Rr. split.
    - apply (acting_deeds sp show_f32 show g w w1 m _ _ A Hw E). rewrite Er. apply grew_next.
    - apply (acting_main sp show_f32 show g w w1 m _ _ r A Hm Hw E); [now rewrite Er|exact Rr].
  Qed.
  Lemma hoare_grew {B} D (c : ctl (St := St) B) Q w0 : hoare sp D c Q -> grew w0 (fst (c w0)) (deeds c w0).
  Proof. intros H. destruct (H w0) as (ds & G & _). apply went_grew in G. now rewrite (deeds_of_grew c w0 ds G : deeds c w0 = ds). Qed.
  Lemma main_reset : ar_cmd g = CReset ->
    let v1 := hs_verdict a (w_sp w1) (HAssertReset m) None in
    let s1 := hs_next a (w_sp w1) (HAssertReset m) None in
    let m1 := good_mask m v1 in
    let v2 := hs_verdict a s1 (HDeassertReset m1) None in
    deeds_of (main g) w = before ++ [DRequest (HAssertReset m) None; DSleep T_RESET_INIT;
                                     DRequest (HDeassertReset m1) None; DSleep T_RESET] /\
    snd (main g w) = Ok (mkScreen [] (error_report show g
      (failed_ports m (and_then (told (fun _ => tt) v1) (told (fun _ => tt) v2))))).
  Proof.
    intros Hc v1 s1 m1 v2. destruct (reset_correct a Hok w1 m Hm) as (D & r & E & R). fold v1 s1 m1 v2 in D, R.
    assert (Hw : forall p i o, ar_cmd g <> CWrite p i o) by (rewrite Hc; discriminate).
    assert (X : run_call sp show_f32 show (ar_ignore_errors g) m (ar_cmd g) = acting show (ar_ignore_errors g) (reset sp m)) by now rewrite Hc.
    split.
    - apply (acting_deeds sp show_f32 show g w w1 m _ _ A Hw X). rewrite <- D. exact (hoare_grew _ _ _ w1 (asks_reset sp m)).
    - exact (acting_main sp show_f32 show g w w1 m _ _ r A Hm Hw X E R).
  Qed.
  Lemma main_power_off : ar_cmd g = CSetPower PowerOff ->
    let v1 := hs_verdict a (w_sp w1) (HDeassertLpMode m) None in
    let s1 := hs_next a (w_sp w1) (HDeassertLpMode m) None in
    let m1 := good_mask m v1 in
    let v2 := hs_verdict a s1 (HAssertReset m1) None in
    let s2 := hs_next a s1 (HAssertReset m1) None in
    let m2 := good_mask m1 v2 in
    let v3 := hs_verdict a s2 (HDisablePower m2) None in
    deeds_of (main g) w = before ++ [DRequest (HDeassertLpMode m) None; DRequest (HAssertReset m1) None;
                                     DRequest (HDisablePower m2) None] /\
    snd (main g w) = Ok (mkScreen [] (error_report show g
      (failed_ports m (and_then (told (fun _ => tt) v1) (and_then (told (fun _ => tt) v2) (told (fun _ => tt) v3)))))).
  Proof.
    intros Hc v1 s1 m1 v2 s2 m2 v3. destruct (power_off_correct a Hok w1 m Hm) as (D & r & E & R). fold v1 s1 m1 v2 s2 m2 v3 in D, R.
    assert (Hw : forall p i o, ar_cmd g <> CWrite p i o) by (rewrite Hc; discriminate).
    assert (X : run_call sp show_f32 show (ar_ignore_errors g) m (ar_cmd g) = acting show (ar_ignore_errors g) (set_power sp m PowerOff))
      by now rewrite Hc.
    split.
    - apply (acting_deeds sp show_f32 show g w w1 m _ _ A Hw X). rewrite <- D. exact (hoare_grew _ _ _ w1 (asks_set_power sp m PowerOff)).
    - exact (acting_main sp show_f32 show g w w1 m _ _ r A Hm Hw X E R).
  Qed.
  (** Low and high power, with what is known of the call. *)
  Lemma main_power_on st f r : ar_cmd g = CSetPower st -> snd (set_power sp m st w1) = Ok r -> reports m f r ->
    deeds_of (main g) w = before ++ deeds (set_power sp m st) w1 /\
    snd (main g w) = Ok (mkScreen [] (error_report show g (failed_ports m f))).
  Proof.
    intros Hc E R.
    assert (Hw : forall p i o, ar_cmd g <> CWrite p i o) by (rewrite Hc; discriminate).
    assert (X : run_call sp show_f32 show (ar_ignore_errors g) m (ar_cmd g) = acting show (ar_ignore_errors g) (set_power sp m st))
      by now rewrite Hc.
    split.
    - apply (acting_deeds sp show_f32 show g w w1 m _ _ A Hw X). exact (hoare_grew _ _ _ w1 (asks_set_power sp m st)).
    - exact (acting_main sp show_f32 show g w w1 m _ _ r A Hm Hw X E R).
  Qed.

  Lemma honest_leds w0 (vs := hs_verdict a (w_sp w0) (HLedState m) None) : (forall i d, member i m -> vs i = inl d -> hd 0 d < 3) ->
    exists r, snd (leds sp m w0) = Ok r /\ reports m (told led_of vs) r.
  Proof.
    intros Hv. pose proof Hm as Hm'. rewrite <- mask_ok_lt in Hm'.
    pose proof (honest_documented a Hok w0 (HLedState m) None) as D. cbn [response_to request_modules] in D.
    apply raw_leds in D.
    - eexists. rewrite D. split; [reflexivity|]. apply rrep_reports. exact (rrep_told m led_of vs Hm').
    - apply Forall_map, Forall_forall. intros i Hi. unfold good_ports in Hi. apply filter_In in Hi. destruct Hi as (Hi & G).
      apply in_to_indices_ok in Hi; [|exact Hm']. apply member_testbit in Hi. change (vd a w0 (HLedState m) None) with vs in *.
      specialize (Hv i). destruct (vs i) as [d|]; [|discriminate]. exact (Hv d Hi eq_refl).
  Qed.
  Lemma main_leds args (vs := hs_verdict a (w_sp w1) (HLedState m) None) : ar_cmd g = CLeds args ->
    (forall i d, member i m -> vs i = inl d -> hd 0 d < 3) ->
    exists r, reports m (told led_of vs) r /\
      snd (main g w) = Ok (mkScreen (lines (print_led_state r (shown_as args))) (error_report show g (failed_ports m (told led_of vs)))).
  Proof.
    intros Hc Hv. destruct (honest_leds w1 Hv) as (r & E & R). exists r. split; [exact R|].
    eapply (printing_main sp show_f32 show g w w1 m); try eassumption; [rewrite Hc; discriminate|rewrite Hc; reflexivity|].
    cbn beta. now rewrite kind_shown.
  Qed.
  Lemma main_identify args mem : ar_cmd g = CIdentify args -> reads_as a (w_sp w1) mem ->
    exists r, reports m (ident_told mem) r /\
      snd (main g w) = Ok (mkScreen (lines (print_module_identifier r (shown_as args))) (error_report show g (failed_ports m (ident_told mem)))).
  Proof.
    intros Hc Hr. pose proof Hm as Hm'. rewrite <- mask_ok_lt in Hm'.
    destruct (honest_identifier_mem a Hok w1 m mem Hm' Hr) as (r & w' & E & R & _). apply rrep_reports in R. exists r. split; [exact R|].
    eapply (printing_main sp show_f32 show g w w1 m); try eassumption; [rewrite Hc; discriminate|rewrite Hc; reflexivity|now rewrite E|].
    cbn beta. now rewrite kind_shown.
  Qed.
  Lemma main_power args mem (st := hs_verdict a (w_sp w1) (HStatus m) None) : ar_cmd g = CPower args ->
    reads_as a (hs_next a (w_sp w1) (HStatus m) None) mem ->
    (forall i id, member i m -> readable st i = true -> ident_told mem i = inl id -> supported_kind id = true) ->
    fails_in_order power_reads power_parse mem (readable_mask m st) ->
    exists r, reports m (power_says st (control_says mem)) r /\
      snd (main g w) = Ok (mkScreen (lines (print_power_mode r (shown_as args)))
                                    (error_report show g (failed_ports m (power_says st (control_says mem))))).
  Proof.
    intros Hc Hr Hk Hf. destruct (power_correct a Hok w1 m mem Hm Hr Hk) as (r & ds & E & _ & _ & _ & _ & _ & _ & R).
    fold st in R. specialize (R Hf). exists r. split; [exact R|].
    eapply (printing_main sp show_f32 show g w w1 m); try eassumption; [rewrite Hc; discriminate|rewrite Hc; reflexivity|].
    cbn beta. now rewrite kind_shown.
  Qed.
  Lemma main_status wi wo all pa output sep omit kind (vs := hs_verdict a (w_sp w1) (HExtendedStatus m) None) :
    ar_cmd g = CStatus wi wo all pa output sep omit -> status_kind wi wo all pa sep = Ok kind ->
    (forall i d, member i m -> vs i = inl d -> le_value d < 512) ->
    exists r, reports m (told le_value vs) r /\
      snd (main g w) = match print_module_status r omit kind output with
                       | Ok o => Ok (mkScreen (lines o) (status_note wi wo ++
                                                         error_report show g (failed_ports m (told le_value vs))))
                       | _ => Panic
                       end.
  Proof.
    intros Hc Hk Hv. destruct (status_extended a Hok w1 m Hm Hv) as (r & E & R & _). fold vs in R. exists r. split; [exact R|].
    rewrite <- (warning_note _ _ _ _ _ _ Hk).
    rewrite (main_call sp show_f32 show g w w1 m A) by (rewrite Hc; discriminate). rewrite Hc. cbn [run_call]. rewrite Hk.
    unfold printing, cbind, cret. cbn [ounwrap]. destruct (status_result sp m w1) as [w2 x]. cbn [snd] in E. subst x.
    destruct (print_module_status r omit kind output); cbn; [|reflexivity|reflexivity]. now rewrite (errors_shown show g m _ r Hm R).
  Qed.

  (** ** Over a rack *)
  Lemma rack_failed {P} k (R : memory -> P -> Prop) r f : reads_out m k R r -> reports m f r -> failed_ports m f = rack_fails m k.
  Proof.
    intros (_ & S1 & _ & F1) (_ & Rs & Rf). unfold rack_fails, failed_ports.
    assert (X : forall i, In i (to_indices m) -> member i m) by (intros i Hi; apply in_to_indices in Hi; apply member_testbit; tauto).
    revert X. induction (to_indices m) as [|i l IH]; intros X; [reflexivity|]. cbn [flat_map].
    rewrite IH by (intros j Hj; apply X; now right). f_equal. pose proof (X i (or_introl eq_refl)) as Hi. destruct (k i) as [mem|b] eqn:K.
    - destruct (S1 i mem Hi K) as (x & Hx). apply Rs in Hx as [_ ->]. reflexivity.
    - assert (Hf : fails r i (hw_fault i b)) by (apply F1; eauto). apply Rf in Hf as [_ ->]. reflexivity.
  Qed.
  Lemma rack_main {P} k (R : memory -> P -> Prop) (call : ctl (St := St) (Result P)) print r out :
    (forall p i o, ar_cmd g <> CWrite p i o) ->
    run_call sp show_f32 show (ar_ignore_errors g) m (ar_cmd g) = printing show (ar_ignore_errors g) call print ->
    snd (call w1) = Ok r -> print r = Ok out -> reads_out m k R r ->
    snd (main g w) = Ok (mkScreen out (error_report show g (rack_fails m k))).
  Proof.
    intros Hw E Hc Hp Ro. destruct (reads_out_reports m k R r Hm Ro) as (f & Rp & _). rewrite <- (rack_failed k R r f Ro Rp).
    exact (printing_main sp show_f32 show g w w1 m call print f r out A Hm Hw E Hc Hp Rp).
  Qed.
  Lemma main_vendor args k : ar_cmd g = CVendorInfo args -> reads_as a (w_sp w1) (SpecQuery.shows k) ->
    all_modules m k (fun mem => supported_kind (kind_of mem) = true) ->
    exists r, reads_out m k vendor_of r /\
      snd (main g w) = Ok (mkScreen (lines (print_vendor_info r (shown_as args))) (error_report show g (rack_fails m k))).
  Proof.
    intros Hc Hr Hs. destruct (vendor_rack a Hok w1 m k Hm Hr Hs) as (r & E & Ro). exists r. split; [exact Ro|].
    eapply rack_main; try eassumption; [rewrite Hc; discriminate|rewrite Hc; reflexivity|]. cbn beta. now rewrite kind_shown.
  Qed.
  Lemma main_memory args k : ar_cmd g = CMemoryModel args -> reads_as a (w_sp w1) (SpecQuery.shows k) ->
    all_modules m k (fun mem => supported_kind (kind_of mem) = true) ->
    all_modules m k (fun mem => ~ reserved_banks (kind_of mem) mem) ->
    exists r out, reads_out m k memory_model_of r /\ print_module_memory_model r (shown_as args) = Ok out /\
      snd (main g w) = Ok (mkScreen (lines out) (error_report show g (rack_fails m k))).
  Proof.
    intros Hc Hr Hs Hb. destruct (memory_rack a Hok w1 m k Hm Hr Hs Hb) as (r & E & Ro).
    destruct (memory_print St a Hok w1 m k Hm Hr Hs Hb) as (r' & items & out & E' & _ & P & _).
    rewrite E in E'. injection E' as <-. exists r, (out (shown_as args)). split; [exact Ro|]. split; [apply P|].
    eapply rack_main; try eassumption; [rewrite Hc; discriminate|rewrite Hc; reflexivity|]. cbn beta. now rewrite kind_shown, P.
  Qed.
  Lemma main_monitors args k : ar_cmd g = CMonitors args -> reads_as a (w_sp w1) (SpecQuery.shows k) ->
    all_modules m k (fun mem => supported_kind (kind_of mem) = true) -> bytes_rack k ->
    all_modules m k (fun mem => cmis_kind (kind_of mem) = true -> bias_scale (mem (cmis_up 1) 160) <> None) ->
    exists r out, reads_out m k monitors_of r /\ print_monitors show_f32 r (shown_as args) = Ok out /\
      snd (main g w) = Ok (mkScreen (lines out) (error_report show g (rack_fails m k))).
  Proof.
    intros Hc Hr Hs Hy Hb. destruct (monitors_rack a Hok w1 m k Hm Hr Hs Hy Hb) as (r & E & Ro).
    destruct (monitors_print show_f32 St a Hok w1 m k Hm Hr Hs Hy Hb) as (r' & items & out & E' & _ & P & _).
    rewrite E in E'. injection E' as <-. exists r, (out (shown_as args)). split; [exact Ro|]. split; [apply P|].
    eapply rack_main; try eassumption; [rewrite Hc; discriminate|rewrite Hc; reflexivity|]. cbn beta. now rewrite kind_shown, P.
  Qed.
  Lemma main_datapath k : ar_cmd g = CDatapath -> reads_as a (w_sp w1) (SpecQuery.shows k) ->
    all_modules m k (fun mem => supported_kind (kind_of mem) = true) -> bytes_rack k -> all_modules m k datapath_sound ->
    exists r, reads_out m k datapath_of r /\
      snd (main g w) = Ok (mkScreen (print_datapath r) (error_report show g (rack_fails m k))).
  Proof.
    intros Hc Hr Hs Hy Hd. destruct (datapath_rack a Hok w1 m k Hm Hr Hs Hy Hd) as (r & E & Ro). exists r. split; [exact Ro|].
    eapply rack_main; try eassumption; [rewrite Hc; discriminate|rewrite Hc; reflexivity|reflexivity].
  Qed.
  Lemma main_read page binary offset len args mem content p rds : ar_cmd g = CRead page binary offset len args ->
    SpecCmd.shows mem content -> args_page page = Ok p -> offset < 256 -> 1 <= len < 256 -> reads_as a (w_sp w1) mem ->
    build_many_reads p offset len = Ok rds -> all_speak m (ident_told mem) p -> (forall i, member i m -> early_ok mem i rds) ->
    exists r, reports m (window_says mem content p offset len rds) r /\
      snd (main g w) = Ok (mkScreen (lines (print_read_data r binary (shown_as args)))
                                    (error_report show g (failed_ports m (window_says mem content p offset len rds)))).
  Proof.
    intros Hc Hs Hp Ho Hl Hr Hb Sp Eo.
    destruct (cmd_read_correct a Hok mem content Hs w1 m p offset len rds Hm Ho Hl Hr Hb)
      as (_ & [(_ & _ & r & E & R)|[(_ & N & _)|(i & id & (Hi & Hid & Ns & _) & _)]]).
    - exists r. split; [exact R|]. rewrite (main_call sp show_f32 show g w w1 m A) by (rewrite Hc; discriminate).
      rewrite Hc. cbn [run_call]. rewrite Hp. unfold cbind. destruct (cmd_read sp m (Ok p) offset len w1) as [w2 x]. cbn [snd] in E. subst x.
      cbn. now rewrite kind_shown, (errors_shown show g m _ r Hm R).
    - now destruct N.
    - destruct (Ns (Sp i id Hi Hid)).
  Qed.
  Lemma main_write page input offset p d (ids := ids_seen a w1 m) : ar_cmd g = CWrite page input offset ->
    args_page page = Ok p -> args_data input = Ok d -> Nlen d < 256 -> access_ok (write_limit p) p offset (Nlen d) ->
    let wr := mkWrite p offset (Nlen d) in
    (all_speak m ids p /\
     exists s, s = (if m =? 0 then w_sp w1 else hs_next a (w_sp w1) (HRead m ident_read) None) /\
       deeds_of (main g) w = before ++ ident_request m ++ [DRequest (HWrite (passed m ids) wr) (Some d)] /\
       snd (main g w) = Ok (mkScreen [] (error_report show g
         (failed_ports m (and_then ids (told (fun _ => tt) (hs_verdict a s (HWrite (passed m ids) wr) (Some d)))))))) \/
    (exists i id, lowest_other m ids p i id /\
       deeds_of (main g) w = before ++ ident_request m /\
       snd (main g w) = Err (Some (ETransceiver (TeInvalidInterfaceForModule i id (page_interface p))))).
  Proof.
    intros Hc Hp Hd Hl Ha wr.
    assert (E : main g w = let (w', r) := cmd_write sp m (Ok p) offset (Ok d) w1 in
      (w', omap (fun r => mkScreen [] (failures_shown show (ar_ignore_errors g) (mr_failures r))) r)).
    { unfold CliMain.main. fold (named g). pose proof A as A'. unfold addressing in A'. rewrite A', Hc. cbn [run_cmd]. now rewrite Hp, Hd. }
    assert (D : deeds_of (main g) w = before ++ deeds_of (cmd_write sp m (Ok p) offset (Ok d)) w1).
    { pose proof (asks_address sp (named g) w) as (da & Ga & _). pose proof A as A'. unfold addressing in A'. rewrite A' in Ga. cbn [fst] in Ga.
      rewrite (deeds_grew _ _ _ _ _ A' (went_grew _ _ _ _ Ga)). destruct (runs_cmd_write sp (fun _ => True) m (Ok p) offset (Ok d)) with w1 as (dw & Gw & _).
      { intros p' d' _ _. eapply hoare_conseq; [|auto]. eapply (hoare_weak (touch m)); [auto|]. apply in_write, honest_scoped. }
      rewrite (deeds_of_went _ _ _ Gw). apply (deeds_of_went (sp := sp)). rewrite E. eapply went_trans; [exact Ga|].
      now destruct (cmd_write sp m (Ok p) offset (Ok d) w1). }
    destruct (cmd_write_ok a Hok w1 m p offset d Hm Hl Ha) as [(Hs & r & s & Er & Ed & Es & R)|(i & id & Lo & Er & Ed)].
    - left. split; [exact Hs|]. exists s. split; [exact Es|]. split; [now rewrite D, Ed|]. rewrite E.
      destruct (cmd_write sp m (Ok p) offset (Ok d) w1) as [w2 x]. cbn [snd] in Er. subst x. cbn.
      now rewrite (errors_shown show g m _ r Hm R).
    - right. exists i, id. split; [exact Lo|]. split; [now rewrite D, Ed|]. rewrite E.
      destruct (cmd_write sp m (Ok p) offset (Ok d) w1) as [w2 x]. cbn [snd] in Er. now subst x.
  Qed.
End Honest.
(** The MAC addresses, from any SP that gives them. *)
Lemma main_macs {St} (sp : St -> Rpc -> St * reply) show_f32 show g w w1 m summary h d base count stride r :
  addressing sp g w w1 m -> ar_cmd g = CMacs summary ->
  SpecController.answer sp w1 HMacAddrs None = Ok (mkRpc h (message_new (BSpResponse (SMacAddrs (MacOk r)))) d) ->
  mac_ok base = true -> mac_addrs_new base count stride = Ok r ->
  exists out, print_mac_address_range r summary = Ok out /\ snd (main sp show_f32 show g w) = Ok (mkScreen (lines out) []).
Proof.
  intros A Hc Ha Hb Hr. pose proof (macs_given St sp w1 h (MacOk r) d Ha) as E.
  assert (P : exists out, print_mac_address_range r summary = Ok out).
  { destruct summary; [unfold print_mac_address_range; eauto|]. destruct (mac_table base count stride r Hb Hr) as (l & El & _). eauto. }
  destruct P as (out & P). exists out. split; [exact P|].
  rewrite (main_call sp show_f32 show g w w1 m A) by (rewrite Hc; discriminate). rewrite Hc. cbn [run_call]. unfold cbind.
  destruct (mac_addrs sp w1) as [w2 x]. cbn [snd] in E. subst x. rewrite P. reflexivity.
Qed.
