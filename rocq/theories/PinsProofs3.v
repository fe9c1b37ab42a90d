(** Proofs for C97: at any time. *)
From Verif Require Export PinsProofs2 SpecOnce.
From Verif Require Import Tac Spec ModuleIdProofs ModuleIdProps ResultsProofs ControllerProofs ControllerProofs3
  ScopeProofs ScopeProofs2 LiveProofs LiveProofs2 LiveProofs3 NetProofs3 OnceProofs4.
Import ListNotations.

Section Times.
  Context {St : Type} (a : honest St) (view : St -> N -> slot) (Hok : honest_ok a) (Hd : drives a view) (Hf : firm a view).
  Implicit Type w : world St.
  Local Notation sp := (honest_sp a).

  Lemma along_way G (I : St -> Prop) l s : guards a G l s -> gently l -> I s ->
    (forall s q d, mild q d -> G s q -> I s -> I (hs_next a s q d)) -> forall l1 l2, l = l1 ++ l2 -> I (led_to sp l1 s).
  Proof.
    intros HG Hl Hs Hstep l1. induction l1 as [|x l1 IH] using rev_ind; intros l2 E; [exact Hs|]. rewrite <- app_assoc in E.
    specialize (IH _ E). rewrite led_to_app. destruct x as [r|t]; [|exact IH]. cbn [led_to fold_left]. unfold honest_sp.
    destruct (msg_body (rpc_message r)) as [|q| | |] eqn:B; try exact IH. cbn [fst]. apply Hstep; [|eapply HG; eauto|exact IH].
    eapply Hl; [|exact B]. rewrite E. apply in_elt.
  Qed.

  Section Reset.
    Context (T : N -> bool * bool * bool).
    Definition fit_reset (s : St) (q : HostRequest) : Prop := is_power_pin q = true ->
      match q with HAssertReset _ | HDeassertReset _ => True | _ => False end /\
      forall i, N.testbit (request_modules q) i = true -> pins (view s i) = match q with HDeassertReset _ => pins_after (HAssertReset 0) (T i) | _ => T i end.
    Lemma way_reset m : mask_ok m = true -> way a fit_reset (fun s => forall i, pins (view s i) = T i) (reset sp m) (fun _ _ => True).
    Proof.
      intros Hm. unfold reset. eapply way_bind; [apply way_pin with (view := view); auto|].
      { intros s Hs _. split; [exact I|]. intros i _. apply Hs. }
      intros x. apply way_ex. intros s0. cbn [request_modules].
      eapply way_conseq with (P := fun s => sub (mr_modules x) m /\ forall i, N.testbit (mr_modules x) i = true -> pins (view s i) = pins_after (HAssertReset 0) (T i)); [| |intros ? ? K; exact K].
      { intros s (H1 & H2 & H3 & H4). split; [exact H2|]. intros i Hi. now rewrite H4, Hi, H1. }
      apply way_pure. intros Sx. eapply way_bind; [apply way_sleep|]. intros u.
      eapply way_bind; [apply way_pin with (view := view); auto; [now apply (sub_ok _ m)|]|].
      { intros s Hs _. split; [exact I|]. intros i Hi. now apply Hs. }
      intros y. eapply way_bind; [apply way_sleep|]. intros u'. now apply way_ret.
    Qed.
  End Reset.

  Lemma way_set_power m st T : mask_ok m = true -> way a (fit a view T st) (fun s => forall i, pins (view s i) = T i) (set_power sp m st) (fun _ _ => True).
  Proof.
    intros Hm. destruct st; cbn [set_power]; [now apply way_off|now apply way_on|now apply way_on].
  Qed.
  Lemma requests_way {A} (c : ctl (St := St) A) G P Q w s q : way a G P c Q -> P (w_sp w) -> requests_at sp c w s q -> G s q.
  Proof.
    intros H HP (l & r & l' & E & B & ->). destruct (H w HP) as (l0 & E1 & _ & E3 & _). rewrite E1 in E. apply app_inv_head in E.
    eapply E3; eauto.
  Qed.
  Lemma comes_way {A} (c : ctl (St := St) A) G P Q (I : St -> Prop) w s : way a G P c Q -> P (w_sp w) -> I (w_sp w) ->
    (forall s q d, mild q d -> G s q -> I s -> I (hs_next a s q d)) -> comes_to sp c w s -> I s.
  Proof.
    intros H HP HI Hstep (l & l' & E & ->). destruct (H w HP) as (l0 & E1 & _ & E3 & E4 & _). rewrite E1 in E. apply app_inv_head in E.
    eapply along_way; eauto.
  Qed.

  Lemma power_requests w m st s q i : m < 2 ^ 64 -> requests_at sp (set_power sp m st) w s q -> is_power_pin q = true -> member i (request_modules q) ->
    match q with
    | HAssertLpMode _ => supplied (sl_status (view s i)) = true
    | HDisablePower _ => held_in_reset (sl_status (view s i)) = true /\ lpmode_pin (sl_status (view s i)) = false
    | _ => True
    end /\ (obeys a i \/ st = PowerOff -> pins_met st (pins (view (w_sp w) i)) q = Some (pins (view s i))).
  Proof.
    intros Hm R Hq Hi. apply mask_ok_lt in Hm. apply member_testbit in Hi.
    exact (requests_way _ _ _ _ w s q (way_set_power m st (fun i => pins (view (w_sp w) i)) Hm) (fun _ => eq_refl) R i Hi Hq).
  Qed.
  Lemma pins_off_times w m s i : m < 2 ^ 64 -> comes_to sp (set_power sp m PowerOff) w s -> In (pins (view s i)) (pins_off (pins (view (w_sp w) i))).
  Proof.
    intros Hm. apply mask_ok_lt in Hm.
    apply (comes_way _ _ _ _ (fun s => In (pins (view s i)) (pins_off (pins (view (w_sp w) i)))) w s (way_set_power m PowerOff (fun i => pins (view (w_sp w) i)) Hm)); [reflexivity| |].
    - destruct (pins (view (w_sp w) i)) as [[p r] l]. now left.
    - intros s' q d M G H. rewrite (pins_step a view Hd Hf _ _ _ _ M). unfold set_by. destruct (is_power_pin q) eqn:Q; [|exact H].
      destruct (N.testbit (request_modules q) i) eqn:B; [|exact H]. destruct (is_good _); [|exact H]. cbn [andb].
      destruct (G i B Q) as [_ K]. specialize (K (or_intror eq_refl)). revert K. clear. generalize (pins (view s' i)). intros x. destruct (pins (view (w_sp w) i)) as [[p r] l].
      destruct q; try discriminate; cbn [pins_met]; try discriminate; intros [= <-]; cbn; auto.
  Qed.
  Lemma pins_reset_times w m s i : m < 2 ^ 64 -> comes_to sp (reset sp m) w s -> In (pins (view s i)) (pins_reset (pins (view (w_sp w) i))).
  Proof.
    intros Hm. apply mask_ok_lt in Hm.
    apply (comes_way _ _ _ _ (fun s => In (pins (view s i)) (pins_reset (pins (view (w_sp w) i)))) w s (way_reset (fun i => pins (view (w_sp w) i)) m Hm)); [reflexivity| |].
    - destruct (pins (view (w_sp w) i)) as [[p r] l]. now left.
    - intros s' q d M G H. rewrite (pins_step a view Hd Hf _ _ _ _ M). unfold set_by. destruct (is_power_pin q) eqn:Q; [|exact H].
      destruct (N.testbit (request_modules q) i) eqn:B; [|exact H]. destruct (is_good _); [|exact H]. cbn [andb].
      destruct (G Q) as [K1 K2]. specialize (K2 i B). rewrite K2. destruct (pins (view (w_sp w) i)) as [[p r] l].
      destruct q; try contradiction; cbn; auto.
  Qed.
  Lemma back_step q s d i : mild q d ->
    (N.testbit (request_modules q) i = true -> match q with HAssertLpMode _ => supplied (sl_status (view s i)) = true
       | HDisablePower _ => lpmode_pin (sl_status (view s i)) = false | _ => True end) ->
    no_back_power (view s i) -> no_back_power (view (hs_next a s q d) i).
  Proof.
    intros M G H. pose proof (pins_step a view Hd Hf s q d i M) as E. unfold set_by in E. unfold no_back_power in *.
    destruct (is_power_pin q) eqn:Q; [destruct (N.testbit (request_modules q) i); [destruct (is_good _)|]|]; cbn [andb] in E; unfold pins in E;
      try (injection E as -> _ ->; exact H). specialize (G eq_refl).
    destruct q; try discriminate; cbn in E; injection E as -> _ ->; auto; congruence.
  Qed.
  Lemma back_times w m s : m < 2 ^ 64 -> (forall i, no_back_power (view (w_sp w) i)) ->
    (exists st, comes_to sp (set_power sp m st) w s) \/ comes_to sp (reset sp m) w s -> forall i, no_back_power (view s i).
  Proof.
    intros Hm H0 K i. apply mask_ok_lt in Hm. destruct K as [[st K]|K]; revert K.
    - apply (comes_way _ _ _ _ (fun s => no_back_power (view s i)) w s (way_set_power m st (fun i => pins (view (w_sp w) i)) Hm)); [reflexivity|apply H0|].
      intros s' q d M G H. apply back_step; [exact M| |exact H]. intros B. destruct (is_power_pin q) eqn:Q; [|now destruct q].
      destruct (G i B Q) as [K _]. destruct q; auto. apply K.
    - apply (comes_way _ _ _ _ (fun s => no_back_power (view s i)) w s (way_reset (fun i => pins (view (w_sp w) i)) m Hm)); [reflexivity|apply H0|].
      intros s' q d M G H. apply back_step; [exact M| |exact H]. intros B. destruct (is_power_pin q) eqn:Q; [|now destruct q].
      destruct (G Q) as [K _]. now destruct q.
  Qed.
End Times.

(** ** Over the network *)
Lemma alone_grows {A St} (p : prog A) (sp : St -> Rpc -> St * reply) : forall w, exists l, w_log (fst (alone p sp w)) = w_log w ++ l.
Proof.
  induction p as [x|q d k IH|t p IH]; intros w; cbn [alone].
  - exists []. now rewrite app_nil_r.
  - unfold rpc. destruct (next_header (w_counter w) KHostRequest) as [c h]. destruct (sp (w_sp w) _) as [s [r|e|]].
    + destruct (IH (Told (msg_body (rpc_message r)) (rpc_data r)) (mkWorld s c (w_log w ++ [ASend (mkRpc h (message_new (BHostRequest q)) d)]))) as [l E].
      rewrite E. cbn [w_log]. rewrite <- app_assoc. eauto.
    + destruct (IH (Missed e) (mkWorld s c (w_log w ++ [ASend (mkRpc h (message_new (BHostRequest q)) d)]))) as [l E].
      rewrite E. cbn [w_log]. rewrite <- app_assoc. eauto.
    + cbn. eauto.
  - unfold cbind, sleep. destruct (IH (mkWorld (w_sp w) (w_counter w) (w_log w ++ [ASleep t]))) as [l E]. cbn [fst]. rewrite E. cbn [w_log].
    rewrite <- app_assoc. eauto.
Qed.
Lemma stations_come {A St} (p : prog A) (sp : St -> Rpc -> St * reply) : forall w s, In s (stations p sp w) -> comes_to sp (alone p sp) w s.
Proof.
  induction p as [x|q d k IH|t p IH]; intros w s H.
  1-3: cbn [stations] in H; destruct H as [<-|H]; [match goal with |- comes_to _ (alone ?p _) _ _ => destruct (alone_grows p sp w) as [l E] end; exists [], l; now rewrite E|].
  - destruct H.
  - unfold comes_to. cbn [alone]. unfold rpc in *. destruct (next_header (w_counter w) KHostRequest) as [c h].
    set (r0 := mkRpc h (message_new (BHostRequest q)) d) in *. destruct (sp (w_sp w) r0) as [s' [r|e|]] eqn:E.
    + destruct (IH _ _ _ H) as (l & l' & E1 & E2). exists (ASend r0 :: l), l'. rewrite E1. cbn [w_log]. rewrite <- app_assoc. split; [reflexivity|].
      rewrite E2. cbn [w_sp led_to fold_left]. now rewrite E.
    + destruct (IH _ _ _ H) as (l & l' & E1 & E2). exists (ASend r0 :: l), l'. rewrite E1. cbn [w_log]. rewrite <- app_assoc. split; [reflexivity|].
      rewrite E2. cbn [w_sp led_to fold_left]. now rewrite E.
    + destruct H as [<-|[]]. exists [ASend r0], []. cbn. now rewrite E.
  - unfold comes_to. cbn [alone]. unfold cbind, sleep in *. cbn [fst] in H. destruct (IH _ _ H) as (l & l' & E1 & E2). exists (ASleep t :: l), l'. rewrite E1. cbn [w_log].
    rewrite <- app_assoc. split; [reflexivity|exact E2].
Qed.
Lemma steps_come {A St} (c : forall St, (St -> Rpc -> St * reply) -> ctl (St := St) A) p (sp : St -> Rpc -> St * reply) w s :
  steps_of c p -> In s (stations p sp w) -> comes_to sp (c St sp) w s.
Proof. intros H K. apply stations_come in K. unfold comes_to in *. now rewrite H. Qed.

Section Net.
  Context {St : Type} (a : honest St) (view : St -> N -> slot) (Hok : honest_ok a) (Hb : data_blind a) (Hd : drives a view) (Hf : firm a view).
  Context (retries : option N) (s0 : St) (c0 : N) (Hc : c0 < 2 ^ 64).
  Local Notation sp := (remembering (honest_sp a)).
  Lemma met_comes (c : forall St, (St -> Rpc -> St * reply) -> ctl (St := St) (Result unit)) p ts :
    steps_of c p -> stops_at_errors p -> orderly sp (sys_new retries (new_keeper s0) c0 [p]) ts ->
    comes_to (honest_sp a) (c St (honest_sp a)) (mkWorld s0 c0 []) (kp_now (nt_sp (sy_net (sys_run sp (sys_new retries (new_keeper s0) c0 [p]) ts)))).
  Proof.
    intros Hs He Ho. apply steps_come with (p := p); [exact Hs|].
    destruct (call_remembered (honest_sp a) (honest_polite a Hok) (honest_blind a Hb) retries s0 c0 p ts Hc Ho) as (c1 & _ & _ & K). now apply K.
  Qed.
  Lemma pins_net : let now p ts := kp_now (nt_sp (sy_net (sys_run sp (sys_new retries (new_keeper s0) c0 [p]) ts))) in
    forall m p ts i, m < 2 ^ 64 -> stops_at_errors p -> orderly sp (sys_new retries (new_keeper s0) c0 [p]) ts ->
    (steps_of (fun St sp => set_power sp m PowerOff) p -> In (pins (view (now p ts) i)) (pins_off (pins (view s0 i)))) /\
    (steps_of (fun St sp => reset sp m) p -> In (pins (view (now p ts) i)) (pins_reset (pins (view s0 i)))) /\
    ((forall i, no_back_power (view s0 i)) -> (exists st, steps_of (fun St sp => set_power sp m st) p) \/ steps_of (fun St sp => reset sp m) p ->
       no_back_power (view (now p ts) i)).
  Proof.
    intros now m p ts i Hm He Ho. split; [|split].
    - intros Hs. apply (pins_off_times a view Hok Hd Hf (mkWorld s0 c0 []) m _ i Hm). exact (met_comes _ p ts Hs He Ho).
    - intros Hs. apply (pins_reset_times a view Hok Hd Hf (mkWorld s0 c0 []) m _ i Hm). exact (met_comes _ p ts Hs He Ho).
    - intros H0 [[st Hs]|Hs]; apply (back_times a view Hok Hd Hf (mkWorld s0 c0 []) m); auto.
      + left. exists st. exact (met_comes _ p ts Hs He Ho).
      + right. exact (met_comes _ p ts Hs He Ho).
  Qed.
End Net.
Lemma rack_firm refuse : firm (live_rack refuse sl_cell) seen.
Proof.
  intros s q d i H. unfold live_rack in *. cbn [hs_verdict hs_next] in *. unfold slots_next, seen. destruct (refuse s q d i); [|discriminate].
  now destruct (N.testbit (request_modules q) i).
Qed.
