(** Proofs about runs of the command-line tool: which modules are addressed, and runs over a network (C98). *)
From Coq Require Import String.
From Verif Require Export ToolProofs2 OpenProofs SpecXcvradm SpecPins SpecOnce.
From Verif Require Import Tac Spec ModuleIdProofs ModuleIdProps ResultsProofs ControllerProofs ControllerProofs3
  ControllerProofs6 ScopeProofs ScopeProofs2 LiveProofs LiveProofs2 LiveProofs3 CliProofs6 MainProofs XcvradmProofs NetProofs3 NetProofs3 OnceProofs4 PinsProofs3.
Import ListNotations.
Open Scope N_scope.

Section Named.
  Context {St : Type} (a : honest St) (view : St -> N -> slot) (Hok : honest_ok a) (Hd : drives a view).
  Implicit Type w : world St.
  Local Notation sp := (honest_sp a).

  Lemma kinds_match id kind : match management_interface id, kind with
                            | Ok Sff8636, Sff8636 | Ok Cmis, Cmis => true
                            | _, _ => false
                            end = true -> management_interface id = Ok kind.
  Proof. destruct (management_interface id) as [[]| |], kind; congruence. Qed.
  Lemma named_only g w w1 m i : addressing sp g w w1 m -> member i m -> named_at (named g) i (view (w_sp w) i).
  Proof.
    unfold addressing. intros A Hi. destruct (named g) as [| |st|k|p] eqn:T; cbn [address_transceivers named_at] in *.
    - injection A as _ <-. apply member_testbit in Hi. now apply sidecar_spec.
    - apply cbind_inv in A. destruct A as (w2 & r & E & A).
      destruct (live_status a view Hok Hd _ _ _ _ sidecar_ok E) as (S1 & As & S2 & _).
      match type of A with context [filter_module_data ?x ?y ?z] => destruct (filter_module_data x y z) as [m' d'] eqn:F end. injection A as _ <-. destruct (filter_eq _ _ _ _ _ (proj1 As) F) as [Af G].
      apply member_testbit in Hi. rewrite (testbit_get _ _ i Af), G in Hi.
      destruct (get (mr_modules r) (mr_data r) i) as [x|] eqn:X; [|discriminate].
      split; [apply sidecar_spec, S1; rewrite (testbit_get _ _ i As); now rewrite X|]. rewrite <- (S2 _ _ X).
      destruct (st_contains x ST_PRESENT) eqn:Q; [|discriminate]. change ST_PRESENT with (2 ^ 0) in Q. now rewrite contains_pow2 in Q.
    - apply cbind_inv in A. destruct A as (w2 & r & E & A).
      destruct (live_power a view Hok Hd _ _ _ _ sidecar_ok E) as (As & S2).
      match type of A with context [filter_module_data ?x ?y ?z] => destruct (filter_module_data x y z) as [m' d'] eqn:F end. injection A as _ <-. destruct (filter_eq _ _ _ _ _ (proj1 As) F) as [Af G].
      apply member_testbit in Hi. rewrite (testbit_get _ _ i Af), G in Hi.
      destruct (get (mr_modules r) (mr_data r) i) as [x|] eqn:X; [|discriminate].
      destruct (S2 i x X) as [K1 K2]. split; [now apply sidecar_spec|]. unfold slot_power. rewrite K2. cbn [option_map]. f_equal.
      destruct (pm_state x), st; (reflexivity || discriminate).
    - apply cbind_inv in A. destruct A as (w2 & r & E & A).
      destruct (live_identifier a view Hok Hd w m_all_sidecar _ (fun i => eq_refl) sidecar_ok) as (r' & w' & f & E' & R & Tr & _).
      rewrite E in E'. injection E' as <- <-. pose proof R as [[As Fs] _].
      match type of A with context [filter_module_data ?x ?y ?z] => destruct (filter_module_data x y z) as [m' d'] eqn:F end. injection A as _ <-. destruct (filter_eq _ _ _ _ _ (proj1 As) F) as [Af G].
      apply member_testbit in Hi. rewrite (testbit_get _ _ i Af), G in Hi.
      destruct (get (mr_modules r) (mr_data r) i) as [x|] eqn:X; [|discriminate].
      destruct (rrep_true _ _ _ _ i x R Tr X) as [K1 K2]. split; [now apply sidecar_spec|]. rewrite <- K2.
      match type of Hi with context [if ?b then Some x else None] => destruct b eqn:B; [now apply kinds_match|discriminate] end.
    - now injection A as _ <-.
  Qed.
  Lemma named_all g w w1 m i : addressing sp g w w1 m ->
    match named g with TKind k => open_to_looks a i /\ (k = Sff8636 \/ k = Cmis) | TPresent | TPowerState _ => open_to_looks a i | _ => True end ->
    named_at (named g) i (view (w_sp w) i) -> member i m.
  Proof.
    unfold addressing. intros A Ho Hn. destruct (named g) as [| |st|k|p] eqn:T; cbn [address_transceivers named_at] in *.
    - injection A as _ <-. apply member_testbit. now apply sidecar_spec.
    - destruct (address_present a Hok w) as (m' & E & _ & K). pose proof A as A'. cbn [address_transceivers] in E. rewrite A in E. injection E as <-. apply K.
      split; [apply Hn|]. destruct (Ho (w_sp w) (HStatus m_all_sidecar) None eq_refl) as [x Hx]. exists x. split; [exact Hx|].
      apply (dr_status _ _ Hd) in Hx; [|apply member_testbit; now apply sidecar_spec]. subst x. apply Hn.
    - destruct Hn as [Hi Hn]. apply cbind_inv in A. destruct A as (w2 & r & E & A). apply sidecar_spec in Hi.
      destruct (live_power a view Hok Hd _ _ _ _ sidecar_ok E) as (As & _).
      destruct (open_power_told a view Hok Hd i Ho _ _ _ _ sidecar_ok Hi E) as (x & G & Hx). unfold slot_power in Hn. rewrite Hx in Hn. injection Hn as <-.
      match type of A with context [filter_module_data ?x ?y ?z] => destruct (filter_module_data x y z) as [m' d'] eqn:F end. injection A as _ <-.
      destruct (filter_eq _ _ _ _ _ (proj1 As) F) as [Af Gf]. apply member_testbit. rewrite (testbit_get _ _ i Af), Gf. unfold rget in G. rewrite G.
      now destruct (pm_state x).
    - destruct Ho as [Ho Hk]. destruct Hn as [Hi Hn]. apply cbind_inv in A. destruct A as (w2 & r & E & A).
      destruct (honest_identifier a Hok w m_all_sidecar sidecar_ok) as (r' & w' & E' & R & _).
      rewrite E in E'. injection E' as <- <-. apply member_testbit.
      match type of A with context [filter_module_data ?x ?y ?z] => pose proof (filter_report _ _ r z i R) as FR; destruct (filter_module_data x y z) as [m' d'] eqn:F end.
      injection A as _ <-. apply FR. split; [now apply sidecar_spec|].
      destruct (Ho (w_sp w) (HRead m_all_sidecar ident_read) None eq_refl) as [x Hx]. unfold ids_seen, told. rewrite Hx. eexists. split; [reflexivity|].
      apply (dr_read _ _ Hd) in Hx; [|apply member_testbit; now apply sidecar_spec]. subst x.
      change (ident_of_byte _) with (slot_kind (view (w_sp w) i)). rewrite Hn. now destruct Hk as [-> | ->].
    - injection A as _ <-. exact Hn.
  Qed.
End Named.

Section Any.
  Context {St : Type} (a : honest St) (view : St -> N -> slot) (Hok : honest_ok a) (Hd : drives a view)
          (show_f32 : f32 -> text) (show : TransceiverError -> text).
  Implicit Type w : world St.
  Local Notation sp := (honest_sp a).

  (** At any time of a run, modules that are not addressed are as they were. *)
  Lemma others_always g w w1 m i s : addressing sp g w w1 m -> ~ member i m -> comes_to sp (xcvradm show_f32 show g St sp) w s ->
    view s i = view (w_sp w) i.
  Proof.
    intros A Hi (l & l' & E & ->). unfold xcvradm, as_call in E.
    pose proof (runs_touch sp show_f32 show (honest_scoped a) (ar_ignore_errors g) m (ar_cmd g) w1) as (d2 & G2 & F2).
    pose proof (asks_address sp (named g) w) as (d1 & G1 & F1 & _). pose proof A as A0. unfold addressing in A0. rewrite A0 in G1. cbn [fst] in G1.
    rewrite <- (run_address a show_f32 show _ _ _ _ A) in G2. pose proof (went_trans _ _ _ _ _ _ G1 G2) as (l0 & E0 & Dl & _).
    assert (E1 : l0 = l ++ l').
    { apply (app_inv_head (w_log w)). rewrite <- E0, <- E. destruct (main sp show_f32 show g w) as [w' [x|[e|]|]]; reflexivity. }
    subst l0. rewrite flat_map_app in Dl.
    set (D := fun d => match d with DRequest q _ => looking q = true \/ ~ member i (request_modules q) | _ => True end).
    assert (K : Forall D (flat_map deed l)).
    { assert (K : Forall D (d1 ++ d2)).
      { apply Forall_app. split; (eapply Forall_impl; [|eassumption]); cbv beta; intros [q d|t] H; try exact I; cbn in H |- *.
        - left. apply H.
        - right. rewrite member_testbit in *. auto. }
      rewrite <- Dl in K. now apply Forall_app in K. }
    apply (replay_keeps a view D i); [|exact K].
    intros s q d [H|H]; [now apply (dr_look _ _ Hd)|now apply (dr_apart _ _ Hd)].
  Qed.

  (** Over a network that keeps order, with an SP that remembers the last datagram. *)
  Context (Hb : data_blind a) (retries : option N) (s0 : St) (c0 : N) (Hc : c0 < 2 ^ 64).
  Local Notation rsp := (remembering (honest_sp a)).
  Lemma tool_net g p ts w1 m : ~ for_status (ar_cmd g) -> steps_of (xcvradm show_f32 show g) p ->
    orderly rsp (sys_new retries (new_keeper s0) c0 [p]) ts ->
    addressing sp g (mkWorld s0 c0 []) w1 m ->
    let s := sys_run rsp (sys_new retries (new_keeper s0) c0 [p]) ts in let now := kp_now (nt_sp (sy_net s)) in
    (forall i, ~ member i m -> view now i = view s0 i) /\
    forall xs scr, sy_calls s = [Going xs (Ret (Ok (Some scr)))] -> ar_ignore_errors g = false -> m < 2 ^ 64 ->
      (forall i, member i m -> ~ error_line show i scr -> (powers_up (ar_cmd g) = true -> (forall j, member j m -> j = i) \/ same_case a view s0 m) ->
         obeyed (ar_cmd g) (view s0 i) (view now i)) /\
      ((forall i, byte_memory (sl_cell (view s0 i))) -> 
       (forall page binary offset len args, ar_cmd g = CRead page binary offset len args -> offset < 256 /\ len < 256) ->
         true_screen show_f32 show (ar_cmd g) m (view s0) scr).
  Proof.
    intros Hs Hp Ho A s now. pose proof (tool_stops _ _ _ _ Hp Hs) as He. split.
    - intros i Hi. apply (others_always g (mkWorld s0 c0 []) w1 m i now A Hi). apply steps_come with (p := p); [exact Hp|].
      destruct (call_remembered (honest_sp a) (honest_polite a Hok) (honest_blind a Hb) retries s0 c0 p ts Hc Ho) as (c1 & _ & _ & K). now apply K.
    - intros xs scr E Hi Hm. destruct (effect_once a Hok Hb _ retries s0 c0 p ts xs _ Hc Hp He Ho E) as [K1 K2]. fold s in K2. fold now in K2.
      unfold xcvradm, as_call in K1, K2. destruct (main sp show_f32 show g (mkWorld s0 c0 [])) as [w' o] eqn:M.
      cbn [fst snd] in K1, K2. rewrite K2. assert (M' : o = Ok scr) by (destruct o as [x|[e|]|]; congruence). subst o. split.
      + intros i Hin Hne Hu. exact (run_obeyed a view Hok Hd show_f32 show g (mkWorld s0 c0 []) w1 w' m scr i Hi A Hm M Hin Hne Hu).
      + intros Hby Hr. exact (run_true a view Hok Hd show_f32 show g (mkWorld s0 c0 []) w1 w' m scr Hi A Hm Hby Hr M).
  Qed.
End Any.
