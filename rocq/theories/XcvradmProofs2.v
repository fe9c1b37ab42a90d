(** The requests of a run of xcvradm are well made, so it ends (C94). *)
From Verif Require Import Tac ControllerProofs3 ControllerProofs5 MainProofs SentProofs ScopeProofs ScopeProofs2 AccessProofs FairProofs2.
From Verif Require Export XcvradmProofs SpecFair.
Import ListNotations.
Open Scope N_scope.

Section Made.
  Context {St : Type} (sp : St -> Rpc -> St * reply) (Hsp : answers_in_range sp) (show_f32 : f32 -> text) (show : TransceiverError -> text).
  Local Notation made c := (hoare sp fine c (fun _ => True)).

  Lemma args_page_wf p page : page_args_ok p -> args_page p = Ok page -> wf_page page = true.
  Proof.
    unfold page_args_ok, args_page. destruct (pg_upper p) as [[n b]|].
    - intros [Hn Hb]. unfold upper_page. destruct (pg_sff p), (pg_cmis p); try discriminate.
      + unfold sff_upper_new. destruct (_ || _); [|discriminate]. intros [= <-]. cbn. now apply N.ltb_lt.
      + destruct b as [b|].
        * unfold cmis_new_banked. destruct (negb (is_valid_page n)); [discriminate|]. destruct (MAX_BANK <? b); [discriminate|].
          destruct (negb _); [discriminate|]. intros [= <-]. cbn. apply andb_true_intro. split; now apply N.ltb_lt.
        * unfold cmis_new_unbanked. destruct (page_accepts_bank_number n); [discriminate|]. intros [= <-]. cbn. now apply N.ltb_lt.
    - intros _. unfold lower_page. destruct (pg_sff p), (pg_cmis p); try discriminate; now intros [= <-].
  Qed.
  Lemma in_page_256 p k : in_page p k -> k < 256.
  Proof.
    intros [H1 H2]. assert (D : lower_half p \/ ~ lower_half p) by (unfold lower_half; destruct p as [[]|[]]; intuition discriminate).
    destruct D as [D|D]; [specialize (H1 D)|specialize (H2 D)]; lia.
  Qed.
  Lemma mk_ok {A} (x : A) (Q : A -> Prop) : Q x -> hoare (St := St) sp fine (cret (Ok x)) Q.
  Proof. intro H. apply hoare_ret. now intros y [= <-]. Qed.
  Lemma mk_select t : match t with TIndex m => m < 2 ^ 64 | _ => True end -> hoare sp fine (address_transceivers sp t) small.
  Proof.
    assert (A : small m_all_sidecar) by reflexivity. intro H. unfold address_transceivers. destruct t.
    - apply hoare_ret. now intros m [= <-].
    - eapply hoare_bind; [apply (mk_status sp Hsp _ A)|]. intros r [R _]. now apply mk_ok, small_filter.
    - eapply hoare_bind; [apply (mk_power sp Hsp _ A)|]. intros r [R _]. now apply mk_ok, small_filter.
    - eapply hoare_bind; [apply (mk_identifier sp Hsp _ A)|]. intros r [R _]. now apply mk_ok, small_filter.
    - apply hoare_ret. now intros m' [= <-].
  Qed.
  Lemma mk_read_loop m l : small m -> Forall (fun rd => wf_read rd = true) l -> forall r, made (read_loop sp m l r).
  Proof.
    intros Hm. induction 1 as [|rd l H Hl IH]; intro r; cbn [read_loop]; [now apply hoare_ret|].
    eapply hoare_bind; [exact (mk_read sp Hsp m rd Hm H)|]. intros x _. apply (hoare_bind _ _ _ (fun _ => True)); [now apply hoare_ret|]. intros y _. apply IH.
  Qed.
  Lemma mk_cmd_read m p o l : small m -> page_args_ok p -> o < 256 -> l < 256 -> made (cmd_read sp m (args_page p) o l).
  Proof.
    intros Hm Hp Ho Hl. unfold cmd_read. destruct (l =? 0); [now apply hoare_ret|].
    apply (hoare_bind _ _ _ (fun page => wf_page page = true)); [apply hoare_ret; intros page E; exact (args_page_wf p page Hp E)|]. intros page Hw.
    apply (hoare_bind _ _ _ (fun rds => Forall (fun rd => wf_read rd = true) rds)).
    { apply hoare_ret. intros rds E. destruct (build_many_reads_correct page o l rds Ho Hl E) as [_ B]. apply Forall_forall. intros rd Hin.
      destruct (B rd Hin) as (Ep & [L1 L2] & L3). unfold wf_read. rewrite Ep, Hw.
      assert (rd_offset rd < 256) by (apply (in_page_256 page), L2; lia).
      assert (piece_limit page <= 128) by (unfold piece_limit; destruct page; lia).
      cbn. apply andb_true_intro. split; apply N.ltb_lt; lia. }
    intros rds Hr. apply (hoare_bind _ _ _ (fun _ => True)); [now apply hoare_ret|]. intros start _.
    eapply hoare_bind; [now apply mk_read_loop|]. intros r _. now apply hoare_ret.
  Qed.
  Lemma mk_run i m c : small m ->
    match c with
    | CRead page _ offset len _ => page_args_ok page /\ offset < 256 /\ len < 256
    | CWrite page _ offset => page_args_ok page /\ offset < 256
    | _ => True
    end -> MainProofs.runs sp fine (run_cmd sp show_f32 show i m c).
  Proof.
    intros Hm Hc.
    assert (Q : forall q, wf_host_request q = true -> (forall m wr, q <> HWrite m wr) -> made (no_payload_request sp q)).
    { intros q Hq Hn. eapply hoare_true. apply (mk_npr sp Hsp). split; [exact Hq|]. destruct q; try reflexivity. exfalso. eapply Hn. reflexivity. }
    assert (R : forall c, made (run_call sp show_f32 show i m c) ->
      MainProofs.runs sp fine (fun w => let (w', r) := run_call sp show_f32 show i m c w in (w', omap_err (F := option Error) Some r))).
    { intros c0 H. apply (runs_ext fine (run_call sp show_f32 show i m c0)); [intro w; now destruct (run_call sp show_f32 show i m c0 w)|]. eapply hoare_runs, H. }
    pose proof queries_in_range as QR. rewrite Forall_forall in QR.
    destruct c; cbn [run_cmd]; try apply R; cbn [run_call];
      try (apply hoare_acting; first [now apply (hoare_true sp _ _ _ (mk_reset sp Hsp m Hm))|now apply (hoare_true sp _ _ _ (mk_set_power sp Hsp m _ Hm))
             |apply Q; [cbn; rewrite ?andb_true_r; now apply N.ltb_lt|discriminate]]);
      try (apply hoare_printing; first [now apply (hoare_true sp _ _ _ (mk_power sp Hsp m Hm))|now apply (hoare_true sp _ _ _ (mk_identifier sp Hsp m Hm))
             |now apply (hoare_true sp _ _ _ (mk_leds sp Hsp m Hm))
             |(eapply hoare_true; apply (mk_parse sp Hsp); [apply QR; cbn; tauto|exact Hm])]).
    - apply (hoare_bind _ _ _ (fun _ => True)); [now apply hoare_ret|]. intros k _. apply (hoare_bind _ _ _ (fun _ => True)).
      + apply hoare_printing, hoare_status; [exact (hoare_true sp _ _ _ (mk_ext sp Hsp m Hm))|exact (hoare_true sp _ _ _ (mk_status sp Hsp m Hm))].
      + intros s _. now apply hoare_ret.
    - apply (hoare_bind _ _ _ (fun _ => True)); [now apply mk_cmd_read|]. intros r _. now apply hoare_ret.
    - unfold run_cmd. apply (runs_ext fine (cmd_write sp m (args_page page) offset (args_data input))); [intro w; now destruct (cmd_write sp m (args_page page) offset (args_data input) w)|].
      unfold cmd_write. destruct (args_data input) as [d|e|];
        [|intro w; exists []; split; [apply went_refl|constructor]..].
      destruct (N.ltb_spec 255 (Nlen d)) as [L|L]; [intro w; exists []; split; [apply went_refl|constructor]|].
      match goal with |- MainProofs.runs _ _ (fun w => let (_, _) := ?c w in _) => apply (runs_ext fine c); [intros w; now destruct (c w)|] end.
      eapply hoare_runs. eapply hoare_bind; [apply (hoare_ret _ _ (fun p => wf_page p = true)); intros p E; exact (args_page_wf page p (proj1 Hc) E)|].
      intros p Hp. eapply hoare_bind; [apply (hoare_ret _ _ (fun wr => wf_write wr = true))|].
      + intros wr. unfold write_new. destruct (verify_write p offset (Nlen d)); try discriminate. intros [= <-]. unfold wf_write. cbn. rewrite Hp.
        cbn. apply andb_true_intro. split; apply N.ltb_lt; [apply Hc|lia].
      + intros wr Hw. apply (mk_write sp Hsp m wr d Hm Hw).
    - eapply hoare_bind; [apply (mk_macs sp Hsp)|]. intros r _. apply (hoare_bind _ _ _ (fun _ => True)); [now apply hoare_ret|]. intros o _. now apply hoare_ret.
  Qed.
  Lemma mk_main a : args_ok a -> MainProofs.runs sp fine (main sp show_f32 show a).
  Proof.
    intros [Ht Hc] w. unfold main. fold (chosen a). destruct (mk_select (chosen a) Ht w) as (ds & G & F & M).
    destruct (address_transceivers sp (chosen a) w) as [w1 [m|e|]]; cbn [fst snd] in *; [|now exists ds..].
    destruct (mk_run (ar_ignore_errors a) m (ar_cmd a) (M m eq_refl) Hc w1) as (d2 & G2 & F2). exists (ds ++ d2).
    split; [eapply went_trans; eauto|now apply Forall_app].
  Qed.
End Made.

Lemma tool_lawful show_f32 show a p : args_ok a -> steps_of (xcvradm show_f32 show a) p -> lawful p.
Proof.
  intros H Hp. refine (made_lawful _ p Hp _). intros St sp Hs w q d Hin.
  destruct (mk_main sp Hs show_f32 show a H w) as (ds & G & F).
  assert (G' : grew w (fst (xcvradm show_f32 show a St sp w)) ds) by (unfold xcvradm; rewrite as_call_world; exact (went_grew sp _ _ _ G)).
  destruct (xcvradm show_f32 show a St sp w) as [w' x] eqn:E. cbn [fst] in G'. rewrite (deeds_grew _ _ _ _ _ E G') in Hin.
  rewrite Forall_forall in F. exact (F _ Hin).
Qed.
Lemma tool_ends St (sp : St -> Rpc -> St * reply) : polite sp -> forall show_f32 show a p, args_ok a -> steps_of (xcvradm show_f32 show a) p ->
  forall s0 c0 ts, c0 < 2 ^ 64 -> (forall n, untroubled (ts n)) -> fair 1 ts ->
  exists n xs x, nth_error (sy_calls (at_time sp (sys_new (cf_n_retries (args_config a)) s0 c0 [p]) ts n)) 0 = Some (Going xs (Ret x)).
Proof.
  intros Po show_f32 show a p H Hp s0 c0 ts C U F.
  destruct (lawful_end sp Po (cf_n_retries (args_config a)) s0 c0 [p] ts C) with (i := 0%nat) as (n & c & E & xs & x & ->); auto.
  { constructor; [now apply (tool_lawful show_f32 show a)|constructor]. }
  now exists n, xs, x.
Qed.
