(** Proofs about the status shown by the command-line tool (C98). *)
From Coq Require Import String.
From Verif Require Export ToolProofs3.
From Verif Require Import Tac Spec ModuleIdProofs ModuleIdProps ResultsProofs ControllerProofs ControllerProofs2 ControllerProofs3 ControllerProofs4
  ControllerProofs5 ControllerProofs6 ControllerProofs7 ScopeProofs ScopeProofs2 LiveProofs LiveProofs2 LiveProofs3 CliProofs4 CliProofs5 MainProofs MainProofs2 CoverProofs.
Import ListNotations.
Open Scope N_scope.

Section Status.
  Context {St : Type} (a : honest St) (Hok : honest_ok a) (show_f32 : f32 -> text) (show : TransceiverError -> text).
  Implicit Type w : world St.

  (** Of any status. *)
  Lemma shows_status (sp : St -> Rpc -> St * reply) c m w w' scr tr : for_status c -> run_cmd sp show_f32 show false m c w = (w', Ok scr) ->
    (forall w' r, status_result sp m w = (w', Ok r) -> full m r /\ forall i x, succeeds r i x -> member i m /\ x = tr i) ->
    true_status show c m tr scr.
  Proof.
    intros Hc E H. destruct c as [wi wo al pa ou se om | | | | | | | | | | | | | | | | | | | | |]; try destruct Hc. cbn [run_cmd run_call] in E.
    match type of E with context [cbind ?x ?y w] => destruct (cbind x y w) as [w2 o] eqn:Y end.
    destruct o as [s| |]; cbn [omap_err] in E; [|discriminate|discriminate]. injection E as -> ->.
    apply cbind_inv in Y. destruct Y as (w2 & kind & Y1 & Y). unfold cret in Y1. injection Y1 as <- Y1.
    apply cbind_inv in Y. destruct Y as (w3 & s & Y2 & Y). unfold cret in Y. injection Y as -> <-.
    unfold printing in Y2. apply cbind_inv in Y2. destruct Y2 as (w4 & r & Yr & Y2). apply cbind_inv in Y2. destruct Y2 as (w5 & out & Yo & Y2).
    unfold cret in Yo, Y2. injection Yo as <- Yo. injection Y2 as -> <-. destruct (H _ _ Yr) as [F T].
    exists kind. split; [destruct (Cli.status_kind wi wo al pa se); [now injection Y1 as ->|discriminate|discriminate]|].
    exists r. cbn [sc_out]. split; [destruct (omap lines _); [now injection Yo as ->|discriminate|discriminate]|]. split; [exact T|].
    intros i Hi. destruct (full_shown show m r out i F Hi) as [X|[e X]]; [left; exact X|right]. exists e. cbn [sc_err] in *. apply in_or_app. now right.
  Qed.

  Section Known.
    Context (ext : St -> N -> N) (He : tells_extended a ext).
    Local Notation sp := (honest_sp a).
    Lemma ext_kept t w i : ext (w_sp (fst (address_transceivers sp t w))) i = ext (w_sp w) i.
    Proof.
      destruct (asks_address sp t w) as (ds & G & F & _).
      pose proof (went_keeps a (fun s i => mkSlot (ext s i) LedOff (fun _ _ => 0)) (ScopeProofs.only (fun q d => looking q = true /\ d = None) false) i w (fst (address_transceivers sp t w)) ds) as K.
      assert (X : mkSlot (ext (w_sp (fst (address_transceivers sp t w))) i) LedOff (fun _ _ => 0) = mkSlot (ext (w_sp w) i) LedOff (fun _ _ => 0)); [|now injection X].
      eapply K; [|exact G|exact F]. intros s q d Q. cbv beta. f_equal. apply (te_look _ _ He). cbn in Q. apply Q.
    Qed.
    Lemma told_extended w m : mask_ok m = true -> exists r, snd (extended_status sp m w) = Ok r /\ full m r /\
      forall i x, succeeds r i x -> member i m /\ x = ext (w_sp w) i.
    Proof.
      intros Hm. pose proof (honest_documented a Hok w (HExtendedStatus m) None) as D. cbn [response_to request_modules] in D.
      assert (L : forall i x, N.testbit m i = true -> vd a w (HExtendedStatus m) None i = inl x -> le_value x = ext (w_sp w) i).
      { intros i x Hi Hx. apply (te_bytes _ _ He) in Hx; [|now apply member_testbit]. subst x. pose proof (te_range _ _ He (w_sp w) i) as R. unfold le_value. cbn [fold_right].
        pose proof (N.div_mod (ext (w_sp w) i) 256 ltac:(discriminate)). lia. }
      apply raw_ext in D.
      - eexists. rewrite D. split; [reflexivity|]. pose proof (rrep_told m le_value (vd a w (HExtendedStatus m) None) Hm) as R.
        split; [exact (full_rrep _ _ _ R)|]. intros i x Hx. apply succeeds_get in Hx. rewrite member_testbit.
        eapply (rrep_true m _ _ (fun i x => x = ext (w_sp w) i)); [exact R| |exact Hx]. apply told_true. exact L.
      - now apply good_bytes.
      - apply Forall_map, Forall_forall. intros i Hi. unfold good_ports in Hi. apply filter_In in Hi. destruct Hi as (Hi & G).
        apply in_to_indices_ok in Hi; [|exact Hm]. specialize (L i). destruct (vd a w (HExtendedStatus m) None i) as [x|]; [|discriminate].
        change (le_value x < 512). rewrite (L x Hi eq_refl). apply He.
    Qed.
    Lemma run_status g w w1 w' m scr : ar_ignore_errors g = false -> for_status (ar_cmd g) -> addressing sp g w w1 m -> m < 2 ^ 64 ->
      main sp show_f32 show g w = (w', Ok scr) -> true_status show (ar_cmd g) m (ext (w_sp w)) scr.
    Proof.
      intros Hig Hc A Hm E. rewrite (run_address a show_f32 show _ _ _ _ A), Hig in E. eapply shows_status; [exact Hc|exact E|].
      intros w2 r R. destruct (told_extended w1 m (proj2 (mask_ok_lt m) Hm)) as (r' & E' & F & T). unfold status_result in R.
      destruct (extended_status sp m w1) as [w3 o]. cbn [snd] in E'. subst o. injection R as -> ->.
      split; [exact F|]. intros i x Hx. destruct (T i x Hx) as [T1 T2]. split; [exact T1|]. rewrite T2.
      pose proof (ext_kept (named g) w i) as K. unfold addressing in A. now rewrite A in K.
    Qed.
  End Known.

  (** An SP that does not know it: the plain status is shown. *)
  Section Unknown.
    Context (view : St -> N -> slot) (Hd : drives a view) (e0 : Error).
    Local Notation sp := (without_extended e0 (honest_sp a)).
    Lemma run_status_old g w w1 w' m scr : ar_ignore_errors g = false -> for_status (ar_cmd g) -> addressing sp g w w1 m -> m < 2 ^ 64 ->
      main sp show_f32 show g w = (w', Ok scr) -> true_status show (ar_cmd g) m (fun i => sl_status (view (w_sp w1) i)) scr.
    Proof.
      intros Hig Hc A Hm E. assert (E' : run_cmd sp show_f32 show false m (ar_cmd g) w1 = (w', Ok scr)).
      { rewrite <- Hig, <- E. unfold main. fold (named g). unfold addressing in A. now rewrite A. }
      eapply shows_status; [exact Hc|exact E'|]. clear E E'. intros w2 r R. apply mask_ok_lt in Hm.
      set (w3 := fst (extended_status sp m w1)). assert (W : w_sp w3 = w_sp w1) by reflexivity.
      assert (R' : cbind (ctl_status (honest_sp a) m) (fun r => cret (data <-? omapM (fun s => ounwrap (ext_of_status s)) (mr_data r) ;; Ok (mkResult (mr_modules r) data (mr_failures r)))) w3 = (w2, Ok r)) by exact R.
      apply cbind_inv in R'. destruct R' as (w4 & r' & E1 & E2). unfold cret in E2. injection E2 as _ E2.
      destruct (live_status a view Hok Hd _ _ _ _ Hm E1) as (S1 & As & S2 & _). rewrite W in S2.
      destruct (honest_status a Hok w3 m Hm) as (r2 & E' & _ & Rr). rewrite E1 in E'. injection E' as -> ->.
      revert E2. match goal with |- context [omapM ?f (mr_data r2)] => destruct (omapM f (mr_data r2)) as [ds| |] eqn:Od end; cbn [obind]; [|discriminate|discriminate].
      intros [= <-]. assert (ds = mr_data r2).
      { clear -Od. revert ds Od. induction (mr_data r2) as [|x l IH]; intros ds Od; cbn [omapM] in Od; [now injection Od as <-|].
        assert (X : ext_of_status x = Ok x \/ ext_of_status x = Panic) by (unfold ext_of_status, ext_status_from_bits; destruct (x <? 512); auto).
        destruct X as [X|X]; rewrite X in Od; cbn [ounwrap obind] in Od; [|discriminate].
        revert Od IH. match goal with |- context [omapM ?f l] => destruct (omapM f l) as [l'| |] end; cbn [obind]; intros Od IH; try discriminate.
        injection Od as <-. f_equal. now apply IH. }
      subst ds. split; [split; [exact As|exact (rrep_told_of _ _ _ Rr)]|]. intros i x Hx. apply succeeds_get in Hx. unfold rget in Hx. cbn [mr_modules mr_data] in Hx.
      split; [|now apply S2]. apply member_testbit, S1. now rewrite (testbit_get _ _ i As), Hx.
    Qed.
  End Unknown.
End Status.

(** The rows. *)
Lemma status_rows show m tr scr parseable output separator omit :
  true_status show (CStatus None None false parseable output separator omit) m tr scr ->
  let sep := match separator with Some s => s | None => T ":" end in
  one_row_each show m (status_head parseable omit sep output) (fun i => status_row parseable sep output i (tr i)) scr.
Proof.
  intros (kind & Ek & r & Ep & Ht & Ha) sep. exists (map fst (result_iter r)).
  assert (In_ : forall i x, In (i, x) (result_iter r) -> x = tr i /\ member i m /\ i < 256).
  { intros i x Hx. destruct (Ht i x Hx) as [H1 H2]. split; [exact H2|]. split; [exact H1|].
    apply in_combine_l, in_to_indices in Hx. lia. }
  split; [apply zip_sorted|]. split; [|split].
  - intros i Hi. apply in_map_iff in Hi. destruct Hi as ((j & x) & <- & Hx). now apply (In_ _ _ Hx).
  - intros i Hi. destruct (Ha i Hi) as [[x Hx]|H]; [left|now right]. apply in_map_iff. exists (i, x). now split.
  - unfold status_kind in Ek. rewrite map_map. destruct parseable; injection Ek as <-; cbn [print_module_status omap] in Ep; injection Ep as <-; apply (f_equal lines).
    + apply f_equal2; [now destruct omit|]. apply map_ext_in. intros (i & x) Hx. destruct (In_ _ _ Hx) as (-> & _ & Hi). unfold status_row. cbn [fst snd]. f_equal.
      apply map_ext. intros []; [now apply show_u8_digits|reflexivity].
    + apply f_equal2; [now destruct omit|]. apply map_ext_in. intros (i & x) Hx. destruct (In_ _ _ Hx) as (-> & _ & Hi). unfold status_row. cbn [fst snd]. now rewrite port_shown_ok.
Qed.
