(** Proofs about queries of the command-line tool on modules that are there (C98). *)
From Coq Require Import String.
From Verif Require Export ToolProofs.
From Verif Require Import Tac Spec ModuleIdProofs ModuleIdProps ResultsProofs ControllerProofs ControllerProofs3 ControllerProofs4
  ControllerProofs5 ControllerProofs6 ControllerProofs7 ScopeProofs ScopeProofs2 AccessProofs LiveProofs LiveProofs2 LiveProofs3
  CliProofs4 CliProofs5 MainProofs MainProofs2 CoverProofs CoverProofs2 DecodeProofs9.
Import ListNotations.
Open Scope N_scope.

Section Queries.
  Context {St : Type} (a : honest St) (view : St -> N -> slot) (Hok : honest_ok a) (Hd : drives a view)
          (show_f32 : f32 -> text) (show : TransceiverError -> text).
  Implicit Type w : world St.
  Local Notation sp := (honest_sp a).
  Local Notation main := (main sp show_f32 show).

  (** Told of, each with its data. *)
  Definition full {P} (m : N) (r : Result P) : Prop := aligned (mr_modules r) (mr_data r) /\ told_of m (mr_modules r) (mr_failures r).
  Lemma full_rrep {P} m f (r : Result P) : rrep m f r -> full m r.
  Proof. intros R. split; [apply R|eapply rrep_told_of, R]. Qed.
  Lemma full_shown {P} m (r : Result P) out i : full m r -> member i m ->
    (exists x, succeeds r i x) \/ error_line show i (mkScreen out (print_failures show (mr_failures r))).
  Proof.
    intros [A [F T]] Hi. apply member_testbit in Hi. destruct (T i Hi) as [X|X]; [left|right; now apply shown_failures].
    rewrite (testbit_get _ _ i A) in X. destruct (get _ _ i) as [x|] eqn:G; [|discriminate]. exists x. now apply succeeds_get.
  Qed.

  Lemma full_leds m w r : m < 2 ^ 64 -> snd (leds sp m w) = Ok r -> full m r.
  Proof.
    intros Hm E. destruct (honest_leds a Hok m Hm w) as (r' & E' & R).
    { intros j d Hj Hv. apply (dr_led _ _ Hd) in Hv; [|exact Hj]. subst d. now destruct (sl_led _). }
    rewrite E in E'. injection E' as <-. apply rrep_reports in R. eapply full_rrep, R.
  Qed.
  Lemma full_kind m w r : m < 2 ^ 64 -> snd (identifier sp m w) = Ok r -> full m r.
  Proof.
    intros Hm E. apply mask_ok_lt in Hm. destruct (live_identifier a view Hok Hd w m _ (fun i => eq_refl) Hm) as (r' & w' & f & E' & R & _).
    rewrite E' in E. cbn in E. injection E as ->. eapply full_rrep, R.
  Qed.
  Lemma full_power m w r : m < 2 ^ 64 -> snd (power sp m w) = Ok r -> full m r.
  Proof.
    intros Hm E. apply mask_ok_lt in Hm. destruct (power sp m w) as [w' o] eqn:X. cbn [snd] in E. subst o. split.
    - exact (proj1 (live_power a view Hok Hd _ _ _ _ Hm X)).
    - exact (power_told_of a view Hok Hd _ _ _ _ Hm X).
  Qed.
  Lemma full_query {P} reads (parse : Identifier -> list (list N) -> outcome DecodeError P) m w r : In reads decoders -> m < 2 ^ 64 ->
    snd (parse_modules_by_identifier sp reads parse m w) = Ok r -> full m r.
  Proof.
    intros Hr Hm E. apply mask_ok_lt in Hm. destruct (parse_modules_by_identifier sp reads parse m w) as [w' o] eqn:X. cbn [snd] in E. subst o. split.
    - exact (proj1 (live_query a view Hok Hd reads parse (fun id rds => decoders_len reads id rds Hr) (view (w_sp w)) m w w' r Hm (fun _ => eq_refl) X)).
    - exact (query_told_of a view Hok Hd _ _ _ _ _ _ Hm X).
  Qed.
  Lemma full_read m rd w r : m < 2 ^ 64 -> 1 <= rd_len rd <= 255 -> snd (ctl_read sp m rd w) = Ok r -> full m r /\ (forall i, failed r i -> member i m) /\ forall i, succeeded r i -> ~ failed r i.
  Proof.
    intros Hm Hl E. apply mask_ok_lt in Hm. destruct (ctl_read sp m rd w) as [w' o] eqn:X. cbn [snd] in E. subst o. unfold ctl_read in X.
    destruct (Nat.eqb_spec (m_count m) 0) as [Hz|Hz]; cbn [orb] in X.
    { apply count0 in Hz; [|exact Hm]. subst m. cbn in X. injection X as _ <-. split; [split; [split; reflexivity|split; [split; reflexivity|]]|split].
      - intros i. rewrite N.bits_0. discriminate.
      - intros i. unfold failed. cbn. now rewrite member_testbit, N.bits_0.
      - intros i _. unfold failed. cbn. now rewrite member_testbit, N.bits_0. }
    destruct (N.eqb_spec (rd_len rd) 0) as [|_]; [lia|].
    apply cbind_inv in X. destruct X as (w1 & ri & E1 & X).
    destruct (live_identifier a view Hok Hd w m _ (fun i => eq_refl) Hm) as (ri' & w1' & f & E1' & R & _ & V1).
    rewrite E1 in E1'. injection E1' as <- <-.
    apply cbind_inv in X. destruct X as (w1' & u & Ev & X). injection Ev as <- _.
    apply cbind_inv in X. destruct X as (w2 & rr & E2 & X). injection X as _ <-.
    destruct (live_read_impl a view Hok Hd rd) with (w := w1) (m := mr_modules ri) (V := view (w_sp w)) as (rr' & w2' & g & E2' & R2 & T2 & _);
      [lia|exact V1|apply R|]. rewrite E2 in E2'. injection E2' as <- <-.
    split; [|split].
    - split; [apply R2|]. cbn [mr_modules mr_failures]. exact (told_merge _ _ _ _ _ (rrep_told_of _ _ _ R) (rrep_told_of _ _ _ R2)).
    - intros i. unfold failed. cbn [mr_failures]. rewrite !member_testbit, failed_merge_bit, (rrep_failed _ _ _ i R), (rrep_failed _ _ _ i R2), (rrep_modules _ _ _ i R).
      now destruct (N.testbit m i).
    - intros i. unfold failed, succeeded. cbn [mr_modules mr_failures]. rewrite !member_testbit, failed_merge_bit, (rrep_failed _ _ _ i R), (rrep_failed _ _ _ i R2), (rrep_modules _ _ _ i R2), (rrep_modules _ _ _ i R).
      destruct (N.testbit m i); [|discriminate]. destruct (f i); [|discriminate]. now destruct (g i).
  Qed.

  Lemma read_loop_true m rds : m < 2 ^ 64 -> Forall (fun rd => 1 <= rd_len rd <= 255) rds -> forall w w' (V : N -> slot) pre r r',
    (forall i, view (w_sp w) i = V i) -> wf_result r -> (forall i, member i m -> succeeded r i \/ failed r i) ->
    (forall i x, succeeds r i x -> member i m /\ x = pre i) ->
    read_loop sp m rds r w = (w', Ok r') ->
    wf_result r' /\ (forall i, member i m -> succeeded r' i \/ failed r' i) /\
    (forall i x, succeeds r' i x -> member i m /\ x = pre i ++ List.concat (map (contents (sl_cell (V i))) rds)).
  Proof.
    intros Hm. induction 1 as [|rd rds Hl Hrs IH]; intros w w' V pre r r' HV Wr Tr Sr E; cbn [read_loop] in E.
    - injection E as _ <-. cbn [map List.concat]. split; [exact Wr|]. split; [exact Tr|]. intros i x Hx. rewrite app_nil_r. auto.
    - apply cbind_inv in E. destruct E as (w1 & s & E1 & E). assert (E1' : snd (ctl_read sp m rd w) = Ok s) by now rewrite E1.
      destruct (full_read m rd w s Hm Hl E1') as ((As & Fs & Ts) & Sub & Dj).
      pose proof (live_ctl_read a view Hok Hd w m rd s Hm ltac:(lia) E1') as Ls.
      assert (Ws : wf_result s).
      { split; [apply one_each_aligned; exact As|]. split; [apply one_each_aligned; exact Fs|]. intros i [X Y]. exact (Dj i X Y). }
      apply cbind_inv in E. destruct E as (w2 & t & E2 & E). unfold cret in E2. injection E2 as <- E2.
      destruct (result_append r s) as [t'|] eqn:Et; [|discriminate]. injection E2 as ->.
      destruct (proj2 (result_append_correct r s Wr Ws) t Et) as (Wt & St' & Ft).
      pose proof (proj1 (proj2 (proj2 (proj2 (proj2 (proj2 (proj2 (queries_change_nothing a view Hd m))))))) rd w) as Vq.
      unfold seen_after in Vq. rewrite E1 in Vq. cbn [fst] in Vq.
      assert (Mb : forall (P : Type) (q : Result P) i, wf_result q -> succeeded q i -> exists x, succeeds q i x).
      { intros P q i (Wq & _) Hs. apply one_each_aligned in Wq. unfold succeeded in Hs. rewrite member_testbit, (testbit_get _ _ i Wq) in Hs.
        destruct (get _ _ i) as [x|] eqn:G; [|discriminate]. exists x. now apply succeeds_get. }
      assert (Mf : forall (P : Type) (q : Result P) i, wf_result q -> failed q i <-> exists e, fails q i e).
      { intros P q i (_ & Wq & _). unfold wf_failed in Wq. rewrite one_each_aligned in Wq. unfold failed. rewrite member_testbit, (testbit_get _ _ i Wq). split.
        - destruct (get _ _ i) as [x|] eqn:G; [|discriminate]. exists x. now apply at_port_get.
        - intros (e & He). apply at_port_get in He. now rewrite He. }
      assert (Ms : forall (P : Type) (q : Result P) i x, wf_result q -> succeeds q i x -> succeeded q i).
      { intros P q i x (Wq & _) Hs. apply one_each_aligned in Wq. apply succeeds_get in Hs. unfold succeeded. rewrite member_testbit, (testbit_get _ _ i Wq).
        unfold rget in Hs. now rewrite Hs. }
      destruct (IH w1 w' V (fun i => pre i ++ contents (sl_cell (V i)) rd) t r') as (W' & T' & S'); auto.
      + intros i. now rewrite Vq.
      + intros i Hi. destruct (Tr i Hi) as [X|X].
        * destruct (Mb _ r i Wr X) as (xa & Hxa). pose proof Hi as Hi'. apply member_testbit in Hi'. destruct (Ts i Hi') as [Y|Y].
          -- assert (Ys : succeeded s i) by (now apply member_testbit). destruct (Mb _ s i Ws Ys) as (xb & Hxb). left. eapply Ms; [exact Wt|].
             apply St'. exists xa. split; [exact Hxa|]. split; [exact (Dj i Ys)|]. left. eauto.
          -- right. apply (Mf _ t i Wt). assert (Yf : failed s i) by (now apply member_testbit). apply (Mf _ s i Ws) in Yf. destruct Yf as (e & He).
             exists e. apply Ft. now right.
        * right. apply (Mf _ r i Wr) in X. destruct X as (e & He). apply (Mf _ t i Wt). exists e. apply Ft. now left.
      + intros i x Hx. apply St' in Hx. destruct Hx as (xa & Hxa & Nf & K). destruct (Sr i xa Hxa) as [Hi ->]. split; [exact Hi|].
        destruct K as [(xb & Hxb & ->)|[Ns _]].
        * f_equal. rewrite <- HV. exact (proj2 (Ls i xb Hxb)).
        * exfalso. pose proof Hi as Hi'. apply member_testbit in Hi'. destruct (Ts i Hi') as [Y|Y]; [apply Ns|apply Nf]; now apply member_testbit.
      + split; [exact W'|]. split; [exact T'|]. intros i x Hx. destruct (S' i x Hx) as [H1 ->]. split; [exact H1|].
        cbn [map List.concat]. now rewrite app_assoc.
  Qed.
  Lemma printing_inv {P} (c : ctl (St := St) (Result P)) print w w' scr :
    (let (w'', r) := printing show false c print w in (w'', omap_err (@Some Error) r)) = (w', Ok scr) ->
    exists r, c w = (w', Ok r) /\ print r = Ok (sc_out scr) /\ scr = mkScreen (sc_out scr) (print_failures show (mr_failures r)).
  Proof.
    unfold printing. destruct (cbind c _ w) as [w'' o] eqn:E. destruct o as [s| |]; cbn [omap_err]; [|discriminate|discriminate].
    intros [= <- <-]. apply cbind_inv in E. destruct E as (w1 & r & E1 & E). apply cbind_inv in E. destruct E as (w2 & out & E2 & E).
    unfold cret in E2, E. injection E2 as <- E2. injection E as <- <-. exists r. split; [exact E1|]. cbn [sc_out].
    split; [|reflexivity]. destruct (print r); [now injection E2 as ->|discriminate|discriminate].
  Qed.
  Lemma args_shown {F} (p : ParsableArgs F) : args_kind p = shown_as p.
  Proof. reflexivity. Qed.

  Theorem run_true g w w1 w' m scr : ar_ignore_errors g = false -> addressing sp g w w1 m -> m < 2 ^ 64 ->
    (forall i, byte_memory (sl_cell (view (w_sp w) i))) ->
    (forall page binary offset len args, ar_cmd g = CRead page binary offset len args -> offset < 256 /\ len < 256) ->
    main g w = (w', Ok scr) -> true_screen show_f32 show (ar_cmd g) m (view (w_sp w)) scr.
  Proof.
    intros Hig A Hm Hb Hu8 E. rewrite (run_address a show_f32 show _ _ _ _ A), Hig in E.
    assert (V : forall i, view (w_sp w1) i = view (w_sp w) i) by (intros i; exact (addressing_keeps a view Hd _ _ _ _ i A)).
    assert (Hb' : forall i, byte_memory (sl_cell (view (w_sp w1) i))) by (intros i; rewrite V; apply Hb).
    assert (K : forall P (c : ctl (St := St) (Result P)) print tr,
      (let (w'', r) := printing show false c print w1 in (w'', omap_err (@Some Error) r)) = (w', Ok scr) ->
      (forall r, snd (c w1) = Ok r -> full m r) ->
      (forall r, snd (c w1) = Ok r -> forall i x, succeeds r i x -> member i m /\ tr i x) ->
      tells_all show m tr print scr).
    { intros P c print tr X F T. apply printing_inv in X. destruct X as (r & X & Xp & Xs). assert (X' : snd (c w1) = Ok r) by now rewrite X.
      exists r. split; [exact Xp|]. split; [exact (T r X')|]. intros i Hi. rewrite Xs. now apply full_shown with (m := m); [apply F|]. }
    destruct (told_there a view Hok Hd w1 m Hm) as (_ & T1 & T2 & T3 & _). destruct (decoded_there a view Hok Hd w1 m Hm Hb') as (D1 & D2 & D3 & D4).
    unfold true_screen. destruct (ar_cmd g) eqn:Ec; try exact I; cbn [run_cmd run_call] in E.
    - eapply K; [exact E|intros r; now apply full_power|]. intros r Hr i x Hx. rewrite <- V. exact (T3 r Hr i x Hx).
    - eapply K; [exact E|intros r; now apply full_kind|]. intros r Hr i x Hx. rewrite <- V. exact (T2 r Hr i x Hx).
    - eapply K; [exact E|intros r; apply full_query; [cbn; tauto|exact Hm]|]. intros r Hr i x Hx. rewrite <- V. exact (D1 r Hr i x Hx).
    - destruct (Hu8 _ _ _ _ _ eq_refl) as [Ho Hl].
      match type of E with context [cbind ?x ?y w1] => destruct (cbind x y w1) as [w2 o] eqn:Y end.
      destruct o as [s| |]; cbn [omap_err] in E; [|discriminate|discriminate]. injection E as -> ->.
      apply cbind_inv in Y. destruct Y as (w2 & rr & Y1 & Y). unfold cret in Y. injection Y as <- Y.
      unfold cmd_read in Y1. destruct (N.eqb_spec len 0) as [Z|Z].
      + left. unfold cret in Y1. injection Y1 as _ <-. auto.
      + right. split; [lia|].
        apply cbind_inv in Y1. destruct Y1 as (w3 & p & Yp & Y1). unfold cret in Yp. injection Yp as <- Yp.
        apply cbind_inv in Y1. destruct Y1 as (w3 & rds & Yr & Y1). unfold cret in Yr. injection Yr as <- Yr.
        apply cbind_inv in Y1. destruct Y1 as (w3 & r0 & Y0 & Y1). unfold cret in Y0. injection Y0 as <- Y0.
        apply cbind_inv in Y1. destruct Y1 as (w3 & r & Yl & Y1). unfold cret in Y1. injection Y1 as <- <-.
        exists p. split; [exact Yp|].
        destruct (build_many_reads_correct p offset len rds Ho Hl Yr) as (Tile & Each).
        destruct (start_reports (P := N) m (proj2 (mask_ok_lt m) Hm)) as (r0' & E0 & R0). rewrite E0 in Y0. injection Y0 as ->.
        assert (Hr : Forall (fun rd => 1 <= rd_len rd <= 255) rds).
        { apply Forall_forall. intros rd Hrd. destruct (Each rd Hrd) as (Hp & Ha & Hs). destruct Ha as (Ha & _). split; [lia|]. destruct p; cbn in Hs; lia. }
        pose proof (full_rrep _ _ _ R0) as (A0 & F0 & T0).
        destruct (read_loop_true m rds Hm Hr w1 w3 (view (w_sp w)) (fun _ => []) r0 r V) as (W & T & S); auto.
        * split; [apply one_each_aligned; exact A0|]. split; [apply one_each_aligned; exact F0|]. intros i. rewrite !member_testbit, (rrep_modules _ _ _ i R0), (rrep_failed _ _ _ i R0).
          now destruct (N.testbit m i).
        * intros i. unfold succeeded, failed. rewrite !member_testbit. apply T0.
        * intros i x Hx. apply succeeds_get in Hx. rewrite member_testbit.
          apply (rrep_true m _ r0 (fun _ x => x = [])) with (i := i) (x := x) in R0; auto. intros j y _ [= <-]. reflexivity.
        * exists r. subst scr. cbn [sc_out]. split; [reflexivity|]. split.
          -- intros i x Hx. destruct (S i x Hx) as [H1 ->]. split; [exact H1|]. cbn [app]. unfold area. rewrite <- Tile, concat_map, map_map. f_equal.
             apply map_ext_in. intros rd Hrd. unfold contents, area. now rewrite (proj1 (Each rd Hrd)).
          -- intros i Hi. apply (full_shown m); [|exact Hi]. destruct W as (W1 & W2 & _). split; [now apply one_each_aligned|].
             split; [now apply one_each_aligned|]. intros j Hj. unfold succeeded, failed in T. specialize (T j). rewrite !member_testbit in T. auto.
    - eapply K; [exact E|intros r; apply full_query; [cbn; tauto|exact Hm]|]. intros r Hr i x Hx. rewrite <- V. exact (D2 r Hr i x Hx).
    - eapply K; [exact E|intros r; now apply full_leds|]. intros r Hr i x Hx. rewrite <- V. exact (T1 r Hr i x Hx).
    - eapply K; [exact E|intros r; apply full_query; [cbn; tauto|exact Hm]|]. intros r Hr i x Hx. rewrite <- V. exact (D3 r Hr i x Hx).
    - eapply K; [exact E|intros r; apply full_query; [cbn; tauto|exact Hm]|]. intros r Hr i x Hx. rewrite <- V. exact (D4 r Hr i x Hx).
  Qed.
End Queries.
