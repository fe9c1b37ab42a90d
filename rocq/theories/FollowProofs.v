(** Proofs about runs of the tool that follow each other (C103). *)
From Coq Require Import String Lia.
From Verif Require Export SpecFollow SpecXcvradm SpecOnce.
From Verif Require Import Tac Spec ModuleIdProofs ModuleIdProps ResultsProofs CliProofs CliProofs5 ConfigProofs ErrorProofs TableProofs2 LiveProofs LiveProofs2 LiveProofs3
  ToolProofs ToolProofs3 ToolProofs4 RestoreProofs RestoreProofs2.
Import ListNotations.
Open Scope N_scope.
Local Open Scope list_scope.

Lemma member_64 i m : m < 2 ^ 64 -> member i m -> i < 64.
Proof. intros H. rewrite member_testbit. intros K. apply (proj1 (mask_ok_testbit m)); [|exact K]. now apply mask_ok_lt. Qed.
Lemma port_inj i j : i < 64 -> j < 64 -> port_shown i = port_shown j -> i = j.
Proof. intros Hi Hj E. rewrite <- (port_code i), <- (port_code j) by lia. now rewrite E. Qed.
Lemma port_not_title i : i < 64 -> T "Port" <> port_shown i.
Proof.
  intros H E. assert (S : forallb (fun i => negb (text_eqb (T "Port") (port_shown i))) (nrange 0 64) = true) by (vm_compute; reflexivity).
  rewrite forallb_forall in S. specialize (S i ltac:(apply in_nrange; lia)). rewrite <- E in S. discriminate S.
Qed.
Lemma starts_with i z : i < 64 -> firstn 4 (port_shown i ++ z) = port_shown i.
Proof. intros H. rewrite firstn_app, (port_len i H), Nat.sub_diag, firstn_O, app_nil_r. apply firstn_all2. now rewrite port_len. Qed.
Lemma shows_table {P} (line : N -> P -> text) title (r : Result P) i x (h : bool) scr (good : text -> Prop) :
  sc_out scr = lines ((if h then [title] else []) ++ map (fun p => line (fst p) (snd p)) (result_iter r)) -> firstn 4 title = T "Port" ->
  (forall j y, succeeds r j y -> j < 64) -> (forall j y, j < 64 -> firstn 4 (line j y) = port_shown j) ->
  succeeds r i x -> (forall y, succeeds r i y -> good (line i y)) -> shows_row i good scr.
Proof.
  intros E Ht Hr Hl Hx Hg. assert (Hi := Hr i x Hx). unfold shows_row. rewrite E. split.
  - exists (line i x). split; [|now apply Hl]. apply in_map_iff. exists (line i x). split; [reflexivity|]. apply in_or_app. right.
    apply in_map_iff. exists (i, x). split; [reflexivity|exact Hx].
  - intros row I F. apply in_map_iff in I. destruct I as (row' & [= ->] & I). apply in_app_or in I. destruct I as [I|I].
    + destruct h; [|contradiction]. destruct I as [<-|[]]. rewrite Ht in F. now apply port_not_title in F.
    + apply in_map_iff in I. destruct I as ([j y] & <- & I). cbn [fst snd] in *. pose proof (Hr j y I) as Hj. rewrite (Hl j y Hj) in F.
      apply port_inj in F; [|exact Hj|exact Hi]. subst j. now apply Hg.
Qed.
Lemma led_cells i s : i < 64 -> cells [5%nat] (port_shown i ++ T " " ++ led_debug s) = [port_shown i; led_word s].
Proof.
  intros H. assert (S : forallb (fun i => match cells [5%nat] (port_shown i ++ T " " ++ led_debug s) with
      [x; y] => text_eqb x (port_shown i) && text_eqb y (led_word s) | _ => false end) (nrange 0 64) = true) by (destruct s; vm_compute; reflexivity).
  rewrite forallb_forall in S. specialize (S i ltac:(apply in_nrange; lia)). cbv beta in S.
  destruct (cells _ _) as [|x [|y [|]]]; try discriminate. apply andb_true_iff in S. destruct S as [S1 S2].
  apply text_eqb_eq in S1, S2. now subst.
Qed.
Lemma power_cells i st o : i < 64 ->
  cells [6%nat; 13%nat] (port_shown i ++ T "  " ++ align_left POWER_WIDTH (power_state_debug st) ++ T "  " ++ override_text o) =
  [port_shown i; power_name st; override_word o].
Proof.
  intros H. assert (S : forallb (fun i => match cells [6%nat; 13%nat] (port_shown i ++ T "  " ++ align_left POWER_WIDTH (power_state_debug st) ++ T "  " ++ override_text o) with
      [x; y; z] => text_eqb x (port_shown i) && text_eqb y (power_name st) && text_eqb z (override_word o) | _ => false end) (nrange 0 64) = true)
    by (destruct st, o as [[|]|]; vm_compute; reflexivity).
  rewrite forallb_forall in S. specialize (S i ltac:(apply in_nrange; lia)). cbv beta in S.
  destruct (cells _ _) as [|x [|y [|z [|]]]]; try discriminate. rewrite !andb_true_iff in S. destruct S as [[S1 S2] S3].
  apply text_eqb_eq in S1, S2, S3. now subst.
Qed.
Lemma nth_take {A} (d : A) l : forall n j, (j < n)%nat -> nth j (firstn n l) d = nth j l d.
Proof. induction l as [|x l IH]; intros [|n] [|j] H; try reflexivity; try lia; cbn. apply IH. lia. Qed.
Lemma nth_drop {A} (d : A) l : forall n j, nth j (skipn n l) d = nth (n + j) l d.
Proof. induction l as [|x l IH]; intros [|n] j; try reflexivity; cbn; [now destruct j|apply IH]. Qed.
Lemma area_is mem g k d from n : (forall o, k <= o < k + Nlen d -> mem g o = nth (N.to_nat (o - k)) d 0) -> k <= from -> from + N.of_nat n <= k + Nlen d ->
  area mem g from n = firstn n (skipn (N.to_nat (from - k)) d).
Proof.
  intros H Hk Hn. unfold Nlen in *. apply (nth_ext _ _ 0 0).
  - rewrite area_length, firstn_length, skipn_length. lia.
  - rewrite area_length. intros j Hj. rewrite nth_take by exact Hj. rewrite nth_drop.
    replace j with (N.to_nat ((from + N.of_nat j) - from)) at 1 by lia. rewrite area_nth by lia. rewrite H by lia. f_equal. lia.
Qed.

(** From what was done and what is told. *)
Lemma then_told show_f32 show c c' n V scr' i x y : obeyed c x y -> true_screen show_f32 show c' n V scr' -> V i = y ->
  (forall j, byte_memory (sl_cell (V j))) -> n < 2 ^ 64 -> member i n -> ~ error_line show i scr' -> plain_table c' -> then_shown c c' i scr'.
Proof.
  intros O R Vi Hb H3 H5 H6 Hp.
  destruct c as [ | |st| | | | | | | | | | |page input offset| | | | | |s| | ]; try exact Logic.I;
    destruct c' as [ | | |args| | | | | | | | |page' binary from len args| | | | | |args| | | ]; try exact Logic.I;
    unfold obeyed in O; destruct (pins x) as [[? ?] ?]; cbn [true_screen plain_table then_shown] in *.
  - destruct R as (r & Pr & Tr & Al). destruct (Al i H5) as [(z & X)|X]; [|contradiction]. injection Pr as Pr.
    unfold print_power_mode, shown_as, table in Pr. rewrite Hp in Pr.
    eapply (shows_table (fun (port : N) (m : PowerMode) => align_right WIDTH (show_u8 port) ++ T "  " ++ align_left POWER_WIDTH (power_state_debug (pm_state m)) ++ T "  " ++ override_text (pm_override m)) _ r i z (negb (pa_omit_header args))); [symmetry; exact Pr|reflexivity| | |exact X|].
    + intros j u Y. apply Tr in Y. eapply member_64; [exact H3|apply Y].
    + intros j u Hj. cbv beta. unfold WIDTH. rewrite port_shown_ok by lia. now apply starts_with.
    + intros u Y. apply Tr in Y. destruct Y as [_ Y]. exists (pm_override u). unfold WIDTH. rewrite port_shown_ok by (pose proof (member_64 i n H3 H5); lia).
      rewrite power_cells by (eapply member_64; eassumption). rewrite Vi in Y. unfold slot_power in O. rewrite Y in O. cbn [option_map] in O.
      injection O as ->. reflexivity.
  - intros d Ed Bd -> Hl Hf Hw. destruct O as (p & d' & Ep & Ed' & O). rewrite Ed in Ed'. injection Ed' as <-.
    destruct (O Bd) as (_ & _ & O3). destruct R as [(Z & _)|(_ & p' & Ep' & r & Pr & Tr & Al)]; [lia|]. rewrite Ep in Ep'. injection Ep' as <-.
    destruct (Al i H5) as [(z & X)|X]; [|contradiction]. injection Pr as Pr.
    unfold print_read_data, shown_as, table in Pr. rewrite Hp in Pr.
    eapply (shows_table (fun (port : N) (d : list N) => align_right 4 (show_u8 port) ++ T " [" ++ fmt_bytes binary d ++ T "]") _ r i z (negb (pa_omit_header args))); [symmetry; exact Pr|reflexivity| | |exact X|].
    + intros j u Y. apply Tr in Y. eapply member_64; [exact H3|apply Y].
    + intros j u Hj. cbv beta. rewrite port_shown_ok by lia. now apply starts_with.
    + intros u Y. apply Tr in Y. destruct Y as [_ Y]. rewrite port_shown_ok by (pose proof (member_64 i n H3 H5); lia).
      assert (E : u = firstn (N.to_nat len) (skipn (N.to_nat (from - offset)) d)).
      { rewrite Y, Vi. apply area_is; [|exact Hf|lia]. intros o Ho. apply (O3 p o). split; [now right|exact Ho]. }
      unfold read_line. rewrite fmt_bytes_ok; [now rewrite E|]. rewrite Y. apply bytes_forall, area_bytes, Hb.
  - destruct R as (r & Pr & Tr & Al). destruct (Al i H5) as [(z & X)|X]; [|contradiction]. injection Pr as Pr.
    unfold print_led_state, shown_as, table in Pr. rewrite Hp in Pr.
    eapply (shows_table (fun (port : N) (s : LedState) => align_right WIDTH (show_u8 port) ++ T " " ++ led_debug s) _ r i z (negb (pa_omit_header args))); [symmetry; exact Pr|reflexivity| | |exact X|].
    + intros j u Y. apply Tr in Y. eapply member_64; [exact H3|apply Y].
    + intros j u Hj. cbv beta. unfold WIDTH. rewrite port_shown_ok by lia. now apply starts_with.
    + intros u Y. apply Tr in Y. destruct Y as [_ Y]. unfold WIDTH. rewrite port_shown_ok by (pose proof (member_64 i n H3 H5); lia).
      rewrite led_cells by (eapply member_64; eassumption). rewrite Y, Vi, O. reflexivity.
Qed.

Section Follow.
  Context {St : Type} (a : honest St) (view : St -> N -> slot) (Hok : honest_ok a) (Hd : drives a view)
          (show_f32 : f32 -> text) (show : TransceiverError -> text).
  Lemma follow g h (w w1 w' v v1 v' : world St) m n scr scr' i :
    ar_ignore_errors g = false -> addressing (honest_sp a) g w w1 m -> m < 2 ^ 64 -> main (honest_sp a) show_f32 show g w = (w', Ok scr) ->
    member i m -> ~ error_line show i scr -> (powers_up (ar_cmd g) = true -> (forall j, member j m -> j = i) \/ same_case a view (w_sp w) m) ->
    view (w_sp v) i = view (w_sp w') i -> (forall j, byte_memory (sl_cell (view (w_sp v) j))) ->
    (forall page binary offset len args, ar_cmd h = CRead page binary offset len args -> offset < 256 /\ len < 256) ->
    ar_ignore_errors h = false -> addressing (honest_sp a) h v v1 n -> n < 2 ^ 64 -> main (honest_sp a) show_f32 show h v = (v', Ok scr') ->
    member i n -> ~ error_line show i scr' -> plain_table (ar_cmd h) -> then_shown (ar_cmd g) (ar_cmd h) i scr'.
  Proof.
    intros G1 G2 G3 G4 G5 G6 G7 V Hb Hr H1 H2 H3 H4 H5 H6 Hp.
    pose proof (run_obeyed a view Hok Hd show_f32 show g w w1 w' m scr i G1 G2 G3 G4 G5 G6 G7) as O.
    assert (R : true_screen show_f32 show (ar_cmd h) n (view (w_sp v)) scr') by (eapply run_true; eassumption).
    exact (then_told show_f32 show _ _ n _ scr' i _ _ O R V Hb H3 H5 H6 Hp).
  Qed.
  Lemma follow_net retries s0 c0 retries' c0' g h p p' ts ts' w1 m v1 n i : data_blind a -> c0 < 2 ^ 64 -> c0' < 2 ^ 64 ->
    let sp := remembering (honest_sp a) in let t0 := sys_new retries (new_keeper s0) c0 [p] in let t1 := sys_run sp t0 ts in
    let s1 := kp_now (nt_sp (sy_net t1)) in let t0' := sys_new retries' (new_keeper s1) c0' [p'] in let t1' := sys_run sp t0' ts' in
    ~ for_status (ar_cmd g) -> ~ for_status (ar_cmd h) -> steps_of (xcvradm show_f32 show g) p -> steps_of (xcvradm show_f32 show h) p' ->
    orderly sp t0 ts -> orderly sp t0' ts' -> addressing (honest_sp a) g (mkWorld s0 c0 []) w1 m -> addressing (honest_sp a) h (mkWorld s1 c0' []) v1 n ->
    forall xs scr xs' scr', sy_calls t1 = [Going xs (Ret (Ok (Some scr)))] -> sy_calls t1' = [Going xs' (Ret (Ok (Some scr')))] ->
    ar_ignore_errors g = false -> ar_ignore_errors h = false -> m < 2 ^ 64 -> n < 2 ^ 64 ->
    member i m -> ~ error_line show i scr -> (powers_up (ar_cmd g) = true -> (forall j, member j m -> j = i) \/ same_case a view s0 m) ->
    (forall j, byte_memory (sl_cell (view s1 j))) ->
    (forall page binary offset len args, ar_cmd h = CRead page binary offset len args -> offset < 256 /\ len < 256) ->
    member i n -> ~ error_line show i scr' -> plain_table (ar_cmd h) -> then_shown (ar_cmd g) (ar_cmd h) i scr'.
  Proof.
    intros B C0 C0' sp t0 t1 s1 t0' t1' F F' P P' Or Or' A A' xs scr xs' scr' E E' I I' Hm Hn Hi Hne Hu Hb Hr Hi' Hne' Hp.
    destruct (tool_net a view Hok Hd show_f32 show B retries s0 c0 C0 g p ts w1 m F P Or A) as [_ N].
    destruct (N xs scr E I Hm) as [N1 _].
    destruct (tool_net a view Hok Hd show_f32 show B retries' s1 c0' C0' h p' ts' v1 n F' P' Or' A') as [_ N'].
    destruct (N' xs' scr' E' I' Hn) as [_ N2].
    eapply then_told; [exact (N1 i Hi Hne Hu)|exact (N2 Hb Hr)|reflexivity|exact Hb|exact Hn|exact Hi'|exact Hne'|exact Hp].
  Qed.
End Follow.
