(** Proofs about windowed reads on the command line (C53). *)
From Coq Require Import String.
From Verif Require Import Tac SpecCmd ModuleIdProofs ModuleIdProps ResultsProofs AccessProofs
  ControllerProofs ControllerProofs2 ControllerProofs3 ControllerProofs4 ControllerProofs9.
From Coq Require Import Lia.
Import ListNotations.
Open Scope N_scope.

(** ** Appending reports *)
Definition both {P} (f g : N -> list P + TransceiverError) (i : N) : list P + TransceiverError :=
  match f i, g i with
  | inl x, inl y => inl (x ++ y)
  | inr e, _ => inr e
  | _, inr e => inr e
  end.
Lemma append_reports {P} m (f g : N -> list P + TransceiverError) r s :
  rrep m f r -> rrep m g s -> (forall i, N.testbit m i = true -> exists x, f i = inl x) ->
  exists t, result_append r s = Some t /\ rrep m (both f g) t.
Proof.
  intros Hr Hs Hf. pose proof (proj1 (rrep_reports _ _ _) Hr) as (Wr & Sr & Fr).
  pose proof (proj1 (rrep_reports _ _ _) Hs) as (Ws & Ss & Fs).
  destruct (result_append_correct r s Wr Ws) as [An As].
  destruct (result_append r s) as [t|] eqn:E.
  - exists t. split; [reflexivity|]. apply rrep_reports. destruct (As t eq_refl) as (Wt & St & Ft).
    split; [exact Wt|]. split.
    + intros i x. rewrite St. split.
      * intros (xa & Ha & Hn & [(xb & Hb & ->)|(Hb & _)]).
        -- apply Sr in Ha. apply Ss in Hb. destruct Ha as [Hm Ha], Hb as [_ Hb]. split; [exact Hm|].
           unfold both. now rewrite Ha, Hb.
        -- exfalso. apply Sr in Ha. destruct Ha as [Hm _]. apply member_testbit in Hm.
           unfold succeeded, failed in *. rewrite member_testbit in Hb, Hn. rewrite (rrep_modules _ _ _ i Hs) in Hb.
           rewrite (rrep_failed _ _ _ i Hs) in Hn. rewrite Hm in *. cbn in *. destruct (g i); auto.
      * intros [Hm Hb]. unfold both in Hb. destruct (f i) as [xa|] eqn:Ef; [|discriminate]. destruct (g i) as [xb|] eqn:Eg; [|discriminate].
        injection Hb as <-. exists xa. split; [now apply Sr|]. split.
        -- unfold failed. rewrite member_testbit, (rrep_failed _ _ _ i Hs), Eg, andb_false_r. discriminate.
        -- left. exists xb. split; [now apply Ss|reflexivity].
    + intros i e. rewrite Ft, Fr, Fs. unfold both. split.
      * intros [[Hm He]|[Hm He]]; split; try exact Hm.
        -- now rewrite He.
        -- apply member_testbit in Hm. destruct (Hf i Hm) as (x & ->). now rewrite He.
      * intros [Hm He]. destruct (f i); [|left; auto]. destruct (g i); [discriminate|right; auto].
  - exfalso. destruct (proj1 An eq_refl) as (i & Hi & Hn). unfold succeeded, failed in *. rewrite !member_testbit in *.
    rewrite (rrep_modules _ _ _ i Hs), (rrep_failed _ _ _ i Hs) in Hi. rewrite (rrep_modules _ _ _ i Hr) in Hn.
    destruct (N.testbit m i) eqn:Em; [|cbn in Hi; intuition discriminate]. destruct (Hf i Em) as (x & Hx). rewrite Hx in Hn. now apply Hn.
Qed.
Lemma append_fails {P} m (f g : N -> list P + TransceiverError) r s i e :
  rrep m f r -> rrep m g s -> N.testbit m i = true -> f i = inr e -> result_append r s = None.
Proof.
  intros Hr Hs Hm He. pose proof (proj1 (rrep_reports _ _ _) Hr) as (Wr & _ & _).
  pose proof (proj1 (rrep_reports _ _ _) Hs) as (Ws & _ & _).
  apply (proj1 (result_append_correct r s Wr Ws)). exists i. unfold succeeded, failed. rewrite !member_testbit.
  rewrite (rrep_modules _ _ _ i Hs), (rrep_failed _ _ _ i Hs), (rrep_modules _ _ _ i Hr), Hm, He. cbn.
  split; [destruct (g i); auto|discriminate].
Qed.
Lemma start_reports {P} m : mask_ok m = true ->
  exists r, result_success (E := TransceiverError) m (repeat (@nil P) (m_count m)) = Some r /\ rrep m (fun _ => inl []) r.
Proof.
  intros Hm. unfold result_success. rewrite repeat_length, Nat.eqb_refl. eexists. split; [reflexivity|].
  assert (A : aligned m (repeat (@nil P) (m_count m))) by (split; [exact Hm|apply repeat_length]).
  split; [split; [exact A|split; reflexivity]|].
  intros i. split.
  - unfold rget. cbn [mr_modules mr_data]. destruct (get m _ i) as [x|] eqn:E.
    + assert (x = []). { unfold get in E. apply lookup_in in E. unfold zip_data in E. apply in_combine_r in E. now apply repeat_spec in E. }
      subst x. assert (B : N.testbit m i = true) by (apply (get_some _ _ i A); eauto). now rewrite B.
    + destruct (N.testbit m i) eqn:B; [|reflexivity]. apply (get_some _ _ i A) in B. destruct B. congruence.
  - unfold rerr. cbn. now destruct (N.testbit m i).
Qed.

Lemma looks_reads gs rd : Forall only_looks (map (fun g => DRequest (HRead g rd) None) gs).
Proof. apply Forall_map, Forall_forall. intros g _. exact I. Qed.
Lemma looks_ident m : Forall only_looks (ident_request m).
Proof. unfold ident_request. destruct (m =? 0); repeat constructor. Qed.

Section Window.
  Context {St : Type} (a : honest St) (Hok : honest_ok a) (mem : N -> MemoryRead -> verdict).
  Implicit Type w : world St.
  Local Notation sp := (honest_sp a).
  Let ids := ident_told mem.
  Definition one_read (rd : MemoryRead) : N -> list N + TransceiverError :=
    and_then ids (told (fun x => x) (fun i => mem i rd)).

  Lemma read_step w m rd : mask_ok m = true -> 1 <= rd_len rd <= 255 -> reads_as a (w_sp w) mem ->
    (all_speak m ids (rd_page rd) /\
     exists r w' ds, ctl_read sp m rd w = (w', Ok r) /\ rrep m (one_read rd) r /\ reads_as a (w_sp w') mem /\
       grew w w' ds /\ Forall only_looks ds) \/
    (exists i id w' ds, lowest_other m ids (rd_page rd) i id /\
       ctl_read sp m rd w = (w', Err (ETransceiver (TeInvalidInterfaceForModule i id (page_interface (rd_page rd))))) /\
       grew w w' ds /\ Forall only_looks ds).
  Proof.
    intros Hm Hl Hr. destruct (Nat.eqb_spec (m_count m) 0) as [Hz|Hz].
    - apply count0 in Hz; [|exact Hm]. subst m. left. split.
      { intros i id Hi. rewrite member_testbit, N.bits_0 in Hi. discriminate. }
      eexists _, w, []. split; [reflexivity|]. split; [apply rrep_empty|]. split; [exact Hr|]. split; [apply grew_refl|constructor].
    - destruct (honest_identifier_mem a Hok w m mem Hm Hr) as (ri & w1 & E1 & R1 & L1 & A1). fold ids in R1.
      assert (Unf : ctl_read sp m rd w =
        cbind (identifier sp m) (fun ident =>
          cbind (cret (verify_ids_for_page (rd_page rd) (mr_modules ident) (mr_data ident))) (fun _ =>
          cbind (read_impl sp (mr_modules ident) rd) (fun r =>
          cret (Ok (mkResult (mr_modules r) (mr_data r) (failed_merge (mr_failures ident) (mr_failures r))))))) w).
      { unfold ctl_read. destruct (Nat.eqb_spec (m_count m) 0); [contradiction|].
        destruct (N.eqb_spec (rd_len rd) 0); [lia|]. reflexivity. }
      destruct (verify_report (rd_page rd) m _ ri R1) as [[Ev Hall]|(i & id & Ev & Hlow)].
      + left. split; [exact Hall|].
        destruct (honest_read_impl a Hok mem rd Hl w1 (mr_modules ri) A1 (rrep_mask_ok _ _ _ R1))
          as (r & w2 & gs & E2 & R2 & A2 & L2 & C2 & F2).
        eexists _, w2, _. split.
        { rewrite Unf. erewrite cbind_ok by exact E1. rewrite Ev. erewrite cbind_ok by reflexivity.
          erewrite cbind_ok by exact E2. reflexivity. }
        split; [eapply rrep_chain; eassumption|]. split; [exact A2|]. split; [eapply grew_trans; eassumption|].
        apply Forall_app. split; [apply looks_ident|apply looks_reads].
      + right. exists i, id, w1, (ident_request m). split; [exact Hlow|]. split; [|split; [exact L1|apply looks_ident]].
        rewrite Unf. erewrite cbind_ok by exact E1. rewrite Ev. erewrite cbind_err by reflexivity. reflexivity.
  Qed.
  Lemma speak_lowest m p i id : all_speak m ids p -> lowest_other m ids p i id -> False.
  Proof. intros H (Hm & Hi & Hn & _). apply Hn. exact (H i id Hm Hi). Qed.

  (** What was read after each operation. *)
  Definition after (acc : N -> list N + TransceiverError) (rds : list MemoryRead) : N -> list N + TransceiverError :=
    fold_left (fun f rd => both f (one_read rd)) rds acc.
  Definition good_at (m : N) (f : N -> list N + TransceiverError) : Prop :=
    forall i, N.testbit m i = true -> exists x, f i = inl x.
  Lemma good_dec m f : mask_ok m = true -> good_at m f \/ exists i e, N.testbit m i = true /\ f i = inr e.
  Proof.
    intros Hm. destruct (forallb (fun i => match f i with inl _ => true | _ => false end) (to_indices m)) eqn:E.
    - left. intros i Hi. rewrite forallb_forall in E. rewrite <- in_to_indices_ok in Hi by exact Hm. apply E in Hi.
      destruct (f i); [eauto|discriminate].
    - right. apply not_true_iff_false in E. rewrite forallb_forall in E.
      assert (X : exists i, In i (to_indices m) /\ match f i with inl _ => false | _ => true end = true).
      { clear -E. induction (to_indices m) as [|i l IH].
        - exfalso. apply E. intros x [].
        - destruct (f i) eqn:F.
          + destruct IH as (j & Hj & Hf); [|exists j; split; [now right|exact Hf]]. intros H. apply E. intros x [<-|Hx]; [now rewrite F|auto].
          + exists i. split; [now left|now rewrite F]. }
      destruct X as (i & Hi & Hf). destruct (f i) as [|e] eqn:F; [discriminate|]. exists i, e. split; [|exact F].
      now apply in_to_indices_ok in Hi.
  Qed.

  (** No module fails before the last operation. *)
  Definition early (m : N) (acc : N -> list N + TransceiverError) (rds : list MemoryRead) : Prop :=
    forall pre rd post, rds = pre ++ rd :: post -> good_at m (after acc pre).
  Lemma loop_ok m p rds : mask_ok m = true -> Forall (fun rd => 1 <= rd_len rd <= 255 /\ rd_page rd = p) rds ->
    all_speak m ids p -> forall w acc r, reads_as a (w_sp w) mem -> rrep m acc r ->
    exists w' ds, grew w w' ds /\ Forall only_looks ds /\
    ((early m acc rds /\ exists r', read_loop sp m rds r w = (w', Ok r') /\ rrep m (after acc rds) r') \/
     (~ early m acc rds /\ read_loop sp m rds r w = (w', Panic))).
  Proof.
    intros Hm. induction rds as [|rd rds IH]; intros Hf Hsp w acc r Hr R.
    - exists w, []. split; [apply grew_refl|]. split; [constructor|]. left. split; [|exists r; split; [reflexivity|exact R]].
      intros pre rd post E. destruct pre; discriminate.
    - pose proof (Forall_inv Hf) as (Hl & Hp). apply Forall_inv_tail in Hf.
      destruct (read_step w m rd Hm Hl Hr) as [(_ & s & w1 & ds & E1 & R1 & A1 & L1 & O1)|(i & id & w1 & ds & Low & _)].
      2:{ exfalso. rewrite Hp in Low. exact (speak_lowest _ _ _ _ Hsp Low). }
      destruct (good_dec m acc Hm) as [G|(i & e & Hi & He)].
      + destruct (append_reports m acc (one_read rd) r s R R1 G) as (t & Et & Rt).
        destruct (IH Hf Hsp w1 _ t A1 Rt) as (w' & ds' & L2 & O2 & IH').
        exists w', (ds ++ ds'). split; [eapply grew_trans; eassumption|]. split; [apply Forall_app; now split|].
        assert (Un : read_loop sp m (rd :: rds) r w = read_loop sp m rds t w1).
        { cbn [read_loop]. erewrite cbind_ok by exact E1. rewrite Et. erewrite cbind_ok by reflexivity. reflexivity. }
        rewrite Un.
        assert (Eq : early m acc (rd :: rds) <-> early m (both acc (one_read rd)) rds).
        { split; intros H pre rd' post E.
          - specialize (H (rd :: pre) rd' post). cbn in H. rewrite E in H. exact (H eq_refl).
          - destruct pre as [|x pre]; [exact G|]. cbn in E. injection E as <- E. exact (H pre rd' post E). }
        rewrite Eq. exact IH'.
      + exists w1, ds. split; [exact L1|]. split; [exact O1|]. right. split.
        * intros H. destruct (H [] rd rds eq_refl i Hi) as (x & Hx). cbn in Hx. congruence.
        * cbn [read_loop]. erewrite cbind_ok by exact E1.
          rewrite (append_fails m acc (one_read rd) r s i e R R1 Hi He). reflexivity.
  Qed.

  Lemma after_at acc rds : forall i, after acc rds i =
    match acc i with
    | inr e => inr e
    | inl x => match rds with
               | [] => inl x
               | _ => match ids i with
                      | inr e => inr e
                      | inl _ => match gather mem i rds with inl ds => inl (x ++ List.concat ds) | inr e => inr e end
                      end
               end
    end.
  Proof.
    revert acc. induction rds as [|rd rds IH]; intros acc i; [cbn; now destruct (acc i)|].
    unfold after in *. cbn [fold_left]. rewrite IH. cbn [gather]. unfold both, one_read, and_then, told.
    destruct (acc i) as [x|e]; [|reflexivity]. destruct (ids i) as [id|e]; [|reflexivity].
    destruct (mem i rd) as [d|b]; [|now destruct rds]. destruct rds as [|rd' rds].
    - cbn. now rewrite app_nil_r.
    - destruct (gather mem i (rd' :: rds)); [|reflexivity]. cbn [List.concat]. now rewrite app_assoc.
  Qed.
  Lemma gather_good i rds : (exists ds, gather mem i rds = inl ds) <-> Forall (fun rd => is_good (mem i rd) = true) rds.
  Proof.
    induction rds as [|rd rds IH]; cbn [gather]; [split; [constructor|eauto]|].
    destruct (mem i rd) as [d|b] eqn:E.
    - split.
      + intros (ds & H). constructor; [now rewrite E|]. apply IH. destruct (gather mem i rds); [eauto|discriminate].
      + intros H. apply Forall_inv_tail, IH in H. destruct H as (ds & ->). eauto.
    - split; [intros (ds & H); discriminate|]. intros H. apply Forall_inv in H. rewrite E in H. discriminate.
  Qed.
  Lemma early_start m rds : early m (fun _ => inl []) rds <-> (forall i, member i m -> early_ok mem i rds).
  Proof.
    assert (A : forall i pre, pre <> [] -> (exists x, after (fun _ => inl []) pre i = inl x) <->
              (exists id, ids i = inl id) /\ Forall (fun rd => is_good (mem i rd) = true) pre).
    { intros i pre Hn. rewrite after_at. rewrite <- gather_good. destruct pre as [|rd pre]; [congruence|].
      destruct (ids i) as [id|e].
      - destruct (gather mem i (rd :: pre)) as [ds|e]; [split; eauto|]. split; [intros (x & H); discriminate|]. intros (_ & x & H). discriminate.
      - split; [intros (x & H); discriminate|]. intros ((id & H) & _). discriminate. }
    split.
    - intros H i Hi before last E Hn. apply A; [exact Hn|]. apply (H before last [] E). now apply member_testbit.
    - intros H pre rd post E i Hi. apply member_testbit in Hi. specialize (H i Hi).
      destruct pre as [|x pre]; [cbn; eauto|]. apply A; [discriminate|].
      destruct (exists_last (l := rd :: post)) as (q & z & Hq); [intro Hx; discriminate Hx|].
      specialize (H ((x :: pre) ++ q) z). rewrite <- app_assoc, <- Hq in H. specialize (H E).
      destruct H as (Hid & Hg); [discriminate|]. split; [exact Hid|]. apply Forall_app in Hg. tauto.
  Qed.

  Context (content : N -> Page -> N -> N) (Hc : shows mem content).
  Lemma gather_content i p rds ds : Forall (fun rd => rd_page rd = p) rds -> gather mem i rds = inl ds ->
    List.concat ds = map (content i p) (List.concat (map (fun r => nrange (rd_offset r) (N.to_nat (rd_len r))) rds)).
  Proof.
    intros H. revert ds. induction H as [|rd rds Hp _ IH]; intros ds; cbn [gather]; [intros [= <-]; reflexivity|].
    destruct (mem i rd) as [d|b] eqn:E; [|discriminate]. destruct (gather mem i rds) as [ds'|]; [|discriminate].
    intros [= <-]. cbn [List.concat map]. rewrite map_app, (IH ds' eq_refl). apply Hc in E. rewrite Hp in E. now rewrite E.
  Qed.

  Theorem cmd_read_correct w m p offset len rds : m < 2 ^ 64 -> offset < 256 -> 1 <= len < 256 ->
    reads_as a (w_sp w) mem -> build_many_reads p offset len = Ok rds ->
    Forall only_looks (deeds (cmd_read sp m (Ok p) offset len) w) /\
    ((all_speak m ids p /\ (forall i, member i m -> early_ok mem i rds) /\
      exists r, snd (cmd_read sp m (Ok p) offset len w) = Ok (Some r) /\
        reports m (window_says mem content p offset len rds) r) \/
     (all_speak m ids p /\ ~ (forall i, member i m -> early_ok mem i rds) /\
      snd (cmd_read sp m (Ok p) offset len w) = Panic) \/
     (exists i id, lowest_other m ids p i id /\
      snd (cmd_read sp m (Ok p) offset len w) =
        Err (ETransceiver (TeInvalidInterfaceForModule i id (page_interface p))))).
  Proof.
    intros Hm Ho Hl Hr Hb. rewrite <- mask_ok_lt in Hm.
    destruct (build_many_reads_correct p offset len rds Ho ltac:(lia) Hb) as (Tile & Each).
    assert (Hrds : Forall (fun rd => 1 <= rd_len rd <= 255 /\ rd_page rd = p) rds).
    { apply Forall_forall. intros rd Hrd. destruct (Each rd Hrd) as (Hp & Ha & Hs). split; [|exact Hp].
      destruct Ha as (Ha & _). split; [lia|]. destruct p; cbn in Hs; lia. }
    assert (Hne : exists rd0 rest, rds = rd0 :: rest).
    { destruct rds; [|eauto]. apply (f_equal (@List.length N)) in Tile. rewrite nrange_length in Tile. cbn in Tile. lia. }
    destruct (start_reports (P := N) m Hm) as (r0 & E0 & R0).
    assert (Un : cmd_read sp m (Ok p) offset len w = cbind (read_loop sp m rds r0) (fun r => cret (Ok (Some r))) w).
    { unfold cmd_read. destruct (N.eqb_spec len 0); [lia|]. erewrite cbind_ok by reflexivity. rewrite Hb.
      erewrite cbind_ok by reflexivity. rewrite E0. erewrite cbind_ok by reflexivity. reflexivity. }
    destruct Hne as (rd0 & rest & Hne). pose proof Hrds as Hrds0. rewrite Hne in Hrds0. destruct (Forall_inv Hrds0) as (Hl0 & Hp0).
    destruct (read_step w m rd0 Hm Hl0 Hr) as [(Hsp & _)|(i & id & w' & ds & Low & E & L & O)].
    - rewrite Hp0 in Hsp. destruct (loop_ok m p rds Hm Hrds Hsp w _ r0 Hr R0) as (w' & ds & L & O & [(He & r & E & R)|(He & E)]).
      + assert (E' : cmd_read sp m (Ok p) offset len w = (w', Ok (Some r))) by (rewrite Un; erewrite cbind_ok by exact E; reflexivity).
        split; [erewrite deeds_grew by eassumption; exact O|]. left. split; [exact Hsp|]. split; [now apply early_start|].
        exists r. split; [now rewrite E'|]. apply rrep_reports. eapply rrep_ext; [|exact R]. intros i _.
        rewrite after_at, Hne. rewrite <- Hne. cbv beta. unfold window_says. fold ids. destruct (ids i); [|reflexivity].
        destruct (gather mem i rds) as [ds'|] eqn:G; [|reflexivity]. f_equal. cbn [app]. rewrite <- Tile.
        apply gather_content; [|exact G]. eapply Forall_impl; [|exact Hrds]. cbv beta. tauto.
      + assert (E' : cmd_read sp m (Ok p) offset len w = (w', Panic)).
        { rewrite Un. unfold cbind. rewrite E. reflexivity. }
        split; [erewrite deeds_grew by eassumption; exact O|]. right. left. split; [exact Hsp|]. split; [|now rewrite E'].
        intros X. apply He. now apply early_start.
    - assert (E' : cmd_read sp m (Ok p) offset len w =
        (w', Err (ETransceiver (TeInvalidInterfaceForModule i id (page_interface p))))).
      { rewrite Un, Hne. unfold cbind at 1. cbn [read_loop]. unfold cbind at 1. rewrite E, Hp0. reflexivity. }
      split; [erewrite deeds_grew by eassumption; exact O|]. right. right. exists i, id. rewrite <- Hp0 at 1. split; [exact Low|]. now rewrite E'.
  Qed.
End Window.
