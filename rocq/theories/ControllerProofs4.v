(** Proofs about the controller, part 4: reading, writing, resetting, powering off. *)
From Coq Require Import Permutation.
From Verif Require Export ControllerProofs3.

Lemma reads_as_now {St} (a : honest St) s mem m rd i : reads_as a s mem ->
  hs_verdict a s (HRead m rd) None i = mem i rd.
Proof. intros H. exact (H [] m rd i). Qed.
Lemma reads_as_read {St} (a : honest St) s mem m rd : reads_as a s mem ->
  reads_as a (hs_next a s (HRead m rd) None) mem.
Proof. intros H before m' rd' i. exact (H ((m, rd) :: before) m' rd' i). Qed.

Lemma told_ext {P} (dec : list N -> P) f g i : f i = g i -> told dec f i = told dec g i.
Proof. unfold told. now intros ->. Qed.

Lemma rrep_empty {P} (f : N -> P + TransceiverError) : rrep 0 f (mkResult 0 [] failed_success).
Proof.
  split; [split; split; reflexivity|]. intros i. rewrite N.bits_0. split; reflexivity.
Qed.
Lemma count0 m : mask_ok m = true -> (m_count m = 0%nat <-> m = 0).
Proof.
  intros Hm. rewrite <- (m_is_empty_spec m Hm). unfold m_is_empty. now rewrite Nat.eqb_eq.
Qed.

(** Reports only depend on the set. *)
Lemma rrep_map {P Q} (g : P -> Q) m f (r : Result P) : rrep m f r ->
  rrep m (fun i => match f i with inl x => inl (g x) | inr e => inr e end)
       (mkResult (mr_modules r) (map g (mr_data r)) (mr_failures r)).
Proof.
  intros [[[A1 A2] F] R]. split.
  - split; [split|]; cbn; [exact A1|now rewrite map_length|exact F].
  - intros i. destruct (R i) as [G E]. unfold rget, rerr in *. cbn. rewrite get_map, G, E.
    destruct (N.testbit m i), (f i); auto.
Qed.

Section Reads.
  Context {St : Type} (a : honest St) (Hok : honest_ok a).
  Implicit Type w : world St.
  Local Notation sp := (honest_sp a).

  Section Memory.
    Context (mem : N -> MemoryRead -> verdict) (rd : MemoryRead) (Hlen : 1 <= rd_len rd <= 255).
    Let F := told (fun x : list N => x) (fun i => mem i rd).
    Let ok g := g <> 0 /\ mask_ok g = true /\ fits_in_one_message g rd = true.

    Lemma read_one w m : reads_as a (w_sp w) mem -> ok m ->
      exists r w', read_impl_one_message sp m rd w = (w', Ok r) /\ rrep m F r /\
        reads_as a (w_sp w') mem /\ grew w w' [DRequest (HRead m rd) None].
    Proof.
      intros Hr (_ & Hm & Hf). destruct (honest_read_one a Hok w m rd) as (r & E & R); [lia|assumption|assumption|].
      exists r, (next a w (HRead m rd) None). split; [exact E|]. split.
      - eapply rrep_ext; [|exact R]. intros i _. apply told_ext. apply (reads_as_now _ _ _ _ _ _ Hr).
      - split; [|apply grew_next]. rewrite next_sp. now apply reads_as_read.
    Qed.

    Lemma honest_read_rest gs : forall w m0 r0,
      reads_as a (w_sp w) mem -> Forall ok gs ->
      NoDup (to_indices m0 ++ concat (map to_indices gs)) -> mask_ok m0 = true -> rrep m0 F r0 ->
      exists r w', read_rest sp gs rd r0 w = (w', Ok r) /\ rrep (fold_left N.lor gs m0) F r /\
        reads_as a (w_sp w') mem /\ grew w w' (map (fun g => DRequest (HRead g rd) None) gs).
    Proof.
      induction gs as [|g gs IH]; intros w m0 r0 Hr Hg Hd Hm0 Hr0.
      - exists r0, w. cbn. split; [reflexivity|]. split; [exact Hr0|]. split; [exact Hr|]. apply grew_refl.
      - pose proof (Forall_inv Hg) as Hg1. apply Forall_inv_tail in Hg.
        destruct (read_one w g Hr Hg1) as (r1 & w1 & E1 & R1 & A1 & L1).
        destruct (rrep_merge m0 g F r0 r1 Hr0 R1) as (r2 & E2 & R2).
        { apply N.bits_inj_0. intros i. rewrite N.land_spec. apply not_true_iff_false.
          rewrite andb_true_iff. intros [B0 B1]. rewrite <- in_to_indices_ok in B0, B1 by (apply Hg1 || assumption).
          clear -Hd B0 B1. cbn [map concat] in Hd. induction (to_indices m0) as [|x l IHl]; [destruct B0|].
          cbn in Hd. inversion Hd as [|? ? N1 N2]; subst. destruct B0 as [->|B0]; [|auto].
          apply N1. apply in_or_app. right. apply in_or_app. now left. }
        assert (Hmk : mask_ok (N.lor m0 g) = true) by (rewrite mask_ok_lor, Hm0; apply Hg1).
        destruct (IH w1 (N.lor m0 g) r2 A1 Hg) as (r & w' & E & R & A & L); [|exact Hmk|exact R2|].
        { cbn [map concat] in Hd. rewrite app_assoc in Hd. eapply Permutation_NoDup; [|exact Hd].
          apply Permutation_app_tail. apply NoDup_Permutation.
          - rewrite (app_assoc (to_indices m0) (to_indices g)) in Hd || idtac.
            clear -Hd. induction (to_indices m0 ++ to_indices g) as [|x l IHl]; [constructor|].
            cbn in Hd. inversion Hd as [|? ? N1 N2]; subst. constructor; [|auto].
            intros X. apply N1, in_or_app. now left.
          - apply to_indices_nodup.
          - intros i. rewrite in_app_iff, !in_to_indices_ok, N.lor_spec, orb_true_iff by (apply Hg1 || assumption).
            reflexivity. }
        exists r, w'. cbn [read_rest]. erewrite cbind_ok by exact E1. rewrite E2.
        erewrite cbind_ok by reflexivity. split; [exact E|]. cbn [fold_left]. split; [exact R|]. split; [exact A|].
        cbn [map]. change (DRequest (HRead g rd) None :: map (fun g => DRequest (HRead g rd) None) gs)
          with ([DRequest (HRead g rd) None] ++ map (fun g => DRequest (HRead g rd) None) gs).
        eapply grew_trans; eassumption.
    Qed.

    Lemma fold_lor_groups gs m0 i :
      N.testbit (fold_left N.lor gs m0) i = N.testbit m0 i || existsb (fun g => N.testbit g i) gs.
    Proof.
      revert m0. induction gs as [|g gs IH]; intros m0; cbn; [now rewrite orb_false_r|].
      rewrite IH, N.lor_spec. now rewrite orb_assoc.
    Qed.

    Lemma honest_read_impl w m : reads_as a (w_sp w) mem -> mask_ok m = true ->
      exists r w' gs, read_impl sp m rd w = (w', Ok r) /\ rrep m F r /\ reads_as a (w_sp w') mem /\
        grew w w' (map (fun g => DRequest (HRead g rd) None) gs) /\
        concat (map to_indices gs) = to_indices m /\ Forall ok gs.
    Proof.
      intros Hr Hm. unfold read_impl. destruct (Nat.eqb_spec (m_count m) 0) as [Hz|Hz].
      - apply count0 in Hz; [|exact Hm]. subst m. cbn [orb]. eexists _, w, [].
        split; [reflexivity|]. split; [apply rrep_empty|]. split; [exact Hr|]. split; [apply grew_refl|].
        split; [reflexivity|constructor].
      - destruct (N.eqb_spec (rd_len rd) 0) as [|_]; [lia|]. cbn [orb].
        destruct (split_spec m rd Hm Hlen) as (gs & Es & Ec & Fg & _). rewrite Es.
        erewrite cbind_ok by reflexivity. destruct gs as [|g gs].
        { exfalso. apply Hz. rewrite count_to_indices, <- Ec by exact Hm. reflexivity. }
        pose proof (Forall_inv Fg) as Hg1. pose proof (Forall_inv_tail Fg) as Hg2.
        destruct (read_one w g Hr Hg1) as (r1 & w1 & E1 & R1 & A1 & L1).
        destruct (honest_read_rest gs w1 g r1 A1 Hg2) as (r & w' & E & R & A & L); [|apply Hg1|exact R1|].
        { cbn [map concat] in Ec. rewrite Ec. apply to_indices_nodup. }
        exists r, w', (g :: gs). erewrite cbind_ok by exact E1. split; [exact E|]. split; [|split; [exact A|]].
        + replace m with (fold_left N.lor gs g); [exact R|]. apply mask_ext. intros i. rewrite fold_lor_groups.
          apply eq_true_iff_eq. rewrite <- (in_to_indices_ok m) by exact Hm. rewrite <- Ec.
          cbn [map concat]. rewrite in_app_iff, in_concat, orb_true_iff, existsb_exists.
          rewrite in_to_indices_ok by apply Hg1. split; (intros [H|H]; [now left|right]).
          * destruct H as (g' & Hg' & Hb). exists (to_indices g'). split; [now apply in_map|].
            apply in_to_indices_ok; [|exact Hb]. rewrite Forall_forall in Hg2. now apply Hg2.
          * destruct H as (l & Hl & Hi). apply in_map_iff in Hl. destruct Hl as (g' & <- & Hg').
            exists g'. split; [exact Hg'|]. apply in_to_indices_ok in Hi; [exact Hi|].
            rewrite Forall_forall in Hg2. now apply Hg2.
        + split; [|split; [exact Ec|exact Fg]]. cbn [map].
          change (DRequest (HRead g rd) None :: map (fun g => DRequest (HRead g rd) None) gs)
            with ([DRequest (HRead g rd) None] ++ map (fun g => DRequest (HRead g rd) None) gs).
          eapply grew_trans; eassumption.
    Qed.
  End Memory.

  (** The identifier read is a single message. *)
  Lemma honest_identifier w m : mask_ok m = true ->
    exists r w', identifier sp m w = (w', Ok r) /\ rrep m (ids_seen a w m) r /\
      grew w w' (ident_request m) /\
      w_sp w' = (if m =? 0 then w_sp w else hs_next a (w_sp w) (HRead m ident_read) None).
  Proof.
    intros Hm. unfold ident_request. destruct (N.eqb_spec m 0) as [->|Hz].
    - eexists _, w. split; [reflexivity|]. split; [apply rrep_empty|]. split; [apply grew_refl|reflexivity].
    - pose proof (honest_documented a Hok w (HRead m ident_read) None) as D. cbn [response_to request_modules] in D.
      apply raw_identifier in D; [|now apply mask_ok_lt|exact Hz|reflexivity].
      eexists _, _. split; [exact D|]. split; [|split; [apply grew_stepped|reflexivity]].
      apply (rrep_told m (fun x => ident_of_byte (hd 0 x)) (vd a w (HRead m ident_read) None) Hm).
  Qed.
  Lemma honest_identifier_mem w m mem : mask_ok m = true -> reads_as a (w_sp w) mem ->
    exists r w', identifier sp m w = (w', Ok r) /\ rrep m (ident_told mem) r /\
      grew w w' (ident_request m) /\ reads_as a (w_sp w') mem.
  Proof.
    intros Hm Hr. destruct (honest_identifier w m Hm) as (r & w' & E & R & L & S).
    exists r, w'. split; [exact E|]. split; [|split; [exact L|]].
    - eapply rrep_ext; [|exact R]. intros i _. unfold ids_seen, ident_told. apply told_ext.
      exact (reads_as_now _ _ _ _ _ _ Hr).
    - rewrite S. destruct (m =? 0); [exact Hr|now apply reads_as_read].
  Qed.
End Reads.

(** ** C31 *)
Lemma named_eqb x y : benum_eqb (Named x) (Named y) = (x =? y).
Proof. reflexivity. Qed.

Lemma ident_matches_speaks id p : ident_matches (page_interface p) id = true <-> speaks id p.
Proof.
  unfold speaks, management_interface, ident_matches, is_sff, is_cmis.
  destruct p as [p|p]; cbn [page_interface];
    destruct (benum_eqb id QsfpPlusSff8636) eqn:E1, (benum_eqb id Qsfp28) eqn:E2,
             (benum_eqb id QsfpPlusCmis) eqn:E3, (benum_eqb id QsfpDD) eqn:E4;
    cbn [orb]; split; intros H; try reflexivity; try discriminate;
    destruct id as [n|? ?]; cbn in *; try discriminate; apply N.eqb_eq in E1 || apply N.eqb_eq in E2;
    subst; discriminate.
Qed.

Lemma find_none_iff {A} (f : A -> bool) l : find f l = None <-> forall x, In x l -> f x = false.
Proof.
  split; [apply find_none|]. intros H. destruct (find f l) as [x|] eqn:E; [|reflexivity].
  apply find_some in E. destruct E as [Hi Hf]. now rewrite (H x Hi) in Hf.
Qed.

Lemma find_split {A} (f : A -> bool) l x : find f l = Some x ->
  exists p q, l = p ++ x :: q /\ f x = true /\ forall y, In y p -> f y = false.
Proof.
  induction l as [|y l IH]; cbn; [discriminate|]. destruct (f y) eqn:E.
  - intros H. injection H as ->. exists [], l. cbn. intuition.
  - intros H. destruct (IH H) as (p & q & -> & Hx & Hp). exists (y :: p), q. split; [reflexivity|].
    split; [exact Hx|]. intros z [<-|Hz]; auto.
Qed.

Definition mismatch (p : Page) (i : N) (id : Identifier) : Error :=
  ETransceiver (TeInvalidInterfaceForModule i id (page_interface p)).

Lemma verify_spec p m ids : aligned m ids ->
  (verify_ids_for_page p m ids = Ok tt /\ (forall i id, get m ids i = Some id -> speaks id p)) \/
  (exists i id, verify_ids_for_page p m ids = Err (mismatch p i id) /\ get m ids i = Some id /\
     ~ speaks id p /\ forall j id', j < i -> get m ids j = Some id' -> speaks id' p).
Proof.
  intros Ha. unfold verify_ids_for_page.
  assert (Ev : forall (x y : outcome Error unit),
    match page_interface p with UnknownInterface _ => x | _ => y end = y) by (destruct p; reflexivity).
  cbv zeta. rewrite Ev.
  destruct (find _ _) as [[i id]|] eqn:E.
  - right. exists i, id. split; [reflexivity|]. destruct (find_split _ _ _ E) as (l1 & l2 & El & Hf & Hl).
    cbn [snd] in Hf. apply negb_true_iff in Hf.
    assert (Hn : NoDup (map fst (zip_data m ids))) by apply zip_nodup.
    split; [|split].
    + unfold get. apply in_lookup; [exact Hn|]. rewrite El. apply in_or_app. right. now left.
    + intros K. apply ident_matches_speaks in K. congruence.
    + intros j id' Hj Hg. unfold get in Hg. apply lookup_in in Hg. rewrite El in Hg.
      apply ident_matches_speaks. apply in_app_or in Hg. destruct Hg as [Hg|Hg].
      * specialize (Hl _ Hg). cbn in Hl. now apply negb_false_iff in Hl.
      * exfalso. pose proof (zip_sorted m ids) as Hs. rewrite El, map_app in Hs.
        apply sorted_app_inv in Hs. destruct Hs as (_ & Hs & _). cbn [map fst] in Hs.
        destruct Hg as [Hg|Hg]; [injection Hg; intros; subst; lia|].
        inversion Hs as [|? ? _ Hf2]; subst. rewrite Forall_forall in Hf2.
        specialize (Hf2 j (in_map fst _ _ Hg)). lia.
  - left. split; [reflexivity|]. intros i id Hg. unfold get in Hg. apply lookup_in in Hg.
    rewrite find_none_iff in E. specialize (E _ Hg). cbn in E. apply negb_false_iff in E.
    now apply ident_matches_speaks.
Qed.

(** In terms of a report of the identifiers. *)
Lemma verify_report p m ids (r : Result Identifier) : rrep m ids r ->
  (verify_ids_for_page p (mr_modules r) (mr_data r) = Ok tt /\ all_speak m ids p) \/
  (exists i id, verify_ids_for_page p (mr_modules r) (mr_data r) = Err (mismatch p i id) /\
     lowest_other m ids p i id).
Proof.
  intros [[Ha _] R]. assert (G : forall i x, get (mr_modules r) (mr_data r) i = Some x <->
    N.testbit m i = true /\ ids i = inl x).
  { intros i x. destruct (R i) as [Gi _]. unfold rget in Gi. rewrite Gi.
    destruct (N.testbit m i), (ids i); intuition congruence. }
  destruct (verify_spec p _ _ Ha) as [[E H]|(i & id & E & Hi & Hs & Hl)].
  - left. split; [exact E|]. intros i id Hm Hid. rewrite member_testbit in Hm. apply (H i). apply G. auto.
  - right. exists i, id. split; [exact E|]. unfold lowest_other. rewrite member_testbit.
    apply G in Hi. repeat split; try tauto. intros j id' Hj Hm Hid. rewrite member_testbit in Hm.
    apply (Hl j id' Hj). apply G. auto.
Qed.
Lemma lowest_not_all m ids p i id : lowest_other m ids p i id -> ~ all_speak m ids p.
Proof. intros (H1 & H2 & H3 & _) K. apply H3. eapply K; eassumption. Qed.

Lemma rrep_passed {P} m (f : N -> P + TransceiverError) r : mask_ok m = true -> rrep m f r ->
  mr_modules r = passed m f.
Proof.
  intros Hm H. apply mask_ext. intros i. rewrite (rrep_modules _ _ _ i H). unfold passed.
  rewrite port_mask_spec, existsb_filter_ports.
  destruct (N.testbit m i) eqn:E; [|now rewrite andb_false_r].
  assert (Hi : i <? 64 = true) by (apply N.ltb_lt; now apply (proj1 (mask_ok_testbit m) Hm)).
  rewrite Hi. reflexivity.
Qed.
Lemma passed_ok {P} m (f : N -> P + TransceiverError) : mask_ok (passed m f) = true.
Proof. apply port_mask_ok, filter_ports_lt. Qed.

(** ** C29, C30 *)
Section ReadWrite.
  Context {St : Type} (a : honest St) (Hok : honest_ok a).
  Implicit Type w : world St.
  Local Notation sp := (honest_sp a).

  Lemma read_correct w m rd mem : m < 2 ^ 64 -> 1 <= rd_len rd <= 255 -> reads_as a (w_sp w) mem ->
    (all_speak m (ident_told mem) (rd_page rd) /\
     exists r gs, snd (ctl_read sp m rd w) = Ok r /\
       reports m (and_then (ident_told mem) (told (fun x => x) (fun i => mem i rd))) r /\
       deeds (ctl_read sp m rd) w = ident_request m ++ map (fun g => DRequest (HRead g rd) None) gs /\
       concat (map to_indices gs) = to_indices (passed m (ident_told mem)) /\
       Forall (fun g => g < 2 ^ 64 /\
                        (length (to_indices g) * N.to_nat (rd_len rd) <= 1024)%nat) gs) \/
    (exists i id, lowest_other m (ident_told mem) (rd_page rd) i id /\
       snd (ctl_read sp m rd w) =
         Err (ETransceiver (TeInvalidInterfaceForModule i id (page_interface (rd_page rd)))) /\
       deeds (ctl_read sp m rd) w = ident_request m).
  Proof.
    intros Hm Hl Hr. rewrite <- mask_ok_lt in Hm.
    destruct (Nat.eqb_spec (m_count m) 0) as [Hz|Hz].
    - apply count0 in Hz; [|exact Hm]. subst m. left. split.
      { intros i id Hi. rewrite member_testbit, N.bits_0 in Hi. discriminate. }
      eexists _, []. split; [reflexivity|]. split; [apply rrep_reports, rrep_empty|].
      split; [eapply deeds_grew; [reflexivity|apply grew_refl]|]. split; [reflexivity|constructor].
    - destruct (honest_identifier_mem a Hok w m mem Hm Hr) as (ri & w1 & E1 & R1 & L1 & A1).
      assert (Unf : ctl_read sp m rd w =
        cbind (identifier sp m) (fun ident =>
          cbind (cret (verify_ids_for_page (rd_page rd) (mr_modules ident) (mr_data ident))) (fun _ =>
          cbind (read_impl sp (mr_modules ident) rd) (fun r =>
          cret (Ok (mkResult (mr_modules r) (mr_data r) (failed_merge (mr_failures ident) (mr_failures r))))))) w).
      { unfold ctl_read. destruct (Nat.eqb_spec (m_count m) 0); [contradiction|].
        destruct (N.eqb_spec (rd_len rd) 0); [lia|]. reflexivity. }
      destruct (verify_report (rd_page rd) m _ ri R1) as [[Ev Hall]|(i & id & Ev & Hlow)].
      + left. split; [exact Hall|].
        destruct (honest_read_impl a Hok mem rd Hl w1 (mr_modules ri) A1 (rrep_mask_ok _ _ _ R1))
          as (r & w2 & gs & E2 & R2 & A2 & L2 & C2 & F2).
        assert (E : ctl_read sp m rd w = (w2, Ok (mkResult (mr_modules r) (mr_data r)
                      (failed_merge (mr_failures ri) (mr_failures r))))).
        { rewrite Unf. erewrite cbind_ok by exact E1. rewrite Ev. erewrite cbind_ok by reflexivity.
          erewrite cbind_ok by exact E2. reflexivity. }
        eexists _, gs. split; [rewrite E; reflexivity|]. split; [|split; [|split]].
        * apply rrep_reports. eapply rrep_chain; eassumption.
        * eapply deeds_grew; [exact E|]. eapply grew_trans; eassumption.
        * rewrite C2. f_equal. now apply rrep_passed.
        * eapply Forall_impl; [|exact F2]. intros g (_ & Hg & Hf). split; [now apply mask_ok_lt|].
          unfold fits_in_one_message in Hf. rewrite count_to_indices in Hf by exact Hg.
          now apply Nat.leb_le in Hf.
      + right. exists i, id. split; [exact Hlow|].
        assert (E : ctl_read sp m rd w = (w1, Err (mismatch (rd_page rd) i id))).
        { rewrite Unf. erewrite cbind_ok by exact E1. rewrite Ev. erewrite cbind_err by reflexivity. reflexivity. }
        split; [rewrite E; reflexivity|]. eapply deeds_grew; eassumption.
  Qed.

  Lemma write_correct w m wr data (ids := ids_seen a w m) : m < 2 ^ 64 ->
    (all_speak m ids (wr_page wr) /\ wr_len wr = Nlen data /\
     exists r s, snd (ctl_write sp m wr data w) = Ok r /\
       deeds (ctl_write sp m wr data) w =
         ident_request m ++ [DRequest (HWrite (passed m ids) wr) (Some data)] /\
       s = (if m =? 0 then w_sp w else hs_next a (w_sp w) (HRead m ident_read) None) /\
       reports m (and_then ids (told (fun _ => tt)
                    (hs_verdict a s (HWrite (passed m ids) wr) (Some data)))) r) \/
    (all_speak m ids (wr_page wr) /\ wr_len wr <> Nlen data /\
     snd (ctl_write sp m wr data w) = Err (EInvalidWriteData (wr_len wr) (Nlen data)) /\
     deeds (ctl_write sp m wr data) w = ident_request m) \/
    (exists i id, lowest_other m ids (wr_page wr) i id /\
       snd (ctl_write sp m wr data w) =
         Err (ETransceiver (TeInvalidInterfaceForModule i id (page_interface (wr_page wr)))) /\
       deeds (ctl_write sp m wr data) w = ident_request m).
  Proof.
    intros Hm. rewrite <- mask_ok_lt in Hm.
    destruct (honest_identifier a Hok w m Hm) as (ri & w1 & E1 & R1 & L1 & S1). fold ids in R1.
    destruct (verify_report (wr_page wr) m _ ri R1) as [[Ev Hall]|(i & id & Ev & Hlow)].
    - destruct (N.eqb_spec (wr_len wr) (Nlen data)) as [Hl|Hl].
      + left. split; [exact Hall|]. split; [exact Hl|].
        destruct (honest_write a Hok w1 (mr_modules ri) wr data Hl (rrep_mask_ok _ _ _ R1)) as (r & E2 & _ & R2).
        assert (E : ctl_write sp m wr data w = (next a w1 (HWrite (mr_modules ri) wr) (Some data),
                      Ok (ack_new (mr_modules r) (failed_merge (mr_failures ri) (mr_failures r))))).
        { unfold ctl_write. erewrite cbind_ok by exact E1. rewrite Ev. erewrite cbind_ok by reflexivity.
          erewrite cbind_ok by exact E2. reflexivity. }
        rewrite (rrep_passed m ids ri Hm R1) in *.
        eexists _, (w_sp w1). split; [rewrite E; reflexivity|].
        split; [eapply deeds_grew; [exact E|]; eapply grew_trans; [exact L1|apply grew_next]|].
        split; [exact S1|]. apply rrep_reports.
        rewrite <- (rrep_passed m ids ri Hm R1) in R2.
        pose proof (rrep_chain m ids _ ri r R1 R2) as C. rewrite ack_eq in C; [|apply R2].
        rewrite (rrep_passed m ids ri Hm R1) in C. exact C.
      + right. left. split; [exact Hall|]. split; [exact Hl|].
        assert (E : ctl_write sp m wr data w = (w1, Err (EInvalidWriteData (wr_len wr) (Nlen data)))).
        { unfold ctl_write. erewrite cbind_ok by exact E1. rewrite Ev. erewrite cbind_ok by reflexivity.
          unfold write_impl. destruct (N.eqb_spec (wr_len wr) (Nlen data)); [contradiction|]. reflexivity. }
        split; [rewrite E; reflexivity|]. eapply deeds_grew; eassumption.
    - right. right. exists i, id. split; [exact Hlow|].
      assert (E : ctl_write sp m wr data w = (w1, Err (mismatch (wr_page wr) i id))).
      { unfold ctl_write. erewrite cbind_ok by exact E1. rewrite Ev. erewrite cbind_err by reflexivity. reflexivity. }
      split; [rewrite E; reflexivity|]. eapply deeds_grew; eassumption.
  Qed.
End ReadWrite.

(** ** C34, C36 *)
Section Sequences.
  Context {St : Type} (a : honest St) (Hok : honest_ok a).
  Implicit Type w : world St.
  Local Notation sp := (honest_sp a).

  Lemma reset_correct w m :
    m < 2 ^ 64 ->
    let v1 := hs_verdict a (w_sp w) (HAssertReset m) None in
    let s1 := hs_next a (w_sp w) (HAssertReset m) None in
    let m1 := good_mask m v1 in
    let v2 := hs_verdict a s1 (HDeassertReset m1) None in
    deeds (reset sp m) w =
      [DRequest (HAssertReset m) None; DSleep T_RESET_INIT;
       DRequest (HDeassertReset m1) None; DSleep T_RESET] /\
    exists r, snd (reset sp m w) = Ok r /\
      reports m (and_then (told (fun _ => tt) v1) (told (fun _ => tt) v2)) r.
  Proof.
    intros Hm v1 s1 m1 v2. rewrite <- mask_ok_lt in Hm.
    destruct (honest_ack a Hok w (HAssertReset m) eq_refl (fun _ _ => eq_refl) Hm) as (r1 & E1 & M1 & R1).
    cbn [request_modules] in M1, R1. change (good_mask m (vd a w (HAssertReset m) None)) with m1 in M1.
    set (w1 := next a w (HAssertReset m) None) in *.
    set (w2 := mkWorld (w_sp w1) (w_counter w1) (w_log w1 ++ [ASleep T_RESET_INIT])).
    assert (Hm1 : mask_ok m1 = true) by apply good_mask_ok.
    destruct (honest_ack a Hok w2 (HDeassertReset m1) eq_refl (fun _ _ => eq_refl) Hm1) as (r2 & E2 & M2 & R2).
    cbn [request_modules] in R2.
    set (w3 := next a w2 (HDeassertReset m1) None) in *.
    set (w4 := mkWorld (w_sp w3) (w_counter w3) (w_log w3 ++ [ASleep T_RESET])).
    assert (E : reset sp m w = (w4, Ok (ack_new (mr_modules r2) (failed_merge (mr_failures r1) (mr_failures r2))))).
    { unfold reset, assert_reset, deassert_reset. erewrite cbind_ok by exact E1.
      erewrite cbind_ok by reflexivity. rewrite M1. fold w2. erewrite cbind_ok by exact E2.
      erewrite cbind_ok by reflexivity. reflexivity. }
    split.
    - eapply deeds_grew; [exact E|].
      change [DRequest (HAssertReset m) None; DSleep T_RESET_INIT; DRequest (HDeassertReset m1) None; DSleep T_RESET]
        with ([DRequest (HAssertReset m) None] ++ [DSleep T_RESET_INIT] ++
              [DRequest (HDeassertReset m1) None] ++ [DSleep T_RESET]).
      eapply grew_trans; [apply grew_next|]. eapply grew_trans; [apply grew_sleep|].
      eapply grew_trans; [apply grew_next|]. apply grew_sleep.
    - eexists. split; [rewrite E; reflexivity|]. apply rrep_reports. rewrite <- M1 in R2.
      pose proof (rrep_chain m _ _ r1 r2 R1 R2) as C. rewrite ack_eq in C; [|apply R2].
      rewrite M1 in C. exact C.
  Qed.

  Lemma power_off_correct w m :
    m < 2 ^ 64 ->
    let v1 := hs_verdict a (w_sp w) (HDeassertLpMode m) None in
    let s1 := hs_next a (w_sp w) (HDeassertLpMode m) None in
    let m1 := good_mask m v1 in
    let v2 := hs_verdict a s1 (HAssertReset m1) None in
    let s2 := hs_next a s1 (HAssertReset m1) None in
    let m2 := good_mask m1 v2 in
    let v3 := hs_verdict a s2 (HDisablePower m2) None in
    deeds (set_power sp m PowerOff) w =
      [DRequest (HDeassertLpMode m) None; DRequest (HAssertReset m1) None;
       DRequest (HDisablePower m2) None] /\
    exists r, snd (set_power sp m PowerOff w) = Ok r /\
      reports m (and_then (told (fun _ => tt) v1)
                          (and_then (told (fun _ => tt) v2) (told (fun _ => tt) v3))) r.
  Proof.
    intros Hm v1 s1 m1 v2 s2 m2 v3. rewrite <- mask_ok_lt in Hm.
    destruct (honest_ack a Hok w (HDeassertLpMode m) eq_refl (fun _ _ => eq_refl) Hm) as (r1 & E1 & M1 & R1).
    cbn [request_modules] in M1, R1. change (good_mask m (vd a w (HDeassertLpMode m) None)) with m1 in M1.
    set (w1 := next a w (HDeassertLpMode m) None) in *.
    assert (Hm1 : mask_ok m1 = true) by apply good_mask_ok.
    destruct (honest_ack a Hok w1 (HAssertReset m1) eq_refl (fun _ _ => eq_refl) Hm1) as (r2 & E2 & M2 & R2).
    cbn [request_modules] in R2, M2. change (good_mask m1 (vd a w1 (HAssertReset m1) None)) with m2 in M2.
    set (w2 := next a w1 (HAssertReset m1) None) in *.
    assert (Hm2 : mask_ok m2 = true) by apply good_mask_ok.
    destruct (honest_ack a Hok w2 (HDisablePower m2) eq_refl (fun _ _ => eq_refl) Hm2) as (r3 & E3 & M3 & R3).
    cbn [request_modules] in R3.
    set (w3 := next a w2 (HDisablePower m2) None) in *.
    assert (E : set_power sp m PowerOff w = (w3, Ok (mkResult (mr_modules r3) (mr_data r3)
      (failed_merge (failed_merge (mr_failures r1) (mr_failures r2)) (mr_failures r3))))).
    { unfold set_power, set_power_off, assert_reset, deassert_lpmode, disable_power.
      erewrite cbind_ok by exact E1. rewrite M1. erewrite cbind_ok by exact E2. cbv zeta. rewrite M2.
      erewrite cbind_ok by exact E3. reflexivity. }
    split.
    - eapply deeds_grew; [exact E|].
      change [DRequest (HDeassertLpMode m) None; DRequest (HAssertReset m1) None; DRequest (HDisablePower m2) None]
        with ([DRequest (HDeassertLpMode m) None] ++ [DRequest (HAssertReset m1) None] ++
              [DRequest (HDisablePower m2) None]).
      eapply grew_trans; [apply grew_next|]. eapply grew_trans; [apply grew_next|]. apply grew_next.
    - eexists. split; [rewrite E; reflexivity|]. apply rrep_reports. rewrite <- M1 in R2.
      pose proof (rrep_chain m _ _ r1 r2 R1 R2) as C.
      assert (R3' : rrep (mr_modules (mkResult (mr_modules r2) (mr_data r2)
                     (failed_merge (mr_failures r1) (mr_failures r2)))) (told (fun _ => tt) v3) r3).
      { cbn [mr_modules]. rewrite M2. exact R3. }
      pose proof (rrep_chain m _ _ _ r3 C R3') as C2. cbn [mr_failures] in C2.
      eapply rrep_ext; [|exact C2]. intros i _. unfold and_then. rewrite M1.
      change (vd a w (HDeassertLpMode m) None) with v1. change (vd a w1 (HAssertReset m1) None) with v2.
      destruct (told (fun _ => tt) v1 i); reflexivity.
  Qed.
End Sequences.
