(** Proofs about addressing, status and writes on the command line (C56-C58). *)
From Coq Require Import String.
From Verif Require Import Tac SpecCmd ModuleIdProofs ModuleIdProps ResultsProofs AccessProofs MessageProofs
  ControllerProofs ControllerProofs2 ControllerProofs3 ControllerProofs4 ControllerProofs5 ControllerProofs6
  ControllerProofs9 CliProofs4 CliProofs5.
From Coq Require Import Lia.
Import ListNotations.
Open Scope N_scope.

Lemma sidecar_ok : mask_ok m_all_sidecar = true.
Proof. reflexivity. Qed.
Lemma sidecar_spec i : N.testbit m_all_sidecar i = true <-> i < 32.
Proof.
  change m_all_sidecar with (N.ones 32). destruct (N.ltb_spec i 32).
  - rewrite N.ones_spec_low by exact H. tauto.
  - rewrite N.ones_spec_high by lia. split; [discriminate|lia].
Qed.
(** The modules kept by a filter on a report. *)
Lemma filter_report {P} m (f : N -> P + TransceiverError) r (t : N -> P -> bool) i : rrep m f r ->
  N.testbit (fst (filter_module_data (mr_modules r) (mr_data r) t)) i = true <->
  N.testbit m i = true /\ exists x, f i = inl x /\ t i x = true.
Proof.
  intros [[A F] R]. destruct (filter_module_data (mr_modules r) (mr_data r) t) as [m' d'] eqn:E.
  destruct (filter_eq _ _ _ _ _ (proj1 A) E) as [A' G]. cbn [fst].
  rewrite (testbit_get _ _ i A'), G. destruct (R i) as [Ri _]. unfold rget in Ri. rewrite Ri.
  destruct (N.testbit m i); [|split; [discriminate|intros (X & _); discriminate]].
  destruct (f i) as [x|e].
  - destruct (t i x) eqn:Et; split; try discriminate; [eauto|reflexivity|]. intros (_ & y & [= <-] & Y). congruence.
  - split; [discriminate|]. intros (_ & y & Y & _). discriminate.
Qed.

Section Address.
  Context {St : Type} (a : honest St) (Hok : honest_ok a).
  Implicit Type w : world St.
  Local Notation sp := (honest_sp a).

  Lemma address_all w : address_transceivers sp TAll w = (w, Ok (2 ^ 32 - 1)).
  Proof. reflexivity. Qed.
  Lemma address_index w p : address_transceivers sp (TIndex p) w = (w, Ok p).
  Proof. reflexivity. Qed.
  Lemma address_present w (st := hs_verdict a (w_sp w) (HStatus m_all_sidecar) None) :
    exists m, snd (address_transceivers sp TPresent w) = Ok m /\
      deeds (address_transceivers sp TPresent) w = [DRequest (HStatus m_all_sidecar) None] /\
      forall i, member i m <-> i < 32 /\ exists d, st i = inl d /\ N.testbit (hd 0 d) 0 = true.
  Proof.
    destruct (honest_status a Hok w m_all_sidecar sidecar_ok) as (r & E & _ & R).
    assert (E' : address_transceivers sp TPresent w =
      (next a w (HStatus m_all_sidecar) None,
       Ok (fst (filter_module_data (mr_modules r) (mr_data r) (fun _ s => st_contains s ST_PRESENT))))).
    { unfold address_transceivers. erewrite cbind_ok by exact E. reflexivity. }
    eexists. rewrite E'. split; [reflexivity|]. split.
    - eapply deeds_grew; [rewrite E'; reflexivity|]. apply grew_next.
    - intros i. rewrite member_testbit, (filter_report _ _ r _ i R), sidecar_spec.
      change (vd a w (HStatus m_all_sidecar) None) with st. unfold told.
      change ST_PRESENT with (2 ^ 0). setoid_rewrite contains_pow2. split; intros (Hi & H); (split; [exact Hi|]).
      + destruct H as (x & H & T). destruct (st i) as [d|]; [|discriminate]. injection H as <-. eauto.
      + destruct H as (d & -> & T). eauto.
  Qed.
  Lemma address_kind w mem kind : reads_as a (w_sp w) mem -> (kind = Sff8636 \/ kind = Cmis) ->
    exists m, snd (address_transceivers sp (TKind kind) w) = Ok m /\
      deeds (address_transceivers sp (TKind kind)) w = [DRequest (HRead m_all_sidecar ident_read) None] /\
      forall i, member i m <-> i < 32 /\ exists id, ident_told mem i = inl id /\ management_interface id = Ok kind.
  Proof.
    intros Hr Hk. destruct (honest_identifier_mem a Hok w m_all_sidecar mem sidecar_ok Hr) as (r & w' & E & R & L & _).
    assert (E' : address_transceivers sp (TKind kind) w =
      (w', Ok (fst (filter_module_data (mr_modules r) (mr_data r)
               (fun _ id => match management_interface id, kind with
                            | Ok Sff8636, Sff8636 | Ok Cmis, Cmis => true
                            | _, _ => false
                            end))))).
    { unfold address_transceivers. erewrite cbind_ok by exact E. reflexivity. }
    eexists. rewrite E'. split; [reflexivity|]. split.
    - eapply deeds_grew; [rewrite E'; reflexivity|exact L].
    - intros i. rewrite member_testbit, (filter_report _ _ r _ i R), sidecar_spec.
      assert (X : forall id, match management_interface id, kind with
                            | Ok Sff8636, Sff8636 | Ok Cmis, Cmis => true
                            | _, _ => false
                            end = true <-> management_interface id = Ok kind).
      { intros id. destruct (management_interface id) as [[| |]| |], Hk as [-> | ->]; intuition congruence. }
      setoid_rewrite X. reflexivity.
  Qed.
  Lemma address_power w mem state (st := hs_verdict a (w_sp w) (HStatus m_all_sidecar) None) :
    reads_as a (hs_next a (w_sp w) (HStatus m_all_sidecar) None) mem ->
    (forall i id, i < 32 -> readable st i = true -> ident_told mem i = inl id -> supported_kind id = true) ->
    exists m, snd (address_transceivers sp (TPowerState state) w) = Ok m /\
      Forall only_looks (deeds (address_transceivers sp (TPowerState state)) w) /\
      forall i, member i m <->
        i < 32 /\ exists x, power_says st (control_says mem) i = inl x /\ pm_state x = state.
  Proof.
    intros Hr Hs. destruct (power_rrep a Hok w m_all_sidecar mem sidecar_ok Hr) as (r & w' & C & ds & E & _ & L & O & R & Cs & _).
    { intros i id Hi. apply Hs. now apply sidecar_spec. }
    fold st in R, Cs.
    assert (E' : address_transceivers sp (TPowerState state) w =
      (w', Ok (fst (filter_module_data (mr_modules r) (mr_data r)
               (fun _ p => match pm_state p, state with
                           | PowerOff, PowerOff | PowerLow, PowerLow | PowerHigh, PowerHigh => true
                           | _, _ => false
                           end))))).
    { unfold address_transceivers. erewrite cbind_ok by exact E. reflexivity. }
    eexists. rewrite E'. split; [reflexivity|]. split.
    - erewrite deeds_grew; [|rewrite E'; reflexivity|exact L]. constructor; [exact I|].
      eapply Forall_impl; [|exact O]. cbv beta. intros x Hx. destruct x as [[] d|]; try contradiction; exact I.
    - intros i. rewrite member_testbit, (filter_report _ _ r _ i R), sidecar_spec.
      assert (X : forall p, match pm_state p, state with
                           | PowerOff, PowerOff | PowerLow, PowerLow | PowerHigh, PowerHigh => true
                           | _, _ => false
                           end = true <-> pm_state p = state).
      { intros p. destruct (pm_state p), state; intuition congruence. }
      setoid_rewrite X.
      assert (Y : i < 32 -> forall x, power_says st C i = inl x <-> power_says st (control_says mem) i = inl x).
      { intros Hi x. unfold power_says. pose proof (fun c => Cs i c (proj2 (sidecar_spec i) Hi)) as Ci. unfold readable in Ci.
        destruct (st i) as [d|e]; [|tauto].
        destruct (supplied (hd 0 d)), (held_in_reset (hd 0 d)); cbn [negb orb andb] in *; try tauto.
        specialize (fun c => Ci c eq_refl). destruct (C i) as [c|e], (control_says mem i) as [c'|e'].
        - pose proof (proj1 (Ci c) eq_refl) as Z. injection Z as ->. tauto.
        - specialize (proj1 (Ci c) eq_refl). discriminate.
        - specialize (proj2 (Ci c') eq_refl). discriminate.
        - split; discriminate. }
      split; intros (Hi & x & H1 & H2); (split; [exact Hi|exists x; split; [now apply Y|exact H2]]).
  Qed.

  (** ** Status *)
  Lemma status_extended w m (vs := hs_verdict a (w_sp w) (HExtendedStatus m) None) : m < 2 ^ 64 ->
    (forall i d, member i m -> vs i = inl d -> le_value d < 512) ->
    exists r, snd (status_result sp m w) = Ok r /\ reports m (told le_value vs) r /\
      deeds (status_result sp m) w = [DRequest (HExtendedStatus m) None].
  Proof.
    intros Hm Hv. rewrite <- mask_ok_lt in Hm.
    pose proof (honest_documented a Hok w (HExtendedStatus m) None) as D. cbn [response_to request_modules] in D.
    apply raw_ext in D.
    - assert (E : status_result sp m w = (next a w (HExtendedStatus m) None,
        Ok (mkResult (port_mask (good_ports m vs)) (map le_value (map (fun i => good_data (vs i)) (good_ports m vs)))
                (faults (port_mask (bad_ports m vs)) (map (fun i => bad_code (vs i)) (bad_ports m vs)))))).
      { unfold status_result. rewrite D, state_next. reflexivity. }
      eexists. rewrite E. split; [reflexivity|]. split; [apply rrep_reports, rrep_told; exact Hm|].
      eapply deeds_grew; [rewrite E; reflexivity|apply grew_next].
    - now apply good_bytes.
    - apply Forall_map, Forall_forall. intros i Hi. unfold good_ports in Hi. apply filter_In in Hi. destruct Hi as (Hi & G).
      apply in_to_indices_ok in Hi; [|exact Hm]. apply member_testbit in Hi. change (vd a w (HExtendedStatus m) None) with vs in *.
      specialize (Hv i). destruct (vs i) as [d|]; [|discriminate]. exact (Hv d Hi eq_refl).
  Qed.
End Address.
Lemma status_fallback {St} (sp : St -> Rpc -> St * reply) w w' e m good bad items errs :
  extended_status sp m w = (w', Err e) -> Forall (fun x => bytes x = true) items ->
  documented_reply (answer sp w' (HStatus m) None) (SStatus good bad) items errs ->
  exists r, snd (status_result sp m w) = Ok r /\ attaches (SStatus good bad) (hd 0) items errs r.
Proof.
  intros E Hb D. pose proof (c32_attach _ _ (hd 0) _ _ D) as A. pose proof (documented_cut _ _ _ _ D) as (_ & _ & _ & _ & _ & _ & _ & Hu & _).
  cbn [unit_size] in Hu. apply raw_status in D; [|exact Hb].
  eexists. split; [|exact A]. unfold status_result. rewrite E. erewrite cbind_ok by exact D. cbn [mr_modules mr_data mr_failures].
  assert (X : omapM (fun s => (ounwrap (ext_of_status s) : outcome Error N)) (map (hd 0) items) = Ok (map (hd 0) items)).
  { clear -Hb Hu. induction items as [|x l IH]; [reflexivity|]. cbn [map omapM].
    assert (H : hd 0 x < 512).
    { apply Forall_inv in Hb. destruct x as [|b x]; [cbn; lia|]. cbn [bytes forallb] in Hb. apply andb_true_iff in Hb.
      destruct Hb as (Hb & _). unfold u8 in Hb. apply N.ltb_lt in Hb. cbn [hd]. lia. }
    assert (X : ext_of_status (hd 0 x) = Ok (hd 0 x)).
    { unfold ext_of_status, ext_status_from_bits. destruct (N.ltb_spec (hd 0 x) 512); [reflexivity|lia]. }
    rewrite X. cbn [ounwrap obind].
    rewrite IH; [reflexivity|now apply Forall_inv_tail in Hb|now apply Forall_inv_tail in Hu]. }
  rewrite X. reflexivity.
Qed.

(** ** Writes *)
Lemma cmd_write_runs {St} (a : honest St) (w : world St) m p offset d : Nlen d < 256 ->
  access_ok (write_limit p) p offset (Nlen d) ->
  let wr := mkWrite p offset (Nlen d) in
  snd (cmd_write (honest_sp a) m (Ok p) offset (Ok d) w) = omap_err Some (snd (ctl_write (honest_sp a) m wr d w)) /\
  deeds_of (cmd_write (honest_sp a) m (Ok p) offset (Ok d)) w = deeds (ctl_write (honest_sp a) m wr d) w.
Proof.
  intros Hl Ha wr. destruct (write_new_spec p offset (Nlen d)) as [Hs _]. apply Hs in Ha.
  assert (E : cmd_write (honest_sp a) m (Ok p) offset (Ok d) w =
    let (w', r) := ctl_write (honest_sp a) m wr d w in (w', omap_err Some r)).
  { unfold cmd_write. destruct (N.ltb_spec 255 (Nlen d)); [lia|]. erewrite cbind_ok by reflexivity. rewrite Ha.
    erewrite cbind_ok by reflexivity. reflexivity. }
  unfold deeds_of, deeds. rewrite E. destruct (ctl_write (honest_sp a) m wr d w). split; reflexivity.
Qed.
Lemma cmd_write_ok {St} (a : honest St) : honest_ok a -> forall (w : world St) m p offset d (ids := ids_seen a w m),
  let wr := mkWrite p offset (Nlen d) in
  m < 2 ^ 64 -> Nlen d < 256 -> access_ok (write_limit p) p offset (Nlen d) ->
  (all_speak m ids p /\
   exists r s, snd (cmd_write (honest_sp a) m (Ok p) offset (Ok d) w) = Ok r /\
     deeds_of (cmd_write (honest_sp a) m (Ok p) offset (Ok d)) w =
       ident_request m ++ [DRequest (HWrite (passed m ids) wr) (Some d)] /\
     s = (if m =? 0 then w_sp w else hs_next a (w_sp w) (HRead m ident_read) None) /\
     reports m (and_then ids (told (fun _ => tt) (hs_verdict a s (HWrite (passed m ids) wr) (Some d)))) r) \/
  (exists i id, lowest_other m ids p i id /\
     snd (cmd_write (honest_sp a) m (Ok p) offset (Ok d) w) =
       Err (Some (ETransceiver (TeInvalidInterfaceForModule i id (page_interface p)))) /\
     deeds_of (cmd_write (honest_sp a) m (Ok p) offset (Ok d)) w = ident_request m).
Proof.
  intros Hok w m p offset d ids wr Hm Hl Ha. destruct (cmd_write_runs a w m p offset d Hl Ha) as (-> & ->). fold wr.
  destruct (write_correct a Hok w m wr d Hm) as [(Hs & _ & r & s & -> & -> & E & R)|[(_ & Hn & _)|(i & id & Low & -> & ->)]].
  - left. split; [exact Hs|]. exists r, s. auto.
  - exfalso. apply Hn. reflexivity.
  - right. exists i, id. auto.
Qed.
Lemma cmd_write_refused {St} (sp : St -> Rpc -> St * reply) (w : world St) m p offset d :
  Nlen d < 256 -> ~ access_ok (write_limit p) p offset (Nlen d) ->
  exists e, cmd_write sp m (Ok p) offset (Ok d) w = (w, Err (Some e)).
Proof.
  intros Hl Ha. destruct (write_new_spec p offset (Nlen d)) as [Hs Hn].
  assert (X : exists e, write_new p offset (Nlen d) = Err e).
  { destruct Hn as [[-> _]|[-> _]]; [|eauto|eauto]. intros X. apply Ha. now apply Hs. }
  destruct X as (e & X). exists (error_of_mgmt e). unfold cmd_write. destruct (N.ltb_spec 255 (Nlen d)); [lia|].
  erewrite cbind_ok by reflexivity. rewrite X. erewrite cbind_err by reflexivity. reflexivity.
Qed.
Lemma cmd_write_nothing {St} (sp : St -> Rpc -> St * reply) (w : world St) m page offset e d :
  cmd_write sp m page offset (Err e) w = (w, Err None) /\
  (Nlen d < 256 -> forall e, cmd_write sp m (Err e) offset (Ok d) w = (w, Err (Some e))).
Proof.
  split; [reflexivity|]. intros Hl e'. unfold cmd_write. destruct (N.ltb_spec 255 (Nlen d)); [lia|].
  erewrite cbind_err by reflexivity. reflexivity.
Qed.
Lemma cmd_read_nothing {St} (sp : St -> Rpc -> St * reply) (w : world St) m p offset len e :
  cmd_read sp m p offset 0 w = (w, Ok None) /\
  (1 <= len -> cmd_read sp m (Err e) offset len w = (w, Err e)) /\
  (1 <= len -> forall q, p = Ok q -> build_many_reads q offset len = Err e ->
     cmd_read sp m p offset len w = (w, Err e)).
Proof.
  split; [reflexivity|]. split; intros Hl.
  - unfold cmd_read. destruct (N.eqb_spec len 0); [lia|]. now erewrite cbind_err by reflexivity.
  - intros q -> H. unfold cmd_read. destruct (N.eqb_spec len 0); [lia|]. erewrite cbind_ok by reflexivity.
    rewrite H. now erewrite cbind_err by reflexivity.
Qed.
(** The pages a command line can name. *)
Lemma upper_page_ok sff cmis page bank p :
  upper_page sff cmis page bank = Ok p <->
  (sff = true /\ cmis = false /\ exists s, sff_upper_new page = Ok s /\ p = PageSff s) \/
  (sff = false /\ cmis = true /\ exists u, p = PageCmis (CmisUpper u) /\
     match bank with Some b => cmis_new_banked page b | None => cmis_new_unbanked page end = Ok u).
Proof.
  unfold upper_page. destruct sff, cmis.
  - split; [discriminate|]. intros [(_ & H & _)|(H & _)]; discriminate.
  - destruct (sff_upper_new page) as [s|e|]; cbn; split; try discriminate.
    + intros [= <-]. left. eauto.
    + intros [(_ & _ & x & [= <-] & ->)|(H & _)]; [reflexivity|discriminate].
    + intros [(_ & _ & x & X & ->)|(H & _)]; discriminate.
    + intros [(_ & _ & x & X & ->)|(H & _)]; discriminate.
  - destruct (match bank with Some b => cmis_new_banked page b | None => cmis_new_unbanked page end) as [s|e|]; cbn; split; try discriminate.
    + intros [= <-]. right. eauto.
    + intros [(H & _)|(_ & _ & x & -> & [= <-])]; [discriminate|reflexivity].
    + intros [(H & _)|(_ & _ & x & -> & X)]; discriminate.
    + intros [(H & _)|(_ & _ & x & -> & X)]; discriminate.
  - split; [discriminate|]. intros [(H & _)|(_ & H & _)]; discriminate.
Qed.
