(** Proofs about the effect of calls on the modules (C74-C76). *)
From Coq Require Import Permutation.
From Verif Require Export SpecLive.
From Verif Require Import Tac Spec ModuleIdProofs ModuleIdProps ResultsProofs ControllerProofs ControllerProofs3
  ControllerProofs4 ControllerProofs5 ControllerProofs6 ScopeProofs ScopeProofs2.

(** ** The concrete rack drives its modules *)
Lemma page_eqb_eq p q : page_eqb p q = true <-> p = q.
Proof.
  destruct p as [[|a]|[|[[x|] a]]], q as [[|b]|[|[[y|] b]]]; cbn; try (split; congruence);
  rewrite ?andb_true_iff, ?N.eqb_eq; try (split; [intros ->; reflexivity|congruence]).
  split; [intros [-> ->]; reflexivity|]. intros E. injection E as -> ->. auto.
Qed.
Lemma reaches_b_spec wr p o : reaches_b wr p o = true <-> reaches wr p o.
Proof.
  unfold reaches_b, reaches. rewrite !andb_true_iff, orb_true_iff, page_eqb_eq, N.leb_le, !N.ltb_lt. tauto.
Qed.
Lemma mod256_bit s k : k < 8 -> N.testbit (s mod 256) k = N.testbit s k.
Proof. intros H. change 256 with (2 ^ 8). now apply N.mod_pow2_bits_low. Qed.
Lemma setbit_spec s k j : N.testbit (N.setbit s k) j = (k =? j) || N.testbit s j.
Proof. apply N.setbit_eqb. Qed.
Lemma clearbit_spec s k j : N.testbit (N.clearbit s k) j = N.testbit s j && negb (k =? j).
Proof. apply N.clearbit_eqb. Qed.

Section Rack.
  Context (refuse : slots -> HostRequest -> option (list N) -> N -> option N) (drift : slot -> Page -> N -> N).
  Local Notation a := (live_rack refuse drift).
  Lemma rack_ok : honest_ok a.
  Proof.
    intros s q d i. cbn [live_rack hs_verdict]. destruct (refuse s q d i) as [e|]; [apply N.mod_lt; discriminate|].
    assert (Hb : forall x, (x mod 256 <? 256) = true) by (intros x; apply N.ltb_lt, N.mod_lt; discriminate).
    destruct q; cbn [slot_answer]; try (split; reflexivity).
    - unfold contents, area, seen. cbn [sl_cell request_unit]. split; [now rewrite map_length, nrange_length|].
      apply forallb_forall. intros x Hx. apply in_map_iff in Hx. destruct Hx as (k & <- & _). exact (Hb _).
    - cbn [seen sl_status request_unit]. split; [reflexivity|]. unfold bytes. cbn [forallb]. unfold u8. now rewrite Hb.
    - split; [reflexivity|]. unfold bytes, led_byte. destruct (sl_led (seen s i)); reflexivity.
    - cbn [seen sl_status request_unit]. split; [reflexivity|]. unfold bytes. cbn [forallb]. unfold u8. now rewrite Hb.
  Qed.
  Lemma rack_drives : drives a seen.
  Proof.
    constructor.
    - intros s q d i H. unfold seen. cbn [live_rack hs_next]. unfold slots_next.
      destruct (N.testbit (request_modules q) i) eqn:E; [|reflexivity]. apply member_testbit in E. contradiction.
    - intros s q d i H. unfold seen. cbn [live_rack hs_next]. unfold slots_next.
      destruct (N.testbit (request_modules q) i); [|reflexivity]. destruct (refuse s q d i); [reflexivity|].
      destruct q; try discriminate; reflexivity.
    - intros s m d i x _. cbn [live_rack hs_verdict]. destruct (refuse _ _ _ _); [discriminate|]. now intros [= <-].
    - intros s m d i x _. cbn [live_rack hs_verdict]. destruct (refuse _ _ _ _); [discriminate|]. now intros [= <-].
    - intros s m rd d i x _. cbn [live_rack hs_verdict]. destruct (refuse _ _ _ _); [discriminate|]. now intros [= <-].
    - intros s q d i x Hp Hi. apply member_testbit in Hi. cbn [live_rack hs_verdict hs_next]. unfold seen, slots_next.
      rewrite Hi. destruct (refuse _ _ _ _); [discriminate|]. intros _.
      unfold supplied, held_in_reset, lpmode_pin. cbn [sl_status].
      destruct q; try discriminate; cbn [slot_effect is_power_pin sl_status pin_effect]; unfold set_to;
        rewrite !mod256_bit by reflexivity; rewrite ?setbit_spec, ?clearbit_spec; cbn;
        rewrite ?andb_true_r, ?andb_false_r; auto.
    - intros s m l d i x Hi. apply member_testbit in Hi. cbn [live_rack hs_verdict hs_next]. unfold seen, slots_next.
      cbn [request_modules]. rewrite Hi. destruct (refuse _ _ _ _); [discriminate|]. reflexivity.
    - intros s m wr d i x Hb Hi. apply member_testbit in Hi. cbn [live_rack hs_verdict hs_next]. unfold seen, slots_next.
      cbn [request_modules]. rewrite Hi. destruct (refuse _ _ _ _); [discriminate|]. intros _. cbn [slot_effect sl_status sl_led sl_cell].
      split; [reflexivity|]. split; [reflexivity|]. intros p o. rewrite <- reaches_b_spec.
      destruct (reaches_b wr p o); split; intros H; try congruence.
      apply N.mod_small. unfold bytes in Hb. rewrite forallb_forall in Hb.
      destruct (nth_in_or_default (N.to_nat (o - wr_offset wr)) d 0) as [K|K]; [|rewrite K; reflexivity].
      apply Hb in K. apply N.ltb_lt in K. exact K.
  Qed.
End Rack.

(** ** Calls and the view *)
Section Live.
  Context {St : Type} (a : honest St) (view : St -> N -> slot) (Hok : honest_ok a) (Hd : drives a view).
  Implicit Type w : world St.
  Local Notation sp := (honest_sp a).

  Lemma replay_keeps (D : done -> Prop) i :
    (forall s q d, D (DRequest q d) -> view (hs_next a s q d) i = view s i) ->
    forall l s, Forall D (flat_map deed l) -> view (replay sp l s) i = view s i.
  Proof.
    intros H. induction l as [|x l IH]; intros s F; [reflexivity|]. cbn [flat_map] in F. apply Forall_app in F.
    destruct F as [F1 F2]. cbn [replay fold_left]. unfold replay in IH. rewrite IH by exact F2. destruct x as [r|t]; [|reflexivity].
    cbn [deed] in F1. unfold honest_sp. destruct (msg_body (rpc_message r)); try reflexivity. cbn [fst].
    apply H. now apply Forall_inv in F1.
  Qed.
  Lemma went_keeps (D : done -> Prop) i w w' ds :
    (forall s q d, D (DRequest q d) -> view (hs_next a s q d) i = view s i) ->
    went sp w w' ds -> Forall D ds -> view (w_sp w') i = view (w_sp w) i.
  Proof. intros H (l & _ & <- & ->) F. now apply (replay_keeps D). Qed.
  Lemma hoare_keeps {A} (D : done -> Prop) (c : ctl (St := St) A) Q i :
    (forall s q d, D (DRequest q d) -> view (hs_next a s q d) i = view s i) ->
    hoare sp D c Q -> forall w, view (w_sp (fst (c w))) i = view (w_sp w) i.
  Proof. intros H K w. destruct (K w) as (ds & G & F & _). eapply went_keeps; eauto. Qed.

  Definition lk (q : HostRequest) (d : option (list N)) : Prop := looking q = true /\ d = None.
  Lemma looks_keep {A} n (c : ctl (St := St) A) : asks sp lk n c -> changes_nothing view c.
  Proof. intros H w i. unfold seen_after. eapply hoare_keeps; [|exact H]. intros s q d [K _]. now apply (dr_look _ _ Hd). Qed.
  Lemma touch_keep {A} m (c : ctl (St := St) A) Q : hoare sp (touch m) c Q -> changes_only view m c.
  Proof.
    intros H w i Hi. unfold seen_after. eapply hoare_keeps; [|exact H]. intros s q d K. apply (dr_apart _ _ Hd).
    cbn in K. rewrite member_testbit in *. auto.
  Qed.

  Lemma queries_change_nothing m :
    changes_nothing view (leds sp m) /\ changes_nothing view (ctl_status sp m) /\
    changes_nothing view (extended_status sp m) /\ changes_nothing view (mac_addrs sp) /\
    changes_nothing view (identifier sp m) /\ changes_nothing view (power sp m) /\
    (forall rd, changes_nothing view (ctl_read sp m rd)) /\
    (forall P reads (parse : Identifier -> list (list N) -> outcome DecodeError P),
       changes_nothing view (parse_modules_by_identifier sp reads parse m)).
  Proof.
    assert (Hr : forall m rd, lk (HRead m rd) None) by (split; reflexivity).
    assert (Hs : forall m, lk (HStatus m) None) by (split; reflexivity).
    repeat apply conj; intros; apply (looks_keep false); auto using asks_leds, asks_status, asks_ext, asks_mac,
      asks_identifier, asks_power, asks_read, @asks_parse.
    - now apply asks_leds.
    - now apply asks_ext.
    - now apply asks_mac.
  Qed.
  Lemma calls_change_own m :
    (forall q, request_modules q = m -> changes_only view m (no_payload_request sp q)) /\
    (forall wr data, changes_only view m (ctl_write sp m wr data)) /\ changes_only view m (reset sp m) /\
    (forall st, changes_only view m (set_power sp m st)).
  Proof.
    pose proof (honest_scoped a) as Hs. repeat apply conj; intros; eapply touch_keep; auto using in_reset, in_write, in_set_power.
    - apply in_npr; [exact Hs|]. rewrite H. apply sub_refl.
  Qed.

  (** *** Answers are what is there *)
  Definition true_to {P} (m : N) (f : N -> P + TransceiverError) (Q : N -> P -> Prop) : Prop :=
    forall i x, N.testbit m i = true -> f i = inl x -> Q i x.
  Lemma rrep_true {P} m f (r : Result P) Q i x : rrep m f r -> true_to m f Q -> rget r i = Some x -> N.testbit m i = true /\ Q i x.
  Proof.
    intros [_ R] H E. destruct (R i) as [G _]. rewrite G in E. destruct (N.testbit m i) eqn:T; [|discriminate].
    destruct (f i) eqn:F; [|discriminate]. injection E as <-. split; [reflexivity|]. now apply H.
  Qed.
  Lemma told_true {P} m (dec : list N -> P) f (Q : N -> P -> Prop) :
    (forall i x, N.testbit m i = true -> f i = inl x -> Q i (dec x)) -> true_to m (told dec f) Q.
  Proof. intros H i x Hi. unfold told. destruct (f i) eqn:E; [|discriminate]. intros [= <-]. now apply H. Qed.

  Section Read.
    Context (rd : MemoryRead) (Hlen : 1 <= rd_len rd <= 255).
    Let ok g := g <> 0 /\ mask_ok g = true /\ fits_in_one_message g rd = true.
    Definition own_bytes (V : N -> slot) (i : N) (x : list N) : Prop := x = contents (sl_cell (V i)) rd.

    Lemma live_read_one w m V : (forall i, view (w_sp w) i = V i) -> ok m ->
      exists r w' f, read_impl_one_message sp m rd w = (w', Ok r) /\ rrep m f r /\ true_to m f (own_bytes V) /\
        (forall i, view (w_sp w') i = V i).
    Proof.
      intros Hv (_ & Hm & Hf). destruct (honest_read_one a Hok w m rd) as (r & E & R); [lia|assumption|assumption|].
      eexists r, _, _. split; [exact E|]. split; [exact R|]. split.
      - apply told_true. intros i x Hi Hx. unfold own_bytes. rewrite <- Hv. apply (dr_read _ _ Hd _ m rd None i x); [now apply member_testbit|exact Hx].
      - intros i. rewrite next_sp. now rewrite (dr_look _ _ Hd).
    Qed.
    Lemma rrep_merge2 {P} m1 m2 (f1 f2 : N -> P + TransceiverError) r1 r2 :
      rrep m1 f1 r1 -> rrep m2 f2 r2 -> N.land m1 m2 = 0 ->
      exists r, result_merge r1 r2 = Some r /\ rrep (N.lor m1 m2) (fun i => if N.testbit m1 i then f1 i else f2 i) r.
    Proof.
      intros H1 H2 H0. apply rrep_merge; [| |exact H0].
      - eapply rrep_ext; [|exact H1]. intros i ->. reflexivity.
      - eapply rrep_ext; [|exact H2]. intros i Hi. destruct (N.testbit m1 i) eqn:E; [|reflexivity].
        assert (K : N.testbit (N.land m1 m2) i = true) by now rewrite N.land_spec, E, Hi.
        rewrite H0, N.bits_0 in K. discriminate.
    Qed.
    Lemma live_read_rest V gs : forall w m0 r0 f0,
      (forall i, view (w_sp w) i = V i) -> Forall ok gs ->
      NoDup (to_indices m0 ++ concat (map to_indices gs)) -> mask_ok m0 = true -> rrep m0 f0 r0 -> true_to m0 f0 (own_bytes V) ->
      exists r w' f, read_rest sp gs rd r0 w = (w', Ok r) /\ rrep (fold_left N.lor gs m0) f r /\
        true_to (fold_left N.lor gs m0) f (own_bytes V) /\ (forall i, view (w_sp w') i = V i).
    Proof.
      induction gs as [|g gs IH]; intros w m0 r0 f0 Hv Hg Hn Hm0 Hr0 Ht0.
      - exists r0, w, f0. cbn. auto.
      - pose proof (Forall_inv Hg) as Hg1. apply Forall_inv_tail in Hg.
        destruct (live_read_one w g V Hv Hg1) as (r1 & w1 & f1 & E1 & R1 & T1 & V1).
        destruct (rrep_merge2 m0 g f0 f1 r0 r1 Hr0 R1) as (r2 & E2 & R2).
        { apply N.bits_inj_0. intros i. rewrite N.land_spec. apply not_true_iff_false.
          rewrite andb_true_iff. intros [B0 B1]. rewrite <- in_to_indices_ok in B0, B1 by (apply Hg1 || assumption).
          clear -Hn B0 B1. cbn [map concat] in Hn. induction (to_indices m0) as [|x l IHl]; [destruct B0|].
          cbn in Hn. inversion Hn as [|? ? N1 N2]; subst. destruct B0 as [->|B0]; [|auto].
          apply N1. apply in_or_app. right. apply in_or_app. now left. }
        assert (Hmk : mask_ok (N.lor m0 g) = true) by (rewrite mask_ok_lor, Hm0; apply Hg1).
        destruct (IH w1 (N.lor m0 g) r2 (fun i => if N.testbit m0 i then f0 i else f1 i) V1 Hg) as (r & w' & f & E & R & T & V2); [|exact Hmk|exact R2| |].
        { cbn [map concat] in Hn. rewrite app_assoc in Hn. eapply Permutation_NoDup; [|exact Hn].
          apply Permutation_app_tail. apply NoDup_Permutation.
          - clear -Hn. induction (to_indices m0 ++ to_indices g) as [|x l IHl]; [constructor|].
            cbn in Hn. inversion Hn as [|? ? N1 N2]; subst. constructor; [|auto].
            intros X. apply N1, in_or_app. now left.
          - apply to_indices_nodup.
          - intros i. rewrite in_app_iff, !in_to_indices_ok, N.lor_spec, orb_true_iff by (apply Hg1 || assumption).
            reflexivity. }
        { intros i x. rewrite N.lor_spec. destruct (N.testbit m0 i) eqn:B; [intros _; now apply Ht0|]. now apply T1. }
        exists r, w', f. cbn [read_rest]. erewrite cbind_ok by exact E1. rewrite E2.
        erewrite cbind_ok by reflexivity. auto.
    Qed.
    Lemma live_read_impl w m V : (forall i, view (w_sp w) i = V i) -> mask_ok m = true ->
      exists r w' f, read_impl sp m rd w = (w', Ok r) /\ rrep m f r /\ true_to m f (own_bytes V) /\
        (forall i, view (w_sp w') i = V i).
    Proof.
      intros Hv Hm. unfold read_impl. destruct (Nat.eqb_spec (m_count m) 0) as [Hz|Hz].
      - apply count0 in Hz; [|exact Hm]. subst m. cbn [orb]. eexists _, w, (fun _ => inr (TeDecode DeParseFailed)).
        split; [reflexivity|]. split; [apply rrep_empty|]. split; [intros i x; rewrite N.bits_0; discriminate|exact Hv].
      - destruct (N.eqb_spec (rd_len rd) 0) as [|_]; [lia|]. cbn [orb].
        destruct (split_spec m rd Hm Hlen) as (gs & Es & Ec & Fg & _). rewrite Es.
        erewrite cbind_ok by reflexivity. destruct gs as [|g gs].
        { exfalso. apply Hz. rewrite count_to_indices, <- Ec by exact Hm. reflexivity. }
        pose proof (Forall_inv Fg) as Hg1. pose proof (Forall_inv_tail Fg) as Hg2.
        destruct (live_read_one w g V Hv Hg1) as (r1 & w1 & f1 & E1 & R1 & T1 & V1).
        destruct (live_read_rest V gs w1 g r1 f1 V1 Hg2) as (r & w' & f & E & R & T & V2); [|apply Hg1|exact R1|exact T1|].
        { cbn [map concat] in Ec. rewrite Ec. apply to_indices_nodup. }
        exists r, w', f. erewrite cbind_ok by exact E1. split; [exact E|].
        assert (Em : fold_left N.lor gs g = m); [|rewrite <- Em; auto].
        apply mask_ext. intros i. rewrite fold_lor_groups.
        apply eq_true_iff_eq. rewrite <- (in_to_indices_ok m) by exact Hm. rewrite <- Ec.
        cbn [map concat]. rewrite in_app_iff, in_concat, orb_true_iff, existsb_exists.
        rewrite in_to_indices_ok by apply Hg1. split; (intros [H|H]; [now left|right]).
        * destruct H as (g' & Hg' & Hb). exists (to_indices g'). split; [now apply in_map|].
          apply in_to_indices_ok; [|exact Hb]. rewrite Forall_forall in Hg2. now apply Hg2.
        * destruct H as (l & Hl & Hi). apply in_map_iff in Hl. destruct Hl as (g' & <- & Hg').
          exists g'. split; [exact Hg'|]. apply in_to_indices_ok in Hi; [exact Hi|].
          rewrite Forall_forall in Hg2. now apply Hg2.
    Qed.
  End Read.

  Lemma live_identifier w m V : (forall i, view (w_sp w) i = V i) -> mask_ok m = true ->
    exists r w' f, identifier sp m w = (w', Ok r) /\ rrep m f r /\ true_to m f (fun i id => id = slot_kind (V i)) /\
      (forall i, view (w_sp w') i = V i).
  Proof.
    intros Hv Hm. destruct (honest_identifier a Hok w m Hm) as (r & w' & E & R & _ & S).
    exists r, w', (ids_seen a w m). split; [exact E|]. split; [exact R|]. split.
    - apply told_true. intros i x Hi Hx. apply (dr_read _ _ Hd) in Hx; [|now apply member_testbit]. subst x.
      unfold slot_kind. rewrite <- Hv. reflexivity.
    - intros i. rewrite S. destruct (m =? 0); [apply Hv|]. rewrite (dr_look _ _ Hd) by reflexivity. apply Hv.
  Qed.
End Live.
