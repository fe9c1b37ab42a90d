(** SPs to which a request that comes again makes no difference (C96). *)
From Coq Require Import Lia.
From Verif Require Export SpecOnce SpecLive.
From Verif Require Import Tac Spec ModuleIdProofs CodecProofs MessageProofs IoProofs3 NetProofs NetProofs2 NetProofs3 ProgProofs ConcProofs LiveProofs LiveProofs2 LiveProofs3 OnceProofs OnceProofs2 OnceProofs3.
Import ListNotations.
Open Scope N_scope.

(** ** With a memory *)
Lemma wire_received r : wire (as_received r) = wire r.
Proof. unfold wire, as_received. cbn [rpc_header rpc_message rpc_data]. now destruct (rpc_data r) as [[|]|]. Qed.
Lemma remembering_repeats {St} (sp : St -> Rpc -> St * reply) : repeats eq (remembering sp).
Proof.
  constructor; [auto|intros; congruence|intros s s' r ->; auto|]. intros s r s'. subst s'. unfold remembering.
  destruct (list_eq_dec N.eq_dec (wire r) (kp_last s)) as [E|E]; cbn [fst snd]; [destruct (list_eq_dec _ _ _); [auto|contradiction]|].
  cbn [kp_last kp_before]. destruct (list_eq_dec _ _ _); [auto|contradiction].
Qed.
Lemma remembering_polite {St} (sp : St -> Rpc -> St * reply) : polite sp -> polite (remembering sp).
Proof. intros H s r resp Hw. unfold remembering. destruct (list_eq_dec _ _ _); cbn [snd]; now apply H. Qed.
Lemma remembering_blind {St} (sp : St -> Rpc -> St * reply) : blind sp -> blind (remembering sp).
Proof. intros H s r. unfold remembering. now rewrite wire_received, !H. Qed.
Lemma other_wire c q d c' q' d' : c < 2 ^ 64 -> c' < 2 ^ 64 -> c <> c' -> wire (host_request c q d) <> wire (host_request c' q' d').
Proof.
  intros H H' Ne E. assert (W : forall c, c < 2 ^ 64 -> wf_header (header_new c KHostRequest) = true).
  { intros x Hx. unfold wf_header, header_new. cbn [h_version h_id]. apply andb_true_intro. split; [reflexivity|]. apply N.ltb_lt. exact Hx. }
  unfold wire in E. pose proof (f_equal dec_header E) as D. cbn [rpc_header host_request] in D. rewrite !header_roundtrip in D by auto. injection D as D _. contradiction.
Qed.
Definition keeps {St A} (x : world (keeper St) * outcome Error A) (y : world St * outcome Error A) : Prop :=
  kp_now (w_sp (fst x)) = w_sp (fst y) /\ snd x = snd y.
Lemma remembering_alone {St A} (sp : St -> Rpc -> St * reply) (p : prog A) : forall (w : world St) (v : world (keeper St)),
  kp_now (w_sp v) = w_sp w -> w_counter v = w_counter w -> w_counter w < 2 ^ 64 ->
  (forall q d, wire (host_request (w_counter w) q d) <> kp_last (w_sp v)) ->
  keeps (alone p (remembering sp) v) (alone p sp w) /\ map kp_now (stations p (remembering sp) v) = stations p sp w.
Proof.
  induction p as [y|q d k IH|u p IH]; intros w v Hn Hc Hs Hl.
  - cbn. unfold keeps. cbn. now rewrite Hn.
  - cbn [alone stations map]. rewrite Hn.
    set (c := w_counter w) in *. set (r := host_request c q d).
    assert (Rw : rpc sp q d w = (mkWorld (fst (sp (w_sp w) r)) ((c + 1) mod 2 ^ 64) (w_log w ++ [ASend r]), snd (sp (w_sp w) r))).
    { unfold rpc, next_header. subst r c. unfold host_request. now rewrite (surjective_pairing (sp (w_sp w) _)). }
    assert (Rv : rpc (remembering sp) q d v = (mkWorld (mkKeeper (w_sp w) (fst (sp (w_sp w) r)) (wire r)) ((c + 1) mod 2 ^ 64) (w_log v ++ [ASend r]), snd (sp (w_sp w) r))).
    { unfold rpc, next_header. rewrite Hc. fold c. change (mkRpc (header_new c KHostRequest) (message_new (BHostRequest q)) d) with r.
      unfold remembering. destruct (list_eq_dec _ _ _) as [E|_]; [now apply Hl in E|]. now rewrite Hn. }
    rewrite Rw, Rv. assert (Hl' : forall q' d', wire (host_request ((c + 1) mod 2 ^ 64) q' d') <> wire r).
    { intros q' d'. apply other_wire; [now apply N.mod_lt|exact Hs|]. intro E. apply (id_gap c 1); [exact Hs|lia|lia|exact E]. }
    destruct (snd (sp (w_sp w) r)) as [b|e|].
    + destruct (IH (Told (msg_body (rpc_message b)) (rpc_data b)) (mkWorld (fst (sp (w_sp w) r)) ((c + 1) mod 2 ^ 64) (w_log w ++ [ASend r]))
        (mkWorld (mkKeeper (w_sp w) (fst (sp (w_sp w) r)) (wire r)) ((c + 1) mod 2 ^ 64) (w_log v ++ [ASend r]))) as [I1 I2];
        [reflexivity|reflexivity|now apply N.mod_lt|exact Hl'|]. split; [exact I1|]. now rewrite I2.
    + destruct (IH (Missed e) (mkWorld (fst (sp (w_sp w) r)) ((c + 1) mod 2 ^ 64) (w_log w ++ [ASend r]))
        (mkWorld (mkKeeper (w_sp w) (fst (sp (w_sp w) r)) (wire r)) ((c + 1) mod 2 ^ 64) (w_log v ++ [ASend r]))) as [I1 I2];
        [reflexivity|reflexivity|now apply N.mod_lt|exact Hl'|]. split; [exact I1|]. now rewrite I2.
    + split; [split; reflexivity|reflexivity].
  - destruct (IH (fst (sleep u w)) (fst (sleep u v))) as [I1 I2]; [exact Hn|exact Hc|exact Hs|exact Hl|]. split; [exact I1|].
    cbn [stations map]. rewrite Hn. f_equal. exact I2.
Qed.
Lemma wire_filled r : wire r <> [].
Proof.
  unfold wire. intro E. apply app_eq_nil in E. destruct E as [E _]. revert E. destruct r as [[v i k] m d]. cbn. discriminate.
Qed.
Lemma call_remembered {St A} (sp : St -> Rpc -> St * reply) : polite sp -> blind sp -> forall retries s0 c0 (p : prog A) ts, c0 < 2 ^ 64 ->
  let s1 := sys_new retries (new_keeper s0) c0 [p] in
  orderly (remembering sp) s1 ts ->
  let s := sys_run (remembering sp) s1 ts in let w := mkWorld s0 c0 [] in let now := kp_now (nt_sp (sy_net s)) in
  exists c, sy_calls s = [c] /\
    (forall xs x, c = Going xs (Ret x) -> (exists e, In (Err e) xs /\ (stops_at_errors p -> x = Err e)) \/ snd (alone p sp w) = x /\ now = w_sp (fst (alone p sp w))) /\
    (stops_at_errors p -> In now (stations p sp w)).
Proof.
  intros Hp Hb retries s0 c0 p ts Hc0 s1 Hca s w now.
  destruct (call_once eq (remembering sp) (remembering_polite sp Hp) (remembering_blind sp Hb) (remembering_repeats sp) retries (new_keeper s0) c0 Hc0 p ts Hca)
    as (c & Hc & H1 & H2). fold s1 s in Hc, H1, H2.
  destruct (remembering_alone sp p w (mkWorld (new_keeper s0) c0 [])) as [[K1 K2] K3]; [reflexivity|reflexivity|exact Hc0|intros q d; apply wire_filled|].
  exists c. split; [exact Hc|]. split.
  - intros xs x E. destruct (H1 xs x E) as [H|[H H']]; [now left|right]. split; [congruence|]. unfold now. rewrite H'. exact K1.
  - intro S. destruct (H2 S) as (st & I & Eq). rewrite <- K3. unfold now. rewrite Eq. now apply in_map.
Qed.

(** ** Effects *)
Lemma effect_once {St A} (a : honest St) : honest_ok a -> data_blind a ->
  forall (c : forall St, (St -> Rpc -> St * reply) -> ctl (St := St) A) retries s0 c0 p ts xs r, c0 < 2 ^ 64 -> steps_of c p -> stops_at_errors p ->
  let sp := remembering (honest_sp a) in let s1 := sys_new retries (new_keeper s0) c0 [p] in orderly sp s1 ts ->
  sy_calls (sys_run sp s1 ts) = [Going xs (Ret (Ok r))] ->
  let w := mkWorld s0 c0 [] in snd (c St (honest_sp a) w) = Ok r /\ kp_now (nt_sp (sy_net (sys_run sp s1 ts))) = w_sp (fst (c St (honest_sp a) w)).
Proof.
  intros Ha Hb c retries s0 c0 p ts xs r Hc0 Hst Hs sp s1 Hca E w.
  destruct (call_remembered (honest_sp a) (honest_polite a Ha) (honest_blind a Hb) retries s0 c0 p ts Hc0 Hca) as (c' & Hc & H & _).
  fold sp s1 in Hc, H. rewrite E in Hc. injection Hc as <-. destruct (H xs (Ok r) eq_refl) as [(e & _ & He)|[H1 H2]]; [discriminate (He Hs)|].
  rewrite Hst. split; [exact H1|exact H2].
Qed.
Lemma effects_once {St} (a : honest St) view : honest_ok a -> data_blind a -> drives a view -> forall retries s0 c0, c0 < 2 ^ 64 ->
  let sp := remembering (honest_sp a) in let start (A : Type) (p : prog A) := sys_new retries (new_keeper s0) c0 [p] in
  let ended (A : Type) (p : prog A) ts (r : A) (s : St) := orderly sp (start A p) ts /\ (exists xs, sy_calls (sys_run sp (start A p) ts) = [Going xs (Ret (Ok r))]) /\
    s = kp_now (nt_sp (sy_net (sys_run sp (start A p) ts))) in
  (forall m st p ts r s, m < 2 ^ 64 -> steps_of (fun St sp => set_power sp m st) p -> ended _ p ts r s ->
     forall i, succeeded r i -> ~ failed r i -> slot_power (view s i) = Some st) /\
  (forall m p ts r s, m < 2 ^ 64 -> steps_of (fun St sp => reset sp m) p -> ended _ p ts r s ->
     forall i, succeeded r i -> pins (view s i) = (supplied (sl_status (view s0 i)), false, lpmode_pin (sl_status (view s0 i)))) /\
  (forall m wr data p ts r s, m < 2 ^ 64 -> bytes data = true -> steps_of (fun St sp => ctl_write sp m wr data) p -> ended _ p ts r s ->
     forall i, succeeded r i -> sl_status (view s i) = sl_status (view s0 i) /\ sl_led (view s i) = sl_led (view s0 i) /\
       forall p o, (reaches wr p o -> sl_cell (view s i) p o = nth (N.to_nat (o - wr_offset wr)) data 0) /\
                   (~ reaches wr p o -> sl_cell (view s i) p o = sl_cell (view s0 i) p o)) /\
  (forall m l p ts r s, m < 2 ^ 64 -> steps_of (fun St sp => set_leds sp m l) p -> ended _ p ts r s ->
     forall i, succeeded r i -> sl_led (view s i) = l).
Proof.
  intros Ha Hb Hd retries s0 c0 Hc0 sp start ended. pose proof calls_are_programs as (P1 & P2 & _ & P4 & P5 & _).
  split; [|split; [|split]].
  - intros m st p ts r s Hm Hst (Hca & (xs & Hx) & ->) i Hs Hf.
    destruct (effect_once a Ha Hb (fun St sp => set_power sp m st) retries s0 c0 p ts xs r Hc0 Hst (program_stops _ p (P5 m st) Hst) Hca Hx) as [E1 E2]. fold sp in E2. unfold start. rewrite E2.
    exact (live_set_power a view Ha Hd (mkWorld s0 c0 []) m st r Hm E1 i Hs Hf).
  - intros m p ts r s Hm Hst (Hca & (xs & Hx) & ->) i Hs.
    destruct (effect_once a Ha Hb (fun St sp => reset sp m) retries s0 c0 p ts xs r Hc0 Hst (program_stops _ p (proj1 (proj2 (proj2 (proj2 (proj2 (P1 m)))))) Hst) Hca Hx) as [E1 E2]. fold sp in E2. unfold start. rewrite E2.
    exact (proj2 (proj2 (live_reset a view Ha Hd (mkWorld s0 c0 []) m r Hm E1 i Hs))).
  - intros m wr data p ts r s Hm Hda Hst (Hca & (xs & Hx) & ->) i Hs.
    destruct (effect_once a Ha Hb (fun St sp => ctl_write sp m wr data) retries s0 c0 p ts xs r Hc0 Hst (program_stops _ p (P4 m wr data) Hst) Hca Hx) as [E1 E2]. fold sp in E2. unfold start. rewrite E2.
    exact (proj2 (proj2 (proj2 (live_write a view Ha Hd (mkWorld s0 c0 []) m wr data r Hm Hda E1 i Hs)))).
  - intros m l p ts r s Hm Hst (Hca & (xs & Hx) & ->) i Hs.
    destruct (effect_once a Ha Hb (fun St sp => set_leds sp m l) retries s0 c0 p ts xs r Hc0 Hst (program_stops _ p (P2 (HSetLedState m l)) Hst) Hca Hx) as [E1 E2]. fold sp in E2. unfold start. rewrite E2.
    exact (proj2 (live_set_led a view Ha Hd (mkWorld s0 c0 []) m l r Hm E1 i Hs)).
Qed.

(** ** With requests that set things *)
Definition rack_same (s s' : slots) : Prop := forall i, sl_status (s i) = sl_status (s' i) /\ sl_led (s i) = sl_led (s' i) /\ forall p o, sl_cell (s i) p o = sl_cell (s' i) p o.
Lemma setbit_twice b k s : set_to b k (set_to b k s) = set_to b k s.
Proof. apply N.bits_inj. intro j. destruct b; cbn; rewrite ?N.setbit_eqb, ?N.clearbit_eqb; destruct (N.eqb_spec k j); destruct (N.testbit s j); reflexivity. Qed.
Lemma setbits_twice b s : set_to b 1 (set_to b 5 (set_to b 1 (set_to b 5 s))) = set_to b 1 (set_to b 5 s).
Proof.
  apply N.bits_inj. intro j. destruct b; cbn [set_to]; rewrite ?N.setbit_eqb, ?N.clearbit_eqb; destruct (N.eqb_spec 1 j); destruct (N.eqb_spec 5 j); destruct (N.testbit s j); reflexivity.
Qed.
Lemma pin_twice q s : pin_effect q (pin_effect q s) = pin_effect q s.
Proof. destruct q; cbn [pin_effect]; (apply setbit_twice || apply setbits_twice || reflexivity). Qed.
Lemma effect_same q d x y : sl_status x = sl_status y -> sl_led x = sl_led y -> (forall p o, sl_cell x p o = sl_cell y p o) ->
  let x' := slot_effect sl_cell q d x in let y' := slot_effect sl_cell q d y in
  sl_status x' = sl_status y' /\ sl_led x' = sl_led y' /\ forall p o, sl_cell x' p o = sl_cell y' p o.
Proof.
  intros H1 H2 H3. destruct q; cbn [slot_effect is_power_pin sl_status sl_led sl_cell]; rewrite ?H1, ?H2; (split; [reflexivity|]; split; [reflexivity|]); auto.
  intros p o. now rewrite H3.
Qed.
Lemma effect_twice q d x : let x' := slot_effect sl_cell q d x in let y' := slot_effect sl_cell q d x' in
  sl_status y' = sl_status x' /\ sl_led y' = sl_led x' /\ forall p o, sl_cell y' p o = sl_cell x' p o.
Proof.
  destruct q; cbv zeta; cbn [slot_effect is_power_pin sl_status sl_led sl_cell]; rewrite ?pin_twice; (split; [reflexivity|]; split; [reflexivity|]); auto.
  intros p o. now destruct (reaches_b _ _ _).
Qed.
Lemma answer_same q x y : sl_status x = sl_status y -> sl_led x = sl_led y -> (forall p o, sl_cell x p o = sl_cell y p o) -> slot_answer x q = slot_answer y q.
Proof.
  intros H1 H2 H3. destruct q; cbn [slot_answer]; rewrite ?H1, ?H2; try reflexivity. unfold contents, area. apply map_ext. intro k. apply H3.
Qed.
Lemma rack_repeats refuse : repeats rack_same (honest_sp (live_rack (fun _ => refuse) sl_cell)).
Proof.
  assert (Sa : forall s s' q d, rack_same s s' -> rack_same (slots_next (fun _ => refuse) sl_cell s q d) (slots_next (fun _ => refuse) sl_cell s' q d)).
  { intros s s' q d H i. unfold slots_next. destruct (N.testbit _ _); [|apply H]. destruct (refuse q d i); [apply H|]. destruct (H i) as (H1 & H2 & H3). now apply effect_same. }
  assert (An : forall h s s' q d, rack_same s s' -> honest_reply h q (hs_verdict (live_rack (fun _ => refuse) sl_cell) s q d) = honest_reply h q (hs_verdict (live_rack (fun _ => refuse) sl_cell) s' q d)).
  { intros h s s' q d H. apply honest_reply_ext. intro i. cbn [live_rack hs_verdict]. destruct (refuse q d i); [reflexivity|]. f_equal. destruct (H i) as (H1 & H2 & H3).
    apply answer_same; unfold seen; cbn [sl_status sl_led sl_cell]; [congruence|exact H2|]. intros p o. now rewrite H3. }
  constructor.
  - intros s i. auto.
  - intros s s' s'' H H' i. destruct (H i) as (H1 & H2 & H3), (H' i) as (K1 & K2 & K3). split; [congruence|]. split; [congruence|]. intros p o. now rewrite H3.
  - intros s s' r H. unfold honest_sp. destruct (msg_body (rpc_message r)) as [e|q|x|q|x]; try (split; [exact H|reflexivity]). cbn [fst snd]. split; [now apply Sa|now apply An].
  - intros s r. cbv zeta. unfold honest_sp. destruct (msg_body (rpc_message r)) as [e|q|x|q|x]; try (split; [intro i; auto|reflexivity]). cbn [fst snd live_rack hs_next].
    set (d := rpc_data r).
    assert (Tw : rack_same (slots_next (fun _ => refuse) sl_cell (slots_next (fun _ => refuse) sl_cell s q d) q d) (slots_next (fun _ => refuse) sl_cell s q d)).
    { intro i. unfold slots_next. destruct (N.testbit _ _); [|auto]. destruct (refuse q d i); [auto|]. apply effect_twice. }
    split; [exact Tw|]. apply honest_reply_ext. intro i. cbn [live_rack hs_verdict]. destruct (refuse q d i) eqn:Er; [reflexivity|]. f_equal.
    unfold seen, slots_next. rewrite Er. destruct (looking q) eqn:Lq.
    + (* a question changes nothing *)
      destruct (N.testbit _ _); [|reflexivity]. destruct q; try discriminate Lq; reflexivity.
    + destruct q; try discriminate Lq; reflexivity.
Qed.
(** Serving datagrams in the order they were sent is in order. *)
Definition serves_at {St} (t : turn St) : list nat := match t with TNet (MServe k) => [k] | _ => [] end.
Lemma sorted_in_turn {St A} (sp : St -> Rpc -> St * reply) (s0 : sys St A) ts : StronglySorted le (flat_map serves_at ts) -> turns_in_turn sp s0 ts.
Proof.
  intros H pre k mid k' post d d' -> _ _. left. rewrite flat_map_app in H. cbn [flat_map serves_at app] in H. rewrite flat_map_app in H. cbn [flat_map serves_at app] in H.
  induction (flat_map serves_at pre) as [|x l IH]; cbn [app] in H; apply StronglySorted_inv in H; destruct H as [H F]; [|auto].
  rewrite Forall_forall in F. apply F. apply in_elt.
Qed.
Lemma ex_rack_blind : data_blind (live_rack (fun _ _ _ _ => None) sl_cell).
Proof. intros s q. split; [reflexivity|]. cbn [live_rack hs_next]. unfold slots_next. destruct q; reflexivity. Qed.
Lemma memory_suffices {St} (sp : St -> Rpc -> St * reply) : repeats eq (remembering sp) /\ (polite sp -> polite (remembering sp)) /\ (blind sp -> blind (remembering sp)).
Proof. split; [apply remembering_repeats|]. split; [apply remembering_polite|apply remembering_blind]. Qed.
Lemma net_once {St} (E : St -> St -> Prop) (sp : St -> Rpc -> St * reply) : repeats E sp -> polite sp ->
  forall retries s0 ms, let n0 := net_new retries s0 in forallb noise_ok ms = true ->
  Forall (fun r => wf_rpc r = true) (requests (net_log sp n0 ms)) -> NoDup (map rpc_id (requests (net_log sp n0 ms))) ->
  Forall still ms -> in_turn sp n0 ms ->
  exists done, some_of done (requests (net_log sp n0 ms)) /\
    E (nt_sp (net_after sp n0 ms)) (having_done sp s0 (map as_received done)) /\
    forall tag resp, In (OReply tag (Ok resp)) (net_log sp n0 ms) -> exists before q later, done = before ++ q :: later /\
      In (OAccept tag q) (net_log sp n0 ms) /\ rpc_id resp = rpc_id q /\
      snd (sp (having_done sp s0 (map as_received before)) (as_received q)) = Ok resp.
Proof. intros Hr Hp retries s0 ms n0 Hn H1 H2 H3 H4. apply (done_once E sp Hr retries s0 ms Hp Hn). split; [exact H1|]. split; [exact H2|]. now split. Qed.
