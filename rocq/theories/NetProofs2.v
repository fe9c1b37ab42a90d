(** Calls over a lossy path (C60), and the controller on top of the loop and the network (C61). *)
From Verif Require Export NetProofs.
From Verif Require Import Tac Spec ModuleIdProofs CodecProofs MessageProofs IoProofs3 ControllerProofs.

Definition grows {St A} (c : ctl (St := St) A) : Prop :=
  forall w, exists l, w_log (fst (c w)) = w_log w ++ l.

Section Sim.
  Context {St St' : Type} (I : St' -> N -> Prop) (sp' : St' -> Rpc -> St' * reply)
    (sp : St -> Rpc -> St * reply) (Hl : lossy I sp' sp).

  Definition sim {A} (c' : ctl (St := St') A) (c : ctl (St := St) A) : Prop :=
    grows c /\
    forall w' w, I (w_sp w') (w_counter w') -> w_counter w' = w_counter w ->
      (not_ok (snd (c' w')) /\ exists l r, w_log (fst (c' w')) = w_log w' ++ l /\
                                           w_log (fst (c w)) = w_log w ++ l ++ r) \/
      (snd (c' w') = snd (c w) /\ I (w_sp (fst (c' w'))) (w_counter (fst (c' w'))) /\
       w_counter (fst (c' w')) = w_counter (fst (c w)) /\
       exists l, w_log (fst (c' w')) = w_log w' ++ l /\ w_log (fst (c w)) = w_log w ++ l).

  Lemma sim_ret {A} (x : outcome Error A) : sim (cret x) (cret x).
  Proof.
    split. { intros w. exists []. cbn. now rewrite app_nil_r. }
    intros w' w HI E. right. cbn. repeat split; auto. exists []. now rewrite !app_nil_r.
  Qed.
  Lemma sim_sleep t : sim (sleep t) (sleep t).
  Proof.
    split. { intros w. now exists [ASleep t]. }
    intros w' w HI E. right. cbn. repeat split; auto. now exists [ASleep t].
  Qed.
  Lemma sim_rpc q d : sim (rpc sp' q d) (rpc sp q d).
  Proof.
    split. { intros w. rewrite rpc_eq. cbn. eexists. reflexivity. }
    intros w' w HI E. rewrite !rpc_eq. cbn [fst snd w_log w_sp w_counter stepped].
    assert (Er : req w' q d = req w q d) by (unfold req; now rewrite E).
    rewrite Er. destruct (Hl (w_sp w') (w_sp w) q d (w_counter w') HI) as [Hi Hr].
    rewrite E in *. fold (req w q d) in *. destruct Hr as [Hr|Hr].
    - right. repeat split; auto. now exists [ASend (req w q d)].
    - left. split; [exact Hr|]. exists [ASend (req w q d)], []. split; reflexivity.
  Qed.
  Lemma sim_bind {A B} c' c (f' : A -> ctl (St := St') B) (f : A -> ctl (St := St) B) :
    sim c' c -> (forall a, sim (f' a) (f a)) -> sim (cbind c' f') (cbind c f).
  Proof.
    intros [Hg Hs] Hf.
    assert (Hgr : grows (cbind c f)).
    { intros w. destruct (Hg w) as (l & E). unfold cbind. destruct (c w) as [w1 [a|e|]]; cbn in E |- *; eauto.
      destruct (proj1 (Hf a) w1) as (l2 & E2). exists (l ++ l2). now rewrite E2, E, app_assoc. }
    split; [exact Hgr|].
    intros w' w HI E. destruct (Hs w' w HI E) as [(Hn & l & r & E1 & E2)|(Ex & HI1 & Ec & l & E1 & E2)].
    - left. unfold cbind at 1 2. destruct (c' w') as [w1' x'] eqn:Ec'. cbn in Hn, E1.
      destruct x' as [a|e|]; [now destruct (Hn a)| |].
      + split; [intros a; discriminate|].
        unfold cbind. destruct (c w) as [w1 [a|e'|]]; cbn in E2 |- *; [|exists l, r; auto|exists l, r; auto].
        destruct (proj1 (Hf a) w1) as (l2 & E3). exists l, (r ++ l2). split; [exact E1|]. now rewrite E3, E2, <- !app_assoc.
      + split; [intros a; discriminate|].
        unfold cbind. destruct (c w) as [w1 [a|e'|]]; cbn in E2 |- *; [|exists l, r; auto|exists l, r; auto].
        destruct (proj1 (Hf a) w1) as (l2 & E3). exists l, (r ++ l2). split; [exact E1|]. now rewrite E3, E2, <- !app_assoc.
    - unfold cbind. destruct (c' w') as [w1' x'], (c w) as [w1 x]. cbn in *. subst x'.
      destruct x as [a|e|]; cbn.
      + destruct (proj2 (Hf a) w1' w1 HI1 Ec) as [(Hn & l1 & r & E3 & E4)|(Ex & HI2 & Ec2 & l1 & E3 & E4)].
        * left. split; [exact Hn|]. exists (l ++ l1), r. rewrite E3, E4, E1, E2, <- !app_assoc. auto.
        * right. repeat split; auto. exists (l ++ l1). rewrite E3, E4, E1, E2, <- !app_assoc. auto.
      + right. repeat split; eauto.
      + right. repeat split; eauto.
  Qed.

  Lemma skipn_app_exact {A} (a b : list A) : skipn (length a) (a ++ b) = b.
  Proof. induction a; cbn; auto. Qed.
  Lemma sim_follows {A} (c' : ctl (St := St') A) c : sim c' c -> follows I c' c.
  Proof.
    intros [_ H] w' w HI E. unfold deeds.
    destruct (H w' w HI E) as [(Hn & l & r & -> & ->)|(Ex & _ & _ & l & -> & ->)].
    - left. split; [exact Hn|]. rewrite !skipn_app_exact. exists (flat_map deed r). apply flat_map_app.
    - right. rewrite !skipn_app_exact. auto.
  Qed.

  Ltac sim :=
    repeat first
      [ apply sim_ret | apply sim_sleep | apply sim_rpc
      | apply sim_bind; [|intros ?]
      | match goal with
        | |- sim (match ?x with _ => _ end) _ => destruct x
        | |- sim (if ?x then _ else _) _ => destruct x
        end ].

  Lemma sim_leds m : sim (leds sp' m) (leds sp m). Proof. unfold leds, unexpected. sim. Qed.
  Lemma sim_npr q : sim (no_payload_request sp' q) (no_payload_request sp q).
  Proof. unfold no_payload_request, unexpected. sim. Qed.
  Lemma sim_mac : sim (mac_addrs sp') (mac_addrs sp). Proof. unfold mac_addrs, unexpected. sim. Qed.
  Lemma sim_status m : sim (ctl_status sp' m) (ctl_status sp m). Proof. unfold ctl_status, unexpected. sim. Qed.
  Lemma sim_ext m : sim (extended_status sp' m) (extended_status sp m).
  Proof. unfold extended_status, unexpected. sim. Qed.
  Lemma sim_one m rd : sim (read_impl_one_message sp' m rd) (read_impl_one_message sp m rd).
  Proof. unfold read_impl_one_message, unexpected. sim. Qed.
  Lemma sim_read_rest l rd r : sim (read_rest sp' l rd r) (read_rest sp l rd r).
  Proof.
    revert r. induction l as [|m l IH]; intros r; cbn [read_rest]; [apply sim_ret|].
    apply sim_bind; [apply sim_one|]. intros x. apply sim_bind; [apply sim_ret|]. intros y. apply IH.
  Qed.
  Lemma sim_read_impl m rd : sim (read_impl sp' m rd) (read_impl sp m rd).
  Proof.
    unfold read_impl. destruct (_ || _); [apply sim_ret|]. apply sim_bind; [apply sim_ret|]. intros [|x l]; [apply sim_ret|].
    apply sim_bind; [apply sim_one|]. intros r. apply sim_read_rest.
  Qed.
  Lemma sim_identifier m : sim (identifier sp' m) (identifier sp m).
  Proof.
    unfold identifier. apply sim_bind; [apply sim_ret|]. intros rd. apply sim_bind; [apply sim_read_impl|].
    intros r. apply sim_ret.
  Qed.
  Lemma sim_read m rd : sim (ctl_read sp' m rd) (ctl_read sp m rd).
  Proof.
    unfold ctl_read. destruct (_ || _); [apply sim_ret|]. apply sim_bind; [apply sim_identifier|]. intros id.
    apply sim_bind; [apply sim_ret|]. intros _. apply sim_bind; [apply sim_read_impl|]. intros r. apply sim_ret.
  Qed.
  Lemma sim_write_impl m wr d : sim (write_impl sp' m wr d) (write_impl sp m wr d).
  Proof. unfold write_impl, unexpected. sim. Qed.
  Lemma sim_write m wr d : sim (ctl_write sp' m wr d) (ctl_write sp m wr d).
  Proof.
    unfold ctl_write. apply sim_bind; [apply sim_identifier|]. intros id.
    apply sim_bind; [apply sim_ret|]. intros _. apply sim_bind; [apply sim_write_impl|]. intros r. apply sim_ret.
  Qed.
  Lemma sim_reset m : sim (reset sp' m) (reset sp m).
  Proof.
    unfold reset. apply sim_bind; [apply sim_npr|]. intros a. apply sim_bind; [apply sim_sleep|]. intros _.
    apply sim_bind; [apply sim_npr|]. intros b. apply sim_bind; [apply sim_sleep|]. intros _. apply sim_ret.
  Qed.
  Lemma sim_read_each m l : sim (read_each sp' m l) (read_each sp m l).
  Proof.
    induction l as [|rd l IH]; cbn [read_each]; [apply sim_ret|].
    apply sim_bind; [apply sim_read_impl|]. intros r. apply sim_bind; [apply IH|]. intros rs. apply sim_ret.
  Qed.
  Lemma sim_groups {P} reads (parse : Identifier -> list (list N) -> outcome DecodeError P) l s :
    sim (parse_groups sp' reads parse l s) (parse_groups sp reads parse l s).
  Proof.
    revert s. induction l as [|[id m] l IH]; intros s; cbn [parse_groups]; [apply sim_ret|].
    apply sim_bind; [apply sim_ret|]. intros rds. apply sim_bind; [apply sim_read_each|]. intros rs.
    apply sim_bind; [apply sim_ret|]. intros s'. apply IH.
  Qed.
  Lemma sim_parse {P} reads (parse : Identifier -> list (list N) -> outcome DecodeError P) m :
    sim (parse_modules_by_identifier sp' reads parse m) (parse_modules_by_identifier sp reads parse m).
  Proof.
    unfold parse_modules_by_identifier. apply sim_bind; [apply sim_identifier|]. intros id.
    apply sim_bind; [apply sim_ret|]. intros g. apply sim_bind; [apply sim_groups|]. intros s. apply sim_ret.
  Qed.
  Lemma sim_power m : sim (power sp' m) (power sp m).
  Proof.
    unfold power. apply sim_bind; [apply sim_status|]. intros st.
    destruct (filter_module_data _ _ _) as [pw ps]. destruct (filter_module_data _ _ _) as [ir ?].
    destruct (remove_module_data _ _ _) as [rd rs]. apply sim_bind.
    - destruct (Nat.eqb _ _); [apply sim_ret|]. apply sim_bind; [apply sim_parse|]. intros c.
      destruct (filter_module_data _ _ _). apply sim_ret.
    - intros r. destruct (merge_module_data _ _ _ _). apply sim_ret.
  Qed.
  Lemma sim_soft_write id st o m s : sim (soft_write sp' id st o m s) (soft_write sp id st o m s).
  Proof.
    destruct s as [[a b] c]. cbn [soft_write]. apply sim_bind; [apply sim_ret|]. intros ww.
    apply sim_bind; [apply sim_write_impl|]. intros r. destruct (remove_module_data _ _ _). apply sim_ret.
  Qed.
  Lemma sim_soft_groups st l s : sim (soft_groups sp' st l s) (soft_groups sp st l s).
  Proof.
    revert s. induction l as [|[id m] l IH]; intros s; cbn [soft_groups]; [apply sim_ret|].
    destruct s as [[a b] c]. destruct (filter_module_data _ _ _) as [wo ?].
    destruct (filter_module_data _ _ _) as [wo2 ?].
    apply sim_bind; [apply sim_soft_write|]. intros s1. apply sim_bind; [apply sim_soft_write|]. intros s2. apply IH.
  Qed.
  Lemma sim_ssps pr st : sim (set_software_power_state sp' pr st) (set_software_power_state sp pr st).
  Proof.
    unfold set_software_power_state. destruct st; try apply sim_ret;
    (apply sim_bind; [apply sim_identifier|]; intros id; apply sim_bind; [apply sim_ret|]; intros g;
     destruct (keep_module_data _ _ _); apply sim_bind; [apply sim_soft_groups|]; intros s; apply sim_ret).
  Qed.
  Lemma sim_set_power m st : sim (set_power sp' m st) (set_power sp m st).
  Proof.
    assert (Hon : sim (set_power_on sp' m st) (set_power_on sp m st)).
    { unfold set_power_on. apply sim_bind; [apply sim_power|]. intros p.
      destruct (_ && _); [apply sim_ret|]. apply sim_bind; [apply sim_status|]. intros s.
      destruct (filter_module_data _ _ _) as [npe ?]. destruct (filter_module_data _ _ _) as [nrd ?].
      apply sim_bind.
      { destruct (Nat.ltb _ _); [|apply sim_ret]. apply sim_bind; [apply sim_npr|]. intros a.
        apply sim_bind; [apply sim_sleep|]. intros _. apply sim_ret. }
      intros s1. apply sim_bind.
      { destruct (Nat.ltb _ _); [|apply sim_ret]. apply sim_bind; [apply sim_npr|]. intros a. apply sim_ret. }
      intros s2. apply sim_bind. { destruct st; apply sim_npr. }
      intros lp. apply sim_bind.
      { destruct (Nat.ltb _ _); [|apply sim_ret]. apply sim_bind; [apply sim_npr|]. intros a.
        apply sim_bind; [apply sim_sleep|]. intros _. apply sim_ret. }
      intros s4. destruct (keep_module_data _ _ _). apply sim_ssps. }
    destruct st; cbn [set_power]; try exact Hon.
    unfold set_power_off. apply sim_bind; [apply sim_npr|]. intros a. apply sim_bind; [apply sim_npr|]. intros b.
    apply sim_bind; [apply sim_npr|]. intros c. apply sim_ret.
  Qed.

  Lemma all_follow m :
    follows I (leds sp' m) (leds sp m) /\ follows I (ctl_status sp' m) (ctl_status sp m) /\
    follows I (extended_status sp' m) (extended_status sp m) /\ follows I (mac_addrs sp') (mac_addrs sp) /\
    follows I (identifier sp' m) (identifier sp m) /\ follows I (reset sp' m) (reset sp m) /\
    follows I (power sp' m) (power sp m) /\
    (forall q, follows I (no_payload_request sp' q) (no_payload_request sp q)) /\
    (forall rd, follows I (ctl_read sp' m rd) (ctl_read sp m rd)) /\
    (forall wr data, follows I (ctl_write sp' m wr data) (ctl_write sp m wr data)) /\
    (forall st, follows I (set_power sp' m st) (set_power sp m st)) /\
    (forall P reads (parse : Identifier -> list (list N) -> outcome DecodeError P),
       follows I (parse_modules_by_identifier sp' reads parse m) (parse_modules_by_identifier sp reads parse m)).
  Proof.
    repeat apply conj; intros; apply sim_follows;
      auto using sim_leds, sim_status, sim_ext, sim_mac, sim_identifier, sim_reset, sim_power, sim_npr, sim_read,
        sim_write, sim_set_power, @sim_parse.
  Qed.
End Sim.

(** ** The controller on top of the loop and the network *)
Lemma NoDup_app_one {A} (l : list A) x : NoDup l -> ~ In x l -> NoDup (l ++ [x]).
Proof.
  induction 1 as [|y l Hy Hl IH]; cbn; intros Hx; [repeat constructor; tauto|].
  constructor; [|tauto]. rewrite in_app_iff. cbn. intuition.
Qed.
Lemma id_gap c k : c < 2 ^ 64 -> 0 < k -> k < 2 ^ 64 -> (c + k) mod 2 ^ 64 <> c.
Proof.
  intros Hc Hk Hk' E. destruct (N.ltb_spec (c + k) (2 ^ 64)) as [H|H].
  - rewrite N.mod_small in E by exact H. lia.
  - replace (c + k) with ((c + k - 2 ^ 64) + 1 * 2 ^ 64) in E by lia.
    rewrite N.mod_add in E by discriminate. rewrite N.mod_small in E by lia. lia.
Qed.

Section Wired.
  Context {St : Type} (sp : St -> Rpc -> St * reply) (Hpol : polite sp) (Hconst : constant sp)
    (Hblind : blind sp) (retries : option N) (s0 : St).

  Lemma datagram_requests s peer d : requests (snd (handle_datagram s peer d)) = [].
  Proof.
    unfold handle_datagram. destruct (dec_header _) as [[h rx]|]; [|reflexivity].
    destruct (h_kind h); try reflexivity;
      unfold handle_sp_request, handle_sp_response, handle_sp_error, fail_matching, IoLoop.answer;
      repeat match goal with |- context [match ?x with _ => _ end] => destruct x end; reflexivity.
  Qed.
  Lemma step_requests n m : requests (snd (net_step sp n m)) = [] \/
    requests (snd (net_step sp n m)) = handed_over [m].
  Proof.
    destruct (step_event sp n m) as [_ ->]. destruct (move_event n m) as [e|] eqn:E; [|now left].
    destruct m; cbn in E; try discriminate; try injection E as <-; cbn [handed_over flat_map app];
      unfold step; (destruct (l_status (nt_loop n)); [|now left|now left]);
      try (left; apply datagram_requests); try (left; destruct (l_out (nt_loop n)); reflexivity); try (left; reflexivity).
    - destruct (l_out (nt_loop n)); [now left|].
      unfold send_outgoing_request, IoLoop.answer. right.
      destruct (request_packet _); [|reflexivity]. destruct io; reflexivity.
    - left. unfold handle_tick. destruct (l_out _); [|reflexivity].
      unfold send_outgoing_request, IoLoop.answer.
      repeat match goal with |- context [if ?b then _ else _] => destruct b end; try reflexivity;
      destruct (request_packet _); reflexivity.
    - left. destruct r; try reflexivity. unfold send_outgoing_response. destruct (Nat.leb _ _); reflexivity.
    - left. destruct (nth_error _ _); [|discriminate]. injection E as <-. apply datagram_requests.
  Qed.
  Lemma run_requests n ms : NoDup (map rpc_id (handed_over ms)) ->
    NoDup (map rpc_id (requests (net_log sp n ms))) /\ incl (requests (net_log sp n ms)) (handed_over ms).
  Proof.
    revert n. induction ms as [|m ms IH]; intros n Hn; [split; [constructor|intros x []]|].
    rewrite net_log_cons, requests_app. change (m :: ms) with ([m] ++ ms) in *.
    unfold handed_over in Hn |- *. rewrite flat_map_app in *. fold (handed_over [m]) in *. fold (handed_over ms) in *.
    rewrite map_app in *.
    assert (Hn' : NoDup (map rpc_id (handed_over ms))).
    { destruct m; cbn in Hn; try exact Hn. now inversion Hn. }
    destruct (IH (fst (net_step sp n m)) Hn') as [H1 H2].
    destruct (step_requests n m) as [->| ->].
    - split; [exact H1|]. cbn [app]. intros x Hx. apply in_app_iff. right. auto.
    - split.
      + destruct m; cbn in *; try exact H1. inversion_clear Hn as [|? ? Hx _]. constructor; [|exact H1].
        intros K. apply Hx. apply in_map_iff in K. destruct K as (y & <- & Hy). apply in_map. auto.
      + intros x. rewrite !in_app_iff. intros [|]; auto.
  Qed.

  Lemma handed_in (ms : list (move St)) r : In r (handed_over ms) <-> exists tag io, In (MRequest tag r io) ms.
  Proof.
    unfold handed_over. rewrite in_flat_map. split.
    - intros (m & Hm & Hr). destruct m; cbn in Hr; try tauto. destruct Hr as [<-|[]]. eauto.
    - intros (tag & io & H). exists (MRequest tag r io). split; [exact H|now left].
  Qed.
  Lemma own_handed (l : list (move St)) : forallb own_schedule l = true -> handed_over l = [] /\ forallb noise_ok l = true.
  Proof.
    induction l as [|m l IH]; [auto|]. cbn [forallb]. rewrite andb_true_iff. intros [Hm Hl].
    destruct (IH Hl) as [E1 E2]. unfold own_schedule in Hm. apply andb_prop in Hm. destruct Hm as [Ha Hb].
    rewrite Ha, E2. split; [|reflexivity]. destruct m; cbn; try exact E1; discriminate.
  Qed.

  Lemma reply_to_in tag l resp : reply_to tag l = Ok resp -> In (OReply tag (Ok resp)) l.
  Proof.
    unfold reply_to. destruct (find _ _) as [o|] eqn:E; [|discriminate]. apply find_some in E. destruct E as [Hi Ht].
    destruct o; try discriminate. intros ->. apply N.eqb_eq in Ht. now subst.
  Qed.

  Lemma wired_lossy : lossy (in_use sp retries s0) (wired_sp sp) sp.
  Proof.
    intros x s q d c HI. cbv zeta. set (r := mkRpc _ _ d).
    assert (Hid : rpc_id r = c) by reflexivity.
    destruct HI as (ms & Hx & Hn & Hq & Hnd & Hs & Hlen & Hc & Hfresh).
    destruct x as [n scheds]. cbn [fst snd] in *. unfold wired_sp. cbn [fst snd].
    destruct scheds as [|l rest].
    { cbn [fst snd]. split; [|right; intros a; discriminate].
      exists ms. cbn [fst snd]. repeat (split; [assumption|]). split; [apply N.mod_lt; discriminate|].
      intros j Hj. exfalso. unfold Nlen in Hj. cbn in Hj. lia. }
    apply Forall_cons_iff in Hs. destruct Hs as [Hl Hrest].
    assert (Hlen' : Nlen (l :: rest) = Nlen rest + 1) by (unfold Nlen; cbn [length]; lia).
    assert (Hmod : forall j, ((c + 1) mod 2 ^ 64 + j) mod 2 ^ 64 = (c + (j + 1)) mod 2 ^ 64).
    { intros j. rewrite N.add_mod_idemp_l by discriminate. f_equal. lia. }
    destruct (wf_rpc r) eqn:Hw.
    2:{ cbn [fst snd]. split; [|right; intros a; discriminate].
        exists ms. cbn [fst snd]. repeat (split; [assumption|]).
        split; [lia|]. split; [apply N.mod_lt; discriminate|].
        intros j Hj. rewrite Hmod. apply Hfresh. lia. }
    destruct (own_handed _ Hl) as [Eh En].
    set (ms' := ms ++ MRequest (rpc_id r) r true :: l).
    assert (Eho : handed_over ms' = handed_over ms ++ [r]).
    { unfold ms', handed_over. rewrite flat_map_app. f_equal. cbn [flat_map]. fold (handed_over l). now rewrite Eh. }
    assert (Hn' : forallb noise_ok ms' = true).
    { unfold ms'. rewrite forallb_app, Hn. cbn [forallb]. exact En. }
    assert (Hq' : forall tag r0 io, In (MRequest tag r0 io) ms' -> wf_rpc r0 = true /\ tag = rpc_id r0).
    { intros tag r0 io. unfold ms'. rewrite in_app_iff. cbn [In]. intros [H|[H|H]]; [eauto| |].
      - injection H as <- <- <-. auto.
      - exfalso. assert (In r0 (handed_over l)) by (apply handed_in; eauto). now rewrite Eh in H0. }
    assert (Hmc : c mod 2 ^ 64 = c) by now apply N.mod_small.
    assert (Hnd' : NoDup (map rpc_id (handed_over ms'))).
    { rewrite Eho, map_app. cbn [map]. apply NoDup_app_one; [exact Hnd|].
      rewrite Hid. specialize (Hfresh 0). rewrite N.add_0_r, Hmc in Hfresh. apply Hfresh. lia. }
    assert (Erun : net_run sp n (MRequest (rpc_id r) r true :: l) =
      (net_after sp (net_new retries s0) ms', net_log sp n (MRequest (rpc_id r) r true :: l))).
    { unfold ms'. rewrite net_after_app, <- Hx. unfold net_after, net_log. now destruct (net_run sp n _). }
    rewrite Erun. cbn [fst snd]. split.
    - exists ms'. cbn [fst snd]. repeat (split; [first [assumption|reflexivity]|]).
      split; [lia|]. split; [apply N.mod_lt; discriminate|].
      intros j Hj. rewrite Hmod, Eho, map_app, in_app_iff. intros [K|[K|[]]].
      + revert K. apply Hfresh. lia.
      + rewrite Hid in K. clear - K Hc Hj Hlen Hlen' .
        assert (E : (c + (j + 1)) mod 2 ^ 64 = c) by now symmetry.
        apply (id_gap c (j + 1)) in E; lia.
    - destruct (reply_to (rpc_id r) (net_log sp n (MRequest (rpc_id r) r true :: l))) as [resp|e|] eqn:E;
        [left|right; intros a; discriminate|right; intros a; discriminate].
      apply reply_to_in in E.
      destruct (run_requests (net_new retries s0) ms' Hnd') as [HN Hincl].
      assert (Hall : Forall (fun r => wf_rpc r = true) (requests (net_log sp (net_new retries s0) ms'))).
      { apply Forall_forall. intros r0 H0. apply Hincl, handed_in in H0. destruct H0 as (tag & io & H0).
        apply (Hq' _ _ _ H0). }
      assert (Hin : In (OReply (rpc_id r) (Ok resp)) (net_log sp (net_new retries s0) ms')).
      { unfold ms'. rewrite net_log_app, <- Hx, in_app_iff. now right. }
      destruct (net_sound sp Hpol retries s0 ms' _ _ Hn' Hall HN Hin) as (pre & q' & mid & k & post & Em & _ & _ & Hr).
      assert (Hmem : In (MRequest (rpc_id r) q' true) ms') by (rewrite Em; apply in_app_iff; right; now left).
      assert (q' = r).
      { apply (nodup_same rpc_id (handed_over ms')); auto.
        - apply handed_in. eauto.
        - rewrite Eho. apply in_app_iff. right. now left.
        - symmetry. apply (Hq' _ _ _ Hmem). }
      subst q'. rewrite Hblind in Hr. rewrite <- Hr. apply Hconst.
  Qed.
End Wired.
