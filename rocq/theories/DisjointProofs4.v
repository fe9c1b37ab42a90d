(** Calls at the same time, for different modules (C100): SPs and calls. *)
From Coq Require Import Lia.
From Verif Require Export SpecDisjoint SpecLive SpecApart.
From Verif Require Import Tac Spec ModuleIdProofs ModuleIdProps IoProofs IoProofs3 NetProofs NetProofs2 NetProofs3 ControllerProofs ProgProofs ConcProofs ScopeProofs ScopeProofs2
  LiveProofs LiveProofs2 LiveProofs3 OnceProofs OnceProofs2 OnceProofs3 OnceProofs4 ApartProofs DisjointProofs DisjointProofs2 DisjointProofs3.
Import ListNotations.
Open Scope N_scope.

(** ** With a memory *)
Lemma keeper_done {St} (sp : St -> Rpc -> St * reply) rs : NoDup (map rpc_id rs) -> (forall r, In r rs -> rpc_id r < 2 ^ 64 /\ exists q d, r = host_request (rpc_id r) q d) ->
  forall k, (forall r, In r rs -> wire r <> kp_last k) ->
  let k' := having_done (remembering sp) k (map as_received rs) in
  kp_now k' = having_done sp (kp_now k) (map as_received rs) /\ (kp_last k' = kp_last k \/ exists r, In r rs /\ kp_last k' = wire r).
Proof.
  induction rs as [|r rs IH]; intros Nd H k Hk; cbn zeta; [auto|]. cbn [map having_done fold_left]. inversion Nd as [|? ? Nr Nd']; subst.
  assert (Er : fst (remembering sp k (as_received r)) = mkKeeper (kp_now k) (fst (sp (kp_now k) (as_received r))) (wire r)).
  { unfold remembering. rewrite wire_received. destruct (list_eq_dec _ _ _) as [E|_]; [exfalso; exact (Hk r (or_introl eq_refl) E)|reflexivity]. }
  rewrite Er. destruct (IH Nd' (fun r' Hr' => H r' (or_intror Hr')) (mkKeeper (kp_now k) (fst (sp (kp_now k) (as_received r))) (wire r))) as [I1 I2].
  - intros r' Hr'. cbn [kp_last]. destruct (H r (or_introl eq_refl)) as (L & q & d & E), (H r' (or_intror Hr')) as (L' & q' & d' & E'). rewrite E, E'.
    apply other_wire; [exact L'|exact L|]. intro Ei. apply Nr. rewrite <- Ei. now apply in_map.
  - cbn [kp_now kp_last] in *. split; [exact I1|]. right. destruct I2 as [I2|(r' & Hr' & I2)]; [exists r; split; [now left|exact I2]|exists r'; split; [now right|exact I2]].
Qed.
Lemma remembering_scoped {St} (sp : St -> Rpc -> St * reply) : scoped sp -> scoped (remembering sp).
Proof. intros H s h q d resp r. unfold remembering. destruct (list_eq_dec _ _ _); cbn [snd]; apply H. Qed.
Lemma sub_nodup {B} (a b : list B) : sub a b -> NoDup b -> NoDup a.
Proof.
  induction 1 as [|x a b S IH|x a b S IH]; intro N; [constructor| |].
  - inversion N; subst. constructor; [|auto]. intro H. apply (sub_in _ _ S) in H. contradiction.
  - inversion N; auto.
Qed.
Lemma sub_map {B C} (f : B -> C) a b : sub a b -> sub (map f a) (map f b).
Proof. induction 1; cbn; constructor; assumption. Qed.

Section Kept.
  Context {X A : Type} (sp : (N -> X) -> Rpc -> (N -> X) * reply) (Hpol : polite sp) (Hsc : scoped sp) (Hl : local sp)
          (retries : option N) (s0 : N -> X) (c0 : N) (Hc0 : c0 < 2 ^ 64) (ps : list (prog A)) (ms : list N) (Hk : Forall2 keeps_to ms ps).
  Local Notation bsp := (remembering sp).
  Local Notation s1 := (sys_new retries (new_keeper s0) c0 ps).
  Local Notation log ts := (net_log bsp (net_new retries (new_keeper s0)) (nets bsp s1 ts)).

  Lemma kept_done ts : orderly bsp s1 ts -> exists done, was_done sp s0 (log ts) (kp_now (nt_sp (sy_net (sys_run bsp s1 ts)))) done.
  Proof.
    intros (Hok & Hlen & Hst & Ht). pose proof (fit_all bsp retries (new_keeper s0) c0 Hc0 ps ts Hok Hlen Hst Ht) as F.
    destruct (inv_run bsp retries (new_keeper s0) c0 Hc0 ps ts Hok Hlen) as (n & _ & Hi). pose proof Hi as [Hnet Hnoise _ Htags _ Hnd _ _ _ _].
    destruct (done_once eq bsp (remembering_repeats sp) retries (new_keeper s0) (nets bsp s1 ts) (remembering_polite sp Hpol) Hnoise F) as (done & Hsome & HE & Hrep).
    exists done. pose proof (some_sub _ _ Hsome) as Hsub. pose proof F as (Fw & Fn & _).
    destruct (theirs_run bsp retries (new_keeper s0) c0 Hc0 ps ts Hok Hlen) as (own & [Tl Th Ta _ _]).
    assert (Nd : NoDup (map rpc_id done)) by (eapply sub_nodup; [apply sub_map; exact Hsub|exact Fn]).
    assert (Hh : forall r, In r done -> rpc_id r < 2 ^ 64 /\ exists q d, r = host_request (rpc_id r) q d).
    { intros r Hr. apply (sub_in _ _ Hsub) in Hr. split.
      - destruct (run_used bsp retries (new_keeper s0) c0 ps ts n Hi r Hr) as (j & _ & ->). now apply N.mod_lt.
      - assert (Hr' : In r (requests (log ts) ++ sy_queue (sys_run bsp s1 ts))) by (apply in_or_app; now left).
        pose proof (Th r Hr') as Hj. set (j := own (rpc_id r)) in *. destruct (nth_error ps j) as [p'|] eqn:Ep; [|apply nth_error_None in Ep; lia].
        destruct (nth_error (sy_calls (sys_run bsp s1 ts)) j) as [c'|] eqn:Ec; [|apply nth_error_None in Ec; lia]. destruct (Ta j p' c' Ep Ec) as [_ Hf'].
        assert (Hin : In r (mine own j (requests (log ts) ++ sy_queue (sys_run bsp s1 ts)))) by (apply filter_In; split; [exact Hr'|apply Nat.eqb_refl]).
        revert Hf' Hin. clear. generalize (asks p' (got c') ++ open c'). intros xs F. induction F as [|r' [q d] l xs P F IH]; intro Hi; [destruct Hi|].
        destruct Hi as [->|Hi]; [exists q, d; exact P|auto]. }
    assert (Hne : forall r, In r done -> wire r <> kp_last (new_keeper s0)) by (intros; apply wire_filled).
    split; [exact Hsome|]. split.
    - intro i. rewrite Hnet, HE. now rewrite (proj1 (keeper_done sp done Nd Hh (new_keeper s0) Hne)).
    - intros tag resp Hin. destruct (Hrep tag resp Hin) as (before & q & later & Ed & Ha & _ & Hs). exists before, q, later. split; [exact Ed|]. split; [exact Ha|].
      rewrite Ed, map_app in Nd. cbn [map] in Nd. pose proof (NoDup_remove_2 _ _ _ Nd) as Nq. pose proof (nodup_app_l _ _ Nd) as Nb.
      assert (Hb1 : forall r, In r before -> In r done) by (intros r Hr; rewrite Ed; apply in_or_app; now left).
      destruct (keeper_done sp before Nb (fun r Hr => Hh r (Hb1 r Hr)) (new_keeper s0) (fun r Hr => Hne r (Hb1 r Hr))) as [K1 K2].
      unfold remembering in Hs at 1. rewrite wire_received in Hs. assert (Hq : In q done) by (rewrite Ed; apply in_elt).
      destruct (list_eq_dec _ _ _) as [E|_]; [exfalso|cbn [snd] in Hs; now rewrite K1 in Hs].
      destruct K2 as [K2|(r & Hr & K2)]; rewrite K2 in E; [exact (Hne q Hq E)|].
      destruct (Hh q Hq) as (L & q1 & d1 & E1), (Hh r (Hb1 r Hr)) as (L' & q2 & d2 & E2). rewrite E1, E2 in E. revert E. apply other_wire; [exact L|exact L'|].
      intro Ei. apply Nq, in_or_app. left. rewrite Ei. now apply in_map.
  Qed.
  Lemma kept_apart ts : orderly bsp s1 ts -> let s := sys_run bsp s1 ts in let now := kp_now (nt_sp (sy_net s)) in
    (forall i p m, nth_error ps i = Some p -> has_for_itself ms i m -> exists c, nth_error (sy_calls s) i = Some c /\ undisturbed sp (mkWorld s0 c0 []) now m p c) /\
    (forall k, (forall m, In m ms -> ~ member k m) -> now k = s0 k).
  Proof.
    intros Ho s now. destruct (kept_done ts Ho) as (done & D). destruct Ho as (Hok & Hlen & _). split.
    - intros i p m Hp Hm. exact (calls_apart bsp (remembering_polite sp Hpol) (remembering_scoped sp Hsc) sp Hl retries (new_keeper s0) s0 c0 Hc0 ps ms Hk ts now done i m p Hok Hlen D Hp Hm).
    - intros k Hn. exact (calls_off bsp (remembering_polite sp Hpol) (remembering_scoped sp Hsc) sp Hl retries (new_keeper s0) s0 c0 Hc0 ps ms Hk ts now done k Hok Hlen D Hn).
  Qed.
End Kept.

(** ** Such SPs *)
Lemma indices_member m i : In i (to_indices m) -> member i m.
Proof. intro H. apply member_testbit. now apply in_to_indices in H. Qed.
Lemma reply_ext_in h h' q f g : (forall i, member i (request_modules q) -> f i = g i) -> same_answer (honest_reply h q f) (honest_reply h' q g).
Proof.
  intros H. unfold honest_reply, good_ports, bad_ports. set (m := request_modules q) in *.
  assert (H' : forall i, In i (to_indices m) -> f i = g i) by (intros i Hi; apply H, indices_member, Hi).
  rewrite (filter_ext_in (fun i => is_good (f i)) (fun i => is_good (g i))) by (intros; now rewrite H').
  rewrite (filter_ext_in (fun i => negb (is_good (f i))) (fun i => negb (is_good (g i)))) by (intros; now rewrite H').
  rewrite (map_ext_in (fun i => good_data (f i)) (fun i => good_data (g i)) (filter (fun i => is_good (g i)) (to_indices m))) by (intros i Hi; apply filter_In in Hi; now rewrite H').
  rewrite (map_ext_in (fun i => bad_code (f i)) (fun i => bad_code (g i)) (filter (fun i => negb (is_good (g i))) (to_indices m))) by (intros i Hi; apply filter_In in Hi; now rewrite H').
  cbn. auto.
Qed.
Lemma honest_local {X} (a : honest (N -> X)) : by_itself a -> minds_others a -> local (honest_sp a).
Proof.
  intros H M. split.
  - intros s id q d i Hi. exact (M s q d i Hi).
  - intros s s' id id' q d d' Ed Ag. unfold honest_sp. cbn [msg_body rpc_message host_request message_new fst snd rpc_data rpc_header]. split.
    + intros i Hi. now apply H; [apply Ag| |].
    + apply reply_ext_in. intros i Hi. now apply H; [apply Ag| |].
Qed.
Lemma apart_local {X} (b : bay X) : (forall i x q, by_verdict b i x q (Some []) = by_verdict b i x q None /\ by_next b i x q (Some []) = by_next b i x q None) -> local (honest_sp (apart b)).
Proof.
  intro H. assert (G : forall i x q d d', carried d = carried d' -> by_verdict b i x q d = by_verdict b i x q d' /\ by_next b i x q d = by_next b i x q d').
  { intros i x q d d' E. destruct (H i x q) as [H1 H2]. destruct d as [[|]|], d' as [[|]|]; cbn in E; try discriminate; try (injection E as -> ->); auto. }
  apply honest_local.
  - intros s s' q d d' i Es Ed Hi. rewrite member_testbit in Hi. cbn [apart hs_verdict hs_next]. rewrite Hi, Es. now apply G.
  - intros s q d i Hi. rewrite member_testbit in Hi. cbn [apart hs_next]. now destruct (N.testbit _ i).
Qed.
Lemma rack_local : local (honest_sp (live_rack (fun _ _ _ _ => None) sl_cell)).
Proof.
  apply honest_local.
  - intros s s' q d d' i Es Ed Hi. rewrite member_testbit in Hi. cbn [live_rack hs_verdict hs_next]. unfold slots_next, seen. rewrite Hi, Es. split; [reflexivity|].
    destruct q; cbn [slot_effect]; try reflexivity. destruct d as [[|]|], d' as [[|]|]; cbn in Ed; try discriminate; try (injection Ed as -> ->); reflexivity.
  - intros s q d i Hi. rewrite member_testbit in Hi. cbn [live_rack hs_next]. unfold slots_next. now destruct (N.testbit _ i).
Qed.

(** ** The calls *)
Lemma keeps_call {A} m (c : forall St, (St -> Rpc -> St * reply) -> ctl (St := St) A) p : (forall St (sp : St -> Rpc -> St * reply), scoped sp -> addresses m (c St sp)) -> steps_of c p -> keeps_to m p.
Proof. intros H S St sp Hs w q d i Hi. apply (H St sp Hs w q d i). unfold deeds in *. now rewrite S. Qed.
Lemma keeps_map {A B} m (c : forall St, (St -> Rpc -> St * reply) -> ctl (St := St) A) (f : A -> B) p : (forall St (sp : St -> Rpc -> St * reply), scoped sp -> addresses m (c St sp)) ->
  steps_of (fun St sp => cbind (c St sp) (fun x => cret (Ok (f x)))) p -> keeps_to m p.
Proof.
  intros H. apply (keeps_call m). intros St sp Hs w q d i Hi. apply (H St sp Hs w q d i). unfold deeds in *. unfold cbind in Hi. destruct (c St sp w) as [w' [x|e|]]; exact Hi.
Qed.
Lemma calls_keep m :
  keeps_within m (fun St sp => leds sp m) /\ keeps_within m (fun St sp => ctl_status sp m) /\ keeps_within m (fun St sp => extended_status sp m) /\
  keeps_within m (fun St sp => identifier sp m) /\ keeps_within m (fun St sp => reset sp m) /\ keeps_within m (fun St sp => power sp m) /\
  (forall q, request_modules q = m -> keeps_within m (fun St sp => no_payload_request sp q)) /\
  (forall rd, keeps_within m (fun St sp => ctl_read sp m rd)) /\ (forall wr data, keeps_within m (fun St sp => ctl_write sp m wr data)) /\
  (forall st, keeps_within m (fun St sp => set_power sp m st)) /\
  (forall P reads (parse : Identifier -> list (list N) -> outcome DecodeError P), keeps_within m (fun St sp => parse_modules_by_identifier sp reads parse m)) /\
  keeps_within 0 (fun St sp => mac_addrs sp).
Proof.
  assert (G : forall A m (c : forall St, (St -> Rpc -> St * reply) -> ctl (St := St) A), (forall St (sp : St -> Rpc -> St * reply), scoped sp -> addresses m (c St sp)) -> keeps_within m c).
  { intros A m' c H. split; [intro p; now apply keeps_call|intros B f p; now apply keeps_map]. }
  assert (C := fun St sp H => @all_confined St sp H m).
  split; [apply G; intros St sp H; apply (C St sp H)|]. split; [apply G; intros St sp H; apply (C St sp H)|]. split; [apply G; intros St sp H; apply (C St sp H)|].
  split; [apply G; intros St sp H; apply (C St sp H)|]. split; [apply G; intros St sp H; apply (C St sp H)|]. split; [apply G; intros St sp H; apply (C St sp H)|].
  split; [intros q Hq; apply G; intros St sp H; now apply (C St sp H)|]. split; [intros rd; apply G; intros St sp H; apply (C St sp H)|].
  split; [intros wr data; apply G; intros St sp H; apply (C St sp H)|]. split; [intros st; apply G; intros St sp H; apply (C St sp H)|].
  split; [intros P reads parse; apply G; intros St sp H; apply (C St sp H)|].
  apply G. intros St sp H w q d i Hi Hq. destruct (query_exact St sp 0 w) as (_ & E & _). rewrite E in Hi. destruct Hi as [[= <- <-]|[]]. exact Hq.
Qed.
