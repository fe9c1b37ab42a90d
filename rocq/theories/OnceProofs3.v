(** One call over a network that keeps order does what it does alone (C96): the theorem. *)
From Coq Require Import Lia.
From Verif Require Export SpecOnce.
From Verif Require Import Tac Spec IoProofs IoProofs2 IoProofs3 NetProofs NetProofs2 ProgProofs ConcProofs OnceProofs OnceProofs2.
Import ListNotations.
Open Scope N_scope.

Lemma accept_tags {St} (sp : St -> Rpc -> St * reply) n ms tag q : In (OAccept tag q) (net_log sp n ms) -> exists io, In (MRequest tag q io) ms.
Proof.
  revert n. induction ms as [|m ms IH]; intros n H; [destruct H|]. rewrite net_log_cons in H. apply in_app_or in H. destruct H as [H|H].
  - assert (G : exists io, m = MRequest tag q io).
    { destruct m; try (exfalso; assert (Z : In q (requests (snd (net_step sp n _)))) by (unfold requests; apply in_flat_map; exists (OAccept tag q); split; [exact H|now left]);
        rewrite requests_none in Z by exact I; exact Z).
      cbn [net_step move_event] in H. unfold step in H. destruct (l_status _); try (destruct H; fail). destruct (l_out _); [destruct H|].
      destruct (send_outgoing_request _ _ _) as [s out] eqn:Es. cbn [snd] in H. destruct H as [H|H]; [injection H as -> ->; eauto|]. exfalso.
      unfold send_outgoing_request in Es. destruct (request_packet _); [|injection Es as _ <-; destruct H as [H|[]]; discriminate].
      destruct io; [injection Es as _ <-; destruct H as [H|[]]; discriminate|]. cbn in Es. injection Es as _ <-. destruct H as [H|[H|[]]]; discriminate. }
    destruct G as [io ->]. exists io. now left.
  - destruct (IH _ H) as [io Hi]. exists io. now right.
Qed.

Lemma firstn_map_app {A B} (f : A -> B) l l' : firstn (length l) (map f l ++ l') = map f l.
Proof. rewrite firstn_app, map_length, Nat.sub_diag. cbn [firstn]. rewrite app_nil_r. apply firstn_all2. rewrite map_length. lia. Qed.
Section Call.
  Context {St A : Type} (E : St -> St -> Prop) (sp : St -> Rpc -> St * reply) (Hpol : polite sp) (Hb : blind sp) (Hr : repeats E sp)
          (retries : option N) (s0 : St) (c0 : N) (Hc0 : c0 < 2 ^ 64) (p : prog A).
  Notation n0 := (net_new retries s0).
  Notation sys0 := (sys_new retries s0 c0 [p]).
  Notation sys_run := (sys_run (A := A) sp sys0).
  Notation nets := (nets sp sys0).
  Notation log ts := (net_log sp n0 (nets ts)).

  Lemma call_done ts c oks last : forallb turn_ok ts = true -> few_turns ts -> Forall still_turn ts -> turns_in_turn sp sys0 ts ->
    one c0 p (length ts) (sys_run ts) (log ts) c -> (forall m r, nth_error oks m = Some r -> nth_error (got c) m = Some (Ok r)) ->
    asked p (got c) c0 ++ pend c = asked p (map Ok oks) c0 ++ last ->
    (last = [] \/ exists q d k, resume p (map Ok oks) = Ask q d k /\ last = [host_request ((c0 + N.of_nat (length oks)) mod 2 ^ 64) q d]) ->
    let Q := asked p (map Ok oks) c0 in
    (exists done, (done = Q \/ done = Q ++ last) /\ E (nt_sp (sy_net (sys_run ts))) (having_done sp s0 (map as_received done))) /\
    (forall m q resp, nth_error Q m = Some q -> nth_error oks m = Some resp -> snd (sp (having_done sp s0 (map as_received (firstn m Q))) (as_received q)) = Ok resp).
  Proof.
    intros Hok Hlen Hst Ht [Hfew Hc Hat Hask Hctr Hid Hgot] Hoks Htail Hlast Q.
    pose proof (fit_turns sp retries s0 c0 Hc0 p ts Hok Hlen Hst Ht) as F.
    destruct (inv_run sp retries s0 c0 Hc0 [p] ts Hok Hlen) as (n & _ & [Hnet Hnoise _ Htags _ _ _ _ _ _]).
    destruct (done_once E sp Hr retries s0 (nets ts) Hpol Hnoise F) as (done & Hsome & HE & Hrep). rewrite Hnet.
    set (L := requests (log ts)) in *. rewrite Htail in Hask. fold Q in Hask.
    assert (Lq : length Q = length oks \/ last = [] /\ (length Q <= length oks)%nat).
    { destruct (asked_length p (map Ok oks) c0) as [L1 L2]. rewrite map_length in L1, L2. fold Q in L1, L2. destruct Hlast as [->|(q & d & k & R & _)]; [now right|left; eauto]. }
    assert (Ll : (length last <= 1)%nat) by (destruct Hlast as [->|(q & d & k & _ & ->)]; cbn; lia).
    assert (LL : (length L <= length Q + length last)%nat) by (apply (f_equal (@length _)) in Hask; rewrite !app_length in Hask; lia).
    assert (Hsmall : (length Q + length last <= length ts)%nat).
    { apply (f_equal (@length _)) in Htail. rewrite !app_length in Htail. fold Q in Htail. pose proof (proj1 (asked_length p (got c) c0)). lia. }
    unfold few_turns, Nlen in Hlen.
    assert (Hids : forall j r, nth_error L j = Some r -> rpc_id r = (c0 + N.of_nat j) mod 2 ^ 64).
    { intros j r Hj. assert (Hj' : nth_error (Q ++ last) j = Some r) by (rewrite <- Hask, nth_error_app1; [exact Hj|apply nth_error_Some; congruence]).
      destruct (Nat.lt_ge_cases j (length Q)) as [H|H].
      - rewrite nth_error_app1 in Hj' by exact H. eapply asked_ids; eassumption.
      - rewrite nth_error_app2 in Hj' by exact H. destruct Hlast as [->|(q & d & k & R & ->)]; [destruct (j - length Q)%nat; discriminate|].
        destruct (j - length Q)%nat as [|z] eqn:Z; [|destruct z; discriminate]. injection Hj' as <-. destruct Lq as [Lq|[Lq _]]; [|discriminate].
        unfold rpc_id, host_request. cbn [rpc_header h_id header_new]. f_equal. f_equal. lia. }
    assert (Hlt : forall j r, nth_error L j = Some r -> N.of_nat j < 2 ^ 64).
    { intros j r Hj. assert (j < length L)%nat by (apply nth_error_Some; congruence). lia. }
    destruct Hsome as (js & Sj & Mj).
    assert (Hjs : forall t q, nth_error done t = Some q -> exists j, nth_error js t = Some j /\ nth_error L j = Some q).
    { intros t q Hq. pose proof (f_equal (fun l => nth_error l t) Mj) as Z. cbn beta in Z. rewrite !nth_error_map, Hq in Z. destruct (nth_error js t) as [j|]; [|discriminate].
      exists j. split; [reflexivity|]. now injection Z. }
    assert (Hm : forall m r, nth_error oks m = Some r -> exists before q later, done = before ++ q :: later /\ nth_error js (length before) = Some m /\ nth_error L m = Some q /\
      snd (sp (having_done sp s0 (map as_received before)) (as_received q)) = Ok r).
    { intros m r Hmr. assert (Lm : (m < length (got c))%nat) by (apply (proj1 (nth_error_Some (got c) m)); rewrite (Hoks m r Hmr); discriminate).
      destruct (Hrep _ _ (Hgot _ _ (Hoks m r Hmr))) as (before & q & later & Ed & Ha & _ & Hs). exists before, q, later. split; [exact Ed|].
      destruct (accept_tags sp n0 _ _ _ Ha) as [io Hi]. destruct (Htags _ _ _ Hi) as [_ Htag].
      destruct (Hjs (length before) q) as (j & Hj & Hl); [rewrite Ed, nth_error_app2, Nat.sub_diag by lia; reflexivity|].
      assert (j = m). { apply (ids_apart c0); [eapply Hlt; exact Hl|lia|]. rewrite <- (Hids _ _ Hl). now rewrite Htag. } subst j. auto. }
    assert (Hin : forall m, (0 <= m < 0 + length oks)%nat -> In m js).
    { intros m Lm. destruct (nth_error oks m) as [r|] eqn:Er; [|apply nth_error_None in Er; lia]. destruct (Hm m r Er) as (b & q & l & _ & Hj & _). eapply nth_error_In. exact Hj. }
    assert (Hb' : forall j, In j js -> (0 <= j <= 0 + length oks)%nat).
    { intros j Hj. assert (Z : In (nth_error L j) (map Some done)) by (rewrite <- Mj; now apply in_map). apply in_map_iff in Z. destruct Z as (q & Z & _).
      assert (j < length L)%nat by (apply nth_error_Some; congruence). destruct Lq as [Lq|[-> Lq]]; cbn in *; lia. }
    assert (HQ : forall k, (k <= length L)%nat -> firstn k (Q ++ last) = firstn k L).
    { intros k Hk. rewrite <- Hask, firstn_app. replace (k - length L)%nat with 0%nat by lia. now rewrite app_nil_r. }
    assert (LQ : length Q = length oks).
    { destruct Lq as [Lq|[-> Lq]]; [exact Lq|]. destruct (Nat.eq_dec (length Q) (length oks)) as [|Ne]; [assumption|exfalso].
      destruct (nth_error oks (length Q)) as [r|] eqn:Er; [|apply nth_error_None in Er; lia]. destruct (Hm _ _ Er) as (b & q & l & _ & _ & Hl & _).
      assert (length Q < length L)%nat by (apply nth_error_Some; congruence). cbn in LL. lia. }
    assert (Hge : (length oks <= length L)%nat).
    { destruct oks as [|o oks'] eqn:Eo; [cbn; lia|]. destruct (nth_error oks (length oks')) as [r|] eqn:Er; [|rewrite Eo in Er; apply nth_error_None in Er; cbn in Er; lia]. rewrite <- Eo in *.
      destruct (Hm _ _ Er) as (b & q & l & _ & _ & Hl & _). assert (length oks' < length L)%nat by (apply nth_error_Some; congruence). rewrite Eo. cbn. lia. }
    assert (Hn : forall k, (k <= length Q)%nat -> firstn k Q = firstn k L).
    { intros k Hk. rewrite <- HQ by lia. rewrite firstn_app. replace (k - length Q)%nat with 0%nat by lia. now rewrite app_nil_r. }
    destruct (sorted_seq js 0 (length oks) Sj Hin Hb') as [Ej|Ej].
    - assert (Ed : done = Q).
      { rewrite Ej in Mj. apply picks_seq in Mj. rewrite Mj, <- LQ, <- Hn by lia. now rewrite firstn_all. }
      split; [exists done; split; [now left|exact HE]|]. intros m q resp Hq Hmr.
      destruct (Hm m resp Hmr) as (before & q' & later & Ed' & Hj & Hl & Hs). rewrite Ej in Hj.
      assert (length before = m). { assert (Lb : (length before < length (seq 0 (length oks)))%nat) by (apply nth_error_Some; congruence). rewrite seq_length in Lb.
        apply nth_error_nth with (d := 0%nat) in Hj. rewrite seq_nth in Hj by exact Lb. lia. }
      subst m. rewrite <- Ed, Ed' in *. rewrite nth_error_app2, Nat.sub_diag in Hq by lia. injection Hq as <-.
      rewrite firstn_app, Nat.sub_diag, firstn_all, app_nil_r. exact Hs.
    - assert (LL' : (length L = S (length oks))%nat).
      { assert (Z : In (length oks) js) by (rewrite Ej; apply in_seq; lia). assert (Z' : In (nth_error L (length oks)) (map Some done)) by (rewrite <- Mj; now apply in_map).
        apply in_map_iff in Z'. destruct Z' as (q & Z' & _). assert (length oks < length L)%nat by (apply nth_error_Some; congruence). lia. }
      assert (Ed : done = Q ++ last).
      { rewrite Ej in Mj. apply picks_seq in Mj. rewrite Mj, <- HQ by lia. apply firstn_all2. rewrite app_length. lia. }
      split; [exists done; split; [now right|exact HE]|]. intros m q resp Hq Hmr.
      destruct (Hm m resp Hmr) as (before & q' & later & Ed' & Hj & Hl & Hs). rewrite Ej in Hj.
      assert (length before = m). { assert (Lb : (length before < length (seq 0 (S (length oks))))%nat) by (apply nth_error_Some; congruence). rewrite seq_length in Lb.
        apply nth_error_nth with (d := 0%nat) in Hj. rewrite seq_nth in Hj by exact Lb. lia. }
      assert (Lm : (m < length Q)%nat) by (apply nth_error_Some; congruence).
      assert (Hq' : nth_error done m = Some q) by (rewrite Ed, nth_error_app1 by exact Lm; exact Hq).
      assert (Ef : firstn m Q = before). { transitivity (firstn m done); [rewrite Ed, firstn_app; replace (m - length Q)%nat with 0%nat by lia; now rewrite app_nil_r|].
        subst m. rewrite Ed', firstn_app, Nat.sub_diag, firstn_all. apply app_nil_r. }
      rewrite Ef. subst m. rewrite Ed', nth_error_app2, Nat.sub_diag in Hq' by lia. injection Hq' as <-. exact Hs.
  Qed.

  Lemma call_once ts : orderly sp sys0 ts ->
    let s := sys_run ts in let w := mkWorld s0 c0 [] in
    exists c, sy_calls s = [c] /\
      (forall xs x, c = Going xs (Ret x) -> (exists e, In (Err e) xs /\ (stops_at_errors p -> x = Err e)) \/
         snd (alone p sp w) = x /\ E (nt_sp (sy_net s)) (w_sp (fst (alone p sp w)))) /\
      (stops_at_errors p -> exists st, In st (stations p sp w) /\ E (nt_sp (sy_net s)) st).
  Proof.
    intros (Hok & Hlen & Hst & Ht) s w. destruct (one_run sp retries s0 c0 Hc0 p ts Hok Hlen) as (c & O). exists c. split; [exact (o_calls _ _ _ _ _ _ O)|].
    pose proof O as [_ Hc Hat _ _ Hid _].
    destruct (own_answers sp Hpol retries s0 c0 Hc0 [p] ts 0 p Hok Hlen eq_refl) as (c' & Hc' & _ & Hq & _). rewrite Hc in Hc'. injection Hc' as <-.
    assert (Hnp : forall y, In y (got c) -> y <> Panic) by (intros y; apply (got_no_panic sp retries s0 c0 [p] ts 0); now rewrite Hc).
    assert (Sp : exists oks rest, got c = map Ok oks ++ rest /\ (rest = [] \/ exists e rest', rest = Err e :: rest')).
    { clear -Hnp. induction (got c) as [|x xs IH]; [exists [], []; auto|]. destruct IH as (oks & rest & -> & Hrest); [intros y Hy; apply Hnp; now right|].
      destruct x as [r|e|]; [exists (r :: oks), rest; auto|exists [], (Err e :: map Ok oks ++ rest); split; [reflexivity|right; eauto]|].
      exfalso. apply (Hnp Panic); [now left|reflexivity]. }
    destruct Sp as (oks & rest & Eg & Hrest).
    assert (Hoks : forall m r, nth_error oks m = Some r -> nth_error (got c) m = Some (Ok r)).
    { intros m r H. rewrite Eg, nth_error_app1; [rewrite nth_error_map, H; reflexivity|]. rewrite map_length. apply nth_error_Some. congruence. }
    assert (Hw : E s0 (w_sp w)) by apply (rp_refl _ _ Hr).
    destruct Hrest as [->|(e & rest' & ->)].
    - (* no error so far *)
      rewrite app_nil_r in Eg. destruct c as [xs p'|xs id q d k]; cbn [got pend is_at] in *.
      + destruct (call_done ts _ oks [] Hok Hlen Hst Ht O Hoks) as [(done & Hd & HE) Hs]; [cbn [got pend]; now rewrite Eg|now left|].
        rewrite app_nil_r in Hd. assert (done = asked p (map Ok oks) c0) by (destruct Hd; assumption). subst done.
        destruct (follow E sp Hr Hb p oks s0 w Hw Hc0 Hs) as (F1 & _ & F3). change (w_counter w) with c0 in F1, F3. split.
        * intros ys x [= <- ->]. right. rewrite Eg in Hat. cbn in Hat. destruct (F3 x Hat) as [F4 F5]. split; [exact F4|]. eapply (rp_trans _ _ Hr); eassumption.
        * intros _. destruct F1 as (st & F1 & F2). exists st. split; [exact F1|]. eapply (rp_trans _ _ Hr); eassumption.
      + rewrite Eg in Hat.
        destruct (call_done ts _ oks [host_request id q d] Hok Hlen Hst Ht O Hoks) as [(done & Hd & HE) Hs].
        { cbn [got pend]. now rewrite Eg. }
        { right. exists q, d, k. split; [exact Hat|]. rewrite Hid, Eg, map_length. reflexivity. }
        destruct (follow E sp Hr Hb p oks s0 w Hw Hc0 Hs) as (F1 & F2 & _). change (w_counter w) with c0 in F1, F2. split; [discriminate|]. intros _.
        destruct Hd as [->| ->].
        * destruct F1 as (st & F1 & F3). exists st. split; [exact F1|]. eapply (rp_trans _ _ Hr); eassumption.
        * destruct (F2 q d k Hat) as (st & F3 & F4). exists st. split; [exact F3|]. eapply (rp_trans _ _ Hr); [exact HE|].
          replace id with ((c0 + N.of_nat (length oks)) mod 2 ^ 64) by (now rewrite Hid, Eg, map_length). exact F4.
    - (* an error *)
      split.
      + intros xs x ->. left. cbn [got is_at resume] in *. exists e. split; [rewrite Eg; apply in_elt|]. intro S. apply (stops_with p S xs x e Hat); [rewrite Eg; apply in_elt|exact Hq].
      + intro Sto. destruct (question p (map Ok oks)) as [[q d]|] eqn:Qu.
        2:{ exfalso. apply (Hq (length oks) (Err e)).
            - rewrite Eg, nth_error_app2 by (rewrite map_length; lia). rewrite map_length, Nat.sub_diag. reflexivity.
            - rewrite Eg, firstn_map_app. exact Qu. }
        pose proof (Sto _ _ _ e Qu) as Re. unfold question in Qu. destruct (resume p (map Ok oks)) as [?|q' d' k|] eqn:Rk; try discriminate. injection Qu as -> ->.
        assert (rest' = []).
        { destruct rest' as [|y rest']; [reflexivity|]. exfalso. apply (Hq (S (length oks)) y).
          - rewrite Eg, nth_error_app2 by (rewrite map_length; lia). rewrite map_length. replace (Datatypes.S (length oks) - length oks)%nat with 1%nat by lia. reflexivity.
          - unfold question. replace (firstn (Datatypes.S (length oks)) (got c)) with (map Ok oks ++ [Err e]); [exact (f_equal (fun z => match z with Ask q d _ => Some (q, d) | _ => None end) Re)|].
            rewrite Eg, firstn_app, map_length. replace (Datatypes.S (length oks) - length oks)%nat with 1%nat by lia. rewrite firstn_all2 by (rewrite map_length; lia). reflexivity. }
        subst rest'. assert (Hp : pend c = []).
        { destruct c as [xs p'|xs id q0 d0 k0]; [reflexivity|]. cbn [is_at got] in *. rewrite Eg in Hat. discriminate (eq_trans (eq_sym Hat) Re). }
        destruct (call_done ts c oks [host_request ((c0 + N.of_nat (length oks)) mod 2 ^ 64) q d] Hok Hlen Hst Ht O Hoks) as [(done & Hd & HE) Hs].
        { rewrite Hp, app_nil_r, Eg. pose proof (asked_snoc p (map Ok oks) q d k (Err e) c0 Hc0 Rk) as Z. rewrite map_length in Z. exact Z. }
        { right. exists q, d, k. auto. }
        destruct (follow E sp Hr Hb p oks s0 w Hw Hc0 Hs) as (F1 & F2 & _). change (w_counter w) with c0 in F1, F2.
        destruct Hd as [->| ->].
        * destruct F1 as (st & F1 & F3). exists st. split; [exact F1|]. eapply (rp_trans _ _ Hr); eassumption.
        * destruct (F2 q d k Rk) as (st & F3 & F4). exists st. split; [exact F3|]. eapply (rp_trans _ _ Hr); [exact HE|exact F4].
  Qed.
End Call.
