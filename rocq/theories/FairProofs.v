(** Every call ends (C79). *)
From Verif Require Export SpecFair ConcProofs.
From Verif Require Import Tac Wf.

(** ** One step of the loop *)
Lemma limit_step s e : l_limit (fst (step s e)) = l_limit s.
Proof.
  assert (Ha : forall s o x, l_limit (fst (IoLoop.answer s o x)) = l_limit s).
  { intros s1 o x. unfold IoLoop.answer. destruct (o_gone o); reflexivity. }
  assert (Hi : forall s, l_limit (increment_faulty s) = l_limit s).
  { intros s1. unfold increment_faulty. destruct (l_out s1); reflexivity. }
  assert (Hf : forall s h pe, l_limit (fst (fail_matching s h pe)) = l_limit s).
  { intros s1 h pe. unfold fail_matching. destruct (l_out s1); [|reflexivity]. destruct (_ =? _); [apply Ha|reflexivity]. }
  assert (Hs : forall s o io, l_limit (fst (send_outgoing_request s o io)) = l_limit s).
  { intros s1 o io. unfold send_outgoing_request. destruct (request_packet _); [|reflexivity]. destruct io; [reflexivity|].
    pose proof (Ha s1 o (Err EIo)) as H. destruct (IoLoop.answer _ _ _). exact H. }
  unfold step. destruct (l_status s); [|reflexivity..].
  destruct e as [tag r io| |io|hr io| |peer d io| |].
  - destruct (l_out s); [reflexivity|].
    match goal with |- context [send_outgoing_request ?a ?b ?c] => pose proof (Hs a b c) as H; destruct (send_outgoing_request a b c) end.
    exact H.
  - destruct (l_out s); reflexivity.
  - unfold handle_tick. destruct (l_out s); [|reflexivity]. destruct (_ && _); [apply Hs|]. destruct (_ <=? _); apply Ha.
  - destruct hr; try reflexivity. unfold send_outgoing_response. destruct (Nat.leb _ _); reflexivity.
  - apply Hi.
  - unfold handle_datagram. destruct (dec_header _) as [[h rx]|]; [|apply Hi]. destruct (h_kind h).
    + unfold handle_sp_error. destruct (dec_message rx) as [[m rest]|]; [|rewrite Hf; apply Hi].
      destruct (msg_body m); try apply Hi. rewrite Hf. apply Hi.
    + apply Hi.
    + unfold handle_sp_response. destruct (l_out s); [|reflexivity]. destruct (dec_message rx) as [[m rest]|].
      * destruct (msg_body m); try apply Hf. destruct (_ =? _); [apply Ha|reflexivity].
      * destruct rx; [reflexivity|]. rewrite Hf. apply Hi.
    + unfold handle_sp_request. destruct (dec_message rx) as [[m rest]|]; [|reflexivity]. destruct (l_handler s); reflexivity.
    + apply Hi.
  - destruct (l_out s); reflexivity.
  - reflexivity.
Qed.
Lemma tick_step s io o : l_status s = Running -> l_status (fst (step s (EvTick io))) = Running -> l_out s = Some o ->
  l_out (fst (step s (EvTick io))) = None \/
  exists o', l_out (fst (step s (EvTick io))) = Some o' /\ o_retries o' = o_retries o + 1 /\ o_retries o < l_limit s.
Proof.
  intros Hr. unfold step. rewrite Hr. unfold handle_tick. intros Hr' Ho. rewrite Ho in *.
  assert (Ha : forall x, l_status (fst (IoLoop.answer s o x)) = Running -> l_out (fst (IoLoop.answer s o x)) = None).
  { intros x. unfold IoLoop.answer. destruct (o_gone o); [discriminate|reflexivity]. }
  destruct (_ && _) eqn:E.
  - unfold send_outgoing_request in *. destruct (request_packet _); [|discriminate]. destruct io.
    + right. eexists. cbn. repeat split. apply andb_prop in E. lia.
    + left. specialize (Ha (Err EIo)). destruct (IoLoop.answer _ _ _). exact (Ha Hr').
  - left. destruct (_ <=? _); apply Ha; exact Hr'.
Qed.

Section Fair.
  Context {St A : Type} (sp : St -> Rpc -> St * reply) (retries : option N) (st0 : St) (c0 : N) (Hc0 : c0 < 2 ^ 64)
          (ps : list (prog A)) (ts : nat -> turn St).
  Let S_ (n : nat) : sys St A := at_time sp (sys_new retries st0 c0 ps) ts n.
  Context (Hfair : fair (length ps) ts) (Hlive : forall n, alive (S_ n)).

  Lemma at_S n : S_ (S n) = sys_step sp (S_ n) (ts n).
  Proof. unfold S_, at_time. rewrite seq_S, map_app. unfold sys_run. rewrite fold_left_app. reflexivity. Qed.
  Definition out_at (n : nat) : option Outstanding := l_out (nt_loop (sy_net (S_ n))).
  Definition queue_at (n : nat) : list Rpc := sy_queue (S_ n).
  Definition call_at (i n : nat) : option (call A) := nth_error (sy_calls (S_ n)) i.
  Definition accepts_at (n : nat) : bool := match ts n with TAccept _ _ => idle (sy_net (S_ n)) && negb (match queue_at n with [] => true | _ => false end) | _ => false end.

  (** What a turn does to the outstanding request, the queue and the calls. *)
  Lemma no_accept n : accepts_at n = false ->
    (out_at n = None /\ out_at (S n) = None /\ (exists ext, queue_at (S n) = queue_at n ++ ext)) \/
    (exists o o', out_at n = Some o /\ out_at (S n) = Some o' /\ o_tag o' = o_tag o /\ o_retries o <= o_retries o' /\
       (forall io, ts n = TNet (MTick io) -> o_retries o' = o_retries o + 1 /\ o_retries o < l_limit (nt_loop (sy_net (S_ n)))) /\
       (exists ext, queue_at (S n) = queue_at n ++ ext)) \/
    (exists o x, out_at n = Some o /\ out_at (S n) = None /\ sy_calls (S_ (S n)) = map (hear (o_tag o) x) (sy_calls (S_ n)) /\
       (exists ext, queue_at (S n) = queue_at n ++ ext)).
  Proof.
    intros Hna. unfold out_at, queue_at. rewrite at_S. pose proof (Hlive n) as L. pose proof (Hlive (S n)) as L'.
    rewrite at_S in L'. unfold alive in *. set (s := S_ n) in *.
    assert (Q0 : exists ext, sy_queue s = sy_queue s ++ ext) by (exists []; now rewrite app_nil_r).
    assert (Same : sy_net (sys_step sp s (ts n)) = sy_net s -> (forall io, ts n <> TNet (MTick io)) ->
      (exists ext, sy_queue (sys_step sp s (ts n)) = sy_queue s ++ ext) ->
      (l_out (nt_loop (sy_net s)) = None /\ l_out (nt_loop (sy_net (sys_step sp s (ts n)))) = None /\
         (exists ext, sy_queue (sys_step sp s (ts n)) = sy_queue s ++ ext)) \/
      (exists o o', l_out (nt_loop (sy_net s)) = Some o /\ l_out (nt_loop (sy_net (sys_step sp s (ts n)))) = Some o' /\
         o_tag o' = o_tag o /\ o_retries o <= o_retries o' /\
         (forall io, ts n = TNet (MTick io) -> o_retries o' = o_retries o + 1 /\ o_retries o < l_limit (nt_loop (sy_net s))) /\
         (exists ext, sy_queue (sys_step sp s (ts n)) = sy_queue s ++ ext)) \/
      (exists o x, l_out (nt_loop (sy_net s)) = Some o /\ l_out (nt_loop (sy_net (sys_step sp s (ts n)))) = None /\
         sy_calls (sys_step sp s (ts n)) = map (hear (o_tag o) x) (sy_calls s) /\
         (exists ext, sy_queue (sys_step sp s (ts n)) = sy_queue s ++ ext))).
    { intros -> Ht Q. destruct (l_out (nt_loop (sy_net s))) as [o|]; [|left; auto].
      right. left. exists o, o. repeat split; try reflexivity; try exact Q; try apply N.le_refl;
        exfalso; eapply Ht; eassumption. }
    destruct (turn_kinds sp s (ts n)) as [Em Es|i xs q d k Et Em Ei Ewf Es|i xs u p Et Em Ei Es|r io a b Em Eq El Es|m Em Et Hm Es].
    - apply Same; rewrite ?Es; [reflexivity| |exact Q0].
      intros io E. rewrite E in Em. discriminate.
    - apply Same; rewrite ?Es; cbn [sy_net sy_queue]; [reflexivity| |now exists [host_request (sy_counter s) q d]].
      intros io E. rewrite E in Et. discriminate.
    - apply Same; rewrite ?Es; cbn [sy_net sy_queue]; [reflexivity| |exact Q0].
      intros io E. rewrite E in Et. discriminate.
    - exfalso. revert Hna. unfold accepts_at, queue_at. fold s. rewrite Eq. unfold idle. rewrite L, El.
      destruct (ts n) as [j|j io'|m']; [cbn in Em; discriminate|destruct a; discriminate|].
      cbn in Em. destruct m'; discriminate.
    - rewrite Es in L' |- *. cbn [sy_net sy_queue sy_calls] in *.
      destruct (move_kind sp (sy_net s) m Hm) as [(Hf & Hk)|(o & x & Hf & Ho & Ho')].
      + destruct Hk as [(Hk & Hk')|(o & o' & Ho & Ho' & Htag & _ & Hle)]; [left; auto|].
        right. left. exists o, o'. repeat split; try assumption; try exact Q0.
        * intros. rewrite Et in H. injection H as ->. cbn [net_step move_event] in Ho', L'.
          pose proof (tick_step (nt_loop (sy_net s)) io o L) as K.
          destruct (step (nt_loop (sy_net s)) (EvTick io)) as [l outs]. cbn [fst nt_loop] in *.
          destruct (K L' Ho) as [K'|(o1 & K1 & K2 & K3)]; [congruence|]. rewrite Ho' in K1. injection K1 as <-. exact K2.
        * rewrite Et in H. injection H as ->. cbn [net_step move_event] in Ho', L'.
          pose proof (tick_step (nt_loop (sy_net s)) io o L) as K.
          destruct (step (nt_loop (sy_net s)) (EvTick io)) as [l outs]. cbn [fst nt_loop] in *.
          destruct (K L' Ho) as [K'|(o1 & K1 & K2 & K3)]; [congruence|exact K3].
      + right. right. exists o, x. split; [exact Ho|]. split; [exact Ho'|]. split; [|exact Q0].
        rewrite hear_all_replies, Hf. reflexivity.
  Qed.
  Lemma accept n : accepts_at n = true -> exists r rest, queue_at n = r :: rest /\ queue_at (S n) = rest /\
    ((exists o', out_at (S n) = Some o' /\ o_tag o' = rpc_id r /\ sy_calls (S_ (S n)) = sy_calls (S_ n)) \/
     (exists x, out_at (S n) = None /\ sy_calls (S_ (S n)) = map (hear (rpc_id r) x) (sy_calls (S_ n)))).
  Proof.
    unfold accepts_at. destruct (ts n) as [j|j io|m] eqn:Et; try discriminate. intros H. apply andb_prop in H. destruct H as [Hi Hq].
    pose proof (fr_order _ _ Hfair n j io Et) as ->. unfold out_at. rewrite at_S, Et. pose proof (Hlive (S n)) as L'.
    rewrite at_S, Et in L'. unfold queue_at in *. rewrite at_S, Et. set (s := S_ n) in *.
    destruct (sy_queue s) as [|r rest] eqn:Eq; [discriminate|]. exists r, rest. split; [reflexivity|].
    unfold alive in L'. cbn [sys_step] in *. rewrite Eq in *. cbn [nth_error remove_nth] in *. rewrite Hi in *.
    assert (El : l_out (nt_loop (sy_net s)) = None).
    { unfold idle in Hi. destruct (l_status _); try discriminate. destruct (l_out _); [discriminate|reflexivity]. }
    assert (Lr : l_status (nt_loop (sy_net s)) = Running) by exact (Hlive n).
    pose proof (request_kind sp (sy_net s) r io El) as K. cbv zeta in K.
    assert (Hne : forall l outs, step (nt_loop (sy_net s)) (EvRequest (rpc_id r) r io) = (l, outs) ->
      l_status l = Running -> filter is_reply outs = [] -> l_out l <> None).
    { intros l outs E Hl Hf. unfold step in E. rewrite Lr, El in E.
      unfold send_outgoing_request in E. cbn [o_request] in E. destruct (request_packet _).
      - destruct io; [injection E as <- <-; discriminate|]. cbn in E. injection E as <- <-. discriminate.
      - injection E as <- <-. discriminate. }
    cbn [net_step move_event] in *. destruct (step _ _) as [l outs] eqn:Es. cbn [fst snd nt_loop sy_net sy_queue sy_calls] in *.
    split; [reflexivity|].
    destruct K as [(Hf & [Ho|(o' & Ho & Ht & _)])|(x & Hf & Ho)].
    - exfalso. exact (Hne l outs eq_refl L' Hf Ho).
    - left. exists o'. split; [exact Ho|]. split; [exact Ht|]. rewrite hear_all_replies, Hf. reflexivity.
    - right. exists x. split; [exact Ho|]. rewrite hear_all_replies, Hf. reflexivity.
  Qed.
  Lemma limit_at n : l_limit (nt_loop (sy_net (S_ (S n)))) = l_limit (nt_loop (sy_net (S_ n))).
  Proof.
    rewrite at_S. set (s := S_ n).
    assert (G : forall m, l_limit (nt_loop (fst (net_step sp (sy_net s) m))) = l_limit (nt_loop (sy_net s))).
    { intros m. assert (Ge : forall e, l_limit (nt_loop (fst (let (l, outs) := step (nt_loop (sy_net s)) e in
        (mkNet l (nt_sp (sy_net s)) (nt_sent (sy_net s) ++ packets outs) (nt_mail (sy_net s)), outs)))) = l_limit (nt_loop (sy_net s))).
      { intros e. pose proof (limit_step (nt_loop (sy_net s)) e) as H. destruct (step _ _). exact H. }
      destruct m; cbn [net_step move_event]; try apply Ge.
      - destruct (nth_error _ _); [|reflexivity]. destruct (serve _ _ _). reflexivity.
      - destruct (nth_error _ _); [apply Ge|reflexivity].
      - reflexivity. }
    destruct (turn_kinds sp s (ts n)) as [Em Es|i xs q d k Et Em Ei Ewf Es|i xs u p Et Em Ei Es|r io a b Em Eq El Es|m Em Et Hm Es];
      rewrite Es; cbn [sy_net]; try reflexivity; apply G.
  Qed.

  (** ** The least time at which something happens *)
  Lemma least (P : nat -> bool) n : (exists m, (n <= m)%nat /\ P m = true) ->
    exists m, (n <= m)%nat /\ P m = true /\ forall j, (n <= j < m)%nat -> P j = false.
  Proof.
    intros (m & Hm & HP). remember (m - n)%nat as k eqn:Ek. revert n m Hm HP Ek.
    induction k as [|k IH]; intros n m Hm HP Ek.
    - exists n. assert (m = n) by lia. subst m. split; [lia|]. split; [exact HP|]. intros j Hj. lia.
    - destruct (P n) eqn:En; [exists n; split; [lia|]; split; [exact En|intros j Hj; lia]|].
      destruct (IH (S n) m) as (m' & H1 & H2 & H3); [lia|exact HP|lia|].
      exists m'. split; [lia|]. split; [exact H2|]. intros j Hj. destruct (Nat.eq_dec j n) as [->|]; [exact En|]. apply H3. lia.
  Qed.

  (** The outstanding request is answered. *)
  Lemma answered n o : out_at n = Some o -> exists m o' x, (n <= m)%nat /\ out_at m = Some o' /\ o_tag o' = o_tag o /\
    out_at (S m) = None /\ sy_calls (S_ (S m)) = map (hear (o_tag o) x) (sy_calls (S_ m)).
  Proof.
    remember (l_limit (nt_loop (sy_net (S_ n))) - o_retries o) as k eqn:Ek.
    revert n o Ek. induction k as [k IHk] using (well_founded_induction N.lt_wf_0). intros n o Ek Ho.
    destruct (fr_tick _ _ Hfair n) as (t & io & Ht & Et).
    (* walk to the tick at [t], unless it is answered before *)
    assert (W : forall j, (n + j <= t)%nat ->
      (exists m o' x, (n <= m)%nat /\ out_at m = Some o' /\ o_tag o' = o_tag o /\
         out_at (S m) = None /\ sy_calls (S_ (S m)) = map (hear (o_tag o) x) (sy_calls (S_ m))) \/
      (exists o', out_at (n + j) = Some o' /\ o_tag o' = o_tag o /\ o_retries o <= o_retries o' /\
         l_limit (nt_loop (sy_net (S_ (n + j)))) = l_limit (nt_loop (sy_net (S_ n))))).
    { induction j as [|j IHj]; intros Hj.
      - right. exists o. rewrite Nat.add_0_r. repeat split; [exact Ho|apply N.le_refl].
      - destruct (IHj ltac:(lia)) as [H|(o1 & H1 & H2 & H3 & H4)]; [now left|].
        assert (Hna : accepts_at (n + j) = false).
        { unfold accepts_at. destruct (ts (n + j)); try reflexivity. unfold idle. unfold out_at in H1. rewrite H1.
          destruct (l_status _); reflexivity. }
        destruct (no_accept _ Hna) as [(H & _)|[(o2 & o3 & G1 & G2 & G3 & G4 & _)|(o2 & x & G1 & G2 & G3 & _)]].
        + congruence.
        + right. rewrite H1 in G1. injection G1 as <-. exists o3. rewrite <- plus_n_Sm. split; [exact G2|].
          split; [congruence|]. split; [lia|]. now rewrite limit_at.
        + left. rewrite H1 in G1. injection G1 as <-. exists (n + j)%nat, o1, x. split; [lia|]. split; [exact H1|].
          split; [exact H2|]. split; [exact G2|]. now rewrite <- H2. }
    destruct (W (t - n)%nat ltac:(lia)) as [H|(o1 & H1 & H2 & H3 & H4)]; [exact H|].
    replace (n + (t - n))%nat with t in * by lia.
    assert (Hna : accepts_at t = false) by (unfold accepts_at; now rewrite Et).
    destruct (no_accept _ Hna) as [(H & _)|[(o2 & o3 & G1 & G2 & G3 & G4 & G5 & _)|(o2 & x & G1 & G2 & G3 & _)]].
    - congruence.
    - rewrite H1 in G1. injection G1 as <-. destruct (G5 io Et) as [G6 G7].
      destruct (IHk (l_limit (nt_loop (sy_net (S_ (S t)))) - o_retries o3)) with (n := S t) (o := o3)
        as (m & o' & x & K1 & K2 & K3 & K4 & K5).
      + rewrite limit_at, H4. rewrite H4 in G7. lia.
      + reflexivity.
      + exact G2.
      + exists m, o', x. split; [lia|]. split; [exact K2|]. split; [congruence|]. split; [exact K4|].
        replace (o_tag o) with (o_tag o3) by congruence. exact K5.
    - rewrite H1 in G1. injection G1 as <-. exists t, o1, x. split; [exact Ht|]. split; [exact H1|].
      split; [exact H2|]. split; [exact G2|]. now rewrite <- H2.
  Qed.

  (** A request in the queue is taken. *)
  Lemma queue_stays n m : (forall j, (n <= j < m)%nat -> accepts_at j = false) -> (n <= m)%nat ->
    exists ext, queue_at m = queue_at n ++ ext.
  Proof.
    intros H Hm. remember (m - n)%nat as k eqn:Ek. revert m H Hm Ek. induction k as [|k IH]; intros m H Hm Ek.
    - assert (m = n) by lia. subst m. exists []. now rewrite app_nil_r.
    - destruct m as [|m]; [lia|]. destruct (IH m) as (ext & E); [intros j Hj; apply H; lia|lia|lia|].
      destruct (no_accept m) as [(_ & _ & ext' & E')|[(o2 & o3 & _ & _ & _ & _ & _ & ext' & E')|(o2 & x & _ & _ & _ & ext' & E')]];
        [apply H; lia|..]; exists (ext ++ ext'); now rewrite E', E, app_assoc.
  Qed.
  Lemma accept_comes n : queue_at n <> [] -> exists m, (n <= m)%nat /\ accepts_at m = true.
  Proof.
    intros Hq.
    (* a time at which nothing is outstanding *)
    assert (Hidle : exists m1, (n <= m1)%nat /\ out_at m1 = None).
    { destruct (out_at n) as [o|] eqn:E; [|exists n; auto].
      destruct (answered n o E) as (m & _ & _ & Hm & _ & _ & Hn & _). exists (S m). split; [lia|exact Hn]. }
    destruct Hidle as (m1 & H1 & H2).
    destruct (fr_accept _ _ Hfair m1) as (m2 & io & H3 & H4).
    assert (W : forall j, (m1 + j <= m2)%nat -> (exists m, (n <= m)%nat /\ accepts_at m = true) \/ out_at (m1 + j) = None).
    { induction j as [|j IH]; intros Hj; [right; now rewrite Nat.add_0_r|].
      destruct (IH ltac:(lia)) as [H|H]; [now left|].
      destruct (accepts_at (m1 + j)) eqn:Ea; [left; exists (m1 + j)%nat; split; [lia|exact Ea]|].
      right. rewrite <- plus_n_Sm.
      destruct (no_accept _ Ea) as [(_ & G & _)|[(o2 & o3 & G1 & _)|(o2 & x & G1 & _)]]; [exact G|congruence..]. }
    destruct (W (m2 - m1)%nat ltac:(lia)) as [H|H]; [exact H|]. replace (m1 + (m2 - m1))%nat with m2 in H by lia.
    (* either something was taken before, or the queue is still not empty *)
    assert (D : (exists m, (n <= m)%nat /\ accepts_at m = true) \/ forall j, (n <= j < m2)%nat -> accepts_at j = false).
    { clear - H1 H3. assert (Hm : (n <= m2)%nat) by lia. clear H1 H3. remember (m2 - n)%nat as k eqn:Ek. revert m2 Hm Ek.
      induction k as [|k IH]; intros m2 Hm Ek; [right; intros j Hj; lia|].
      destruct m2 as [|m2]; [lia|]. destruct (IH m2) as [K|K]; [lia|lia|now left|].
      destruct (accepts_at m2) eqn:Ea; [left; exists m2; split; [lia|exact Ea]|].
      right. intros j Hj. destruct (Nat.eq_dec j m2) as [->|]; [exact Ea|]. apply K. lia. }
    destruct D as [D|D]; [exact D|]. exists m2. split; [lia|].
    destruct (queue_stays n m2 D ltac:(lia)) as (ext & Eq).
    unfold accepts_at. rewrite H4. unfold idle. unfold out_at in H. rewrite H. rewrite (Hlive m2). cbn [andb].
    rewrite Eq. destruct (queue_at n); [contradiction|reflexivity].
  Qed.
  Lemma taken a : forall n r b, queue_at n = a ++ r :: b -> exists m b', (n <= m)%nat /\ accepts_at m = true /\ queue_at m = r :: b'.
  Proof.
    induction a as [|y a IH]; intros n r b E.
    - destruct (least accepts_at n (accept_comes n ltac:(rewrite E; discriminate))) as (m & H1 & H2 & H3).
      destruct (queue_stays n m H3 H1) as (ext & Eq). exists m, (b ++ ext). split; [exact H1|]. split; [exact H2|].
      rewrite Eq, E. reflexivity.
    - destruct (least accepts_at n (accept_comes n ltac:(rewrite E; discriminate))) as (m & H1 & H2 & H3).
      destruct (queue_stays n m H3 H1) as (ext & Eq). rewrite E in Eq.
      destruct (accept m H2) as (r' & rest & E1 & E2 & _). rewrite E1 in Eq. cbn in Eq. injection Eq as -> ->.
      destruct (IH (S m) r (b ++ ext)) as (m' & b' & K1 & K2 & K3).
      + rewrite E2. now rewrite <- app_assoc.
      + exists m', b'. split; [lia|]. auto.
  Qed.

  (** ** The calls *)
  Lemma going_stays i n m xs p : (forall j, (n <= j < m)%nat -> ts j <> TCall i) -> (n <= m)%nat ->
    call_at i n = Some (Going xs p) -> call_at i m = Some (Going xs p).
  Proof.
    intros H Hm. remember (m - n)%nat as k eqn:Ek. revert m H Hm Ek. induction k as [|k IH]; intros m H Hm Ek Hc.
    - assert (m = n) by lia. now subst m.
    - destruct m as [|m]; [lia|]. specialize (IH m ltac:(intros j Hj; apply H; lia) ltac:(lia) ltac:(lia) Hc).
      assert (Ht : ts m <> TCall i) by (apply H; lia). unfold call_at in *. rewrite at_S. set (s := S_ m) in *.
      assert (G : forall outs, nth_error (hear_all outs (sy_calls s)) i = Some (Going xs p)).
      { intros outs. rewrite nth_hear_all, IH. f_equal. clear. induction outs as [|o outs IHo]; [reflexivity|].
        cbn [fold_left]. destruct o; exact IHo. }
      destruct (turn_kinds sp s (ts m)) as [Em Es|j xs' q' d' k' Et Em Ei Ewf Es|j xs' u p' Et Em Ei Es|r io a b Em Eq El Es|m' Em Et Hm' Es];
        rewrite Es; cbn [sy_calls]; try apply G; [exact IH|..]; rewrite nth_update;
        (destruct (Nat.eqb_spec j i) as [->|]; [now rewrite Et in Ht|exact IH]).
  Qed.
  Lemma its_turn i n xs p : (i < length ps)%nat -> call_at i n = Some (Going xs p) ->
    exists m, (n <= m)%nat /\ ts m = TCall i /\ call_at i m = Some (Going xs p).
  Proof.
    intros Hi Hc.
    pose (P := fun m => match ts m with TCall j => Nat.eqb j i | _ => false end).
    destruct (least P n) as (m & H1 & H2 & H3).
    { destruct (fr_call _ _ Hfair i n Hi) as (m & Hm & Et). exists m. split; [exact Hm|]. unfold P. rewrite Et. apply Nat.eqb_refl. }
    exists m. split; [exact H1|]. split.
    - unfold P in H2. destruct (ts m); try discriminate. apply Nat.eqb_eq in H2. now subst.
    - apply (going_stays i n m); [|exact H1|exact Hc]. intros j Hj E. specialize (H3 j Hj). unfold P in H3.
      rewrite E, Nat.eqb_refl in H3. discriminate.
  Qed.
  (** A call that waits does so until it hears. *)
  Lemma waits_or_heard i n xs id q d k m : (n <= m)%nat -> call_at i n = Some (Waiting xs id q d k) ->
    (exists m' x, (n <= m')%nat /\ call_at i m' = Some (Going (xs ++ [x]) (heard k x))) \/
    call_at i m = Some (Waiting xs id q d k).
  Proof.
    intros Hm Hc. remember (m - n)%nat as e eqn:Ee. revert m Hm Ee. induction e as [|e IH]; intros m Hm Ee.
    - right. assert (m = n) by lia. now subst m.
    - destruct m as [|m]; [lia|]. destruct (IH m) as [K|K]; [lia|lia|now left|].
      assert (G : forall outs, let c := nth_error (hear_all outs (sy_calls (S_ m))) i in
        (exists x, c = Some (Going (xs ++ [x]) (heard k x))) \/ c = Some (Waiting xs id q d k)).
      { intros outs. cbv zeta. unfold call_at in K. rewrite nth_hear_all, K. clear.
        induction outs as [|o outs IHo]; [now right|]. cbn [fold_left]. destruct o as [|?|tag x| | | |]; try exact IHo.
        cbn [hear]. destruct (id =? tag); [|exact IHo]. left. exists x. f_equal. clear. induction outs as [|o outs IHo]; [reflexivity|].
        cbn [fold_left]. destruct o; exact IHo. }
      assert (R : call_at i (S m) = Some (Waiting xs id q d k) \/ exists x, call_at i (S m) = Some (Going (xs ++ [x]) (heard k x))).
      { unfold call_at in *. rewrite at_S.
        destruct (turn_kinds sp (S_ m) (ts m)) as [Em Es|j xs' q' d' k' Et Em Ei Ewf Es|j xs' u p' Et Em Ei Es|r io a b Em Eq El Es|m' Em Et Hm' Es];
          rewrite Es; cbn [sy_calls].
        - now left.
        - rewrite nth_update. destruct (Nat.eqb_spec j i) as [->|]; [congruence|now left].
        - rewrite nth_update. destruct (Nat.eqb_spec j i) as [->|]; [congruence|now left].
        - destruct (G (snd (net_step sp (sy_net (S_ m)) (MRequest (rpc_id r) r io)))) as [H|H]; auto.
        - destruct (G (snd (net_step sp (sy_net (S_ m)) m'))) as [H|H]; auto. }
      destruct R as [R|(x & R)]; [now right|]. left. exists (S m), x. split; [lia|exact R].
  Qed.
  Lemma hears_now i m xs id q d k x : call_at i m = Some (Waiting xs id q d k) ->
    sy_calls (S_ (S m)) = map (hear id x) (sy_calls (S_ m)) -> call_at i (S m) = Some (Going (xs ++ [x]) (heard k x)).
  Proof.
    unfold call_at. intros Hc E. rewrite E, nth_error_map, Hc. cbn. now rewrite N.eqb_refl.
  Qed.
  (** The request of a call that waits is in the queue, or outstanding. *)
  Lemma not_lost n i xs id q d k : call_at i n = Some (Waiting xs id q d k) ->
    In (host_request id q d) (queue_at n) \/ exists o, out_at n = Some o /\ o_tag o = id.
  Proof.
    revert xs id q d k. induction n as [|n IH]; intros xs id q d k Hc.
    - unfold call_at in Hc. cbn in Hc. rewrite nth_error_map in Hc. destruct (nth_error ps i); discriminate.
    - assert (Old : call_at i n = Some (Waiting xs id q d k) ->
        In (host_request id q d) (queue_at (S n)) \/ exists o, out_at (S n) = Some o /\ o_tag o = id).
      { intros Hc'. destruct (IH _ _ _ _ _ Hc') as [Hq|(o & Ho & Ht)].
        - destruct (accepts_at n) eqn:Ea.
          + destruct (accept n Ea) as (r & rest & E1 & E2 & E3). rewrite E1 in Hq. destruct Hq as [->|Hq]; [|left; now rewrite E2].
            right. destruct E3 as [(o' & H1 & H2 & _)|(x & H1 & H2)]; [exists o'; auto|].
            pose proof (hears_now i n _ _ _ _ _ x Hc' H2) as K. congruence.
          + left. destruct (no_accept n Ea) as [(_ & _ & ext' & E')|[(o2 & o3 & _ & _ & _ & _ & _ & ext' & E')|(o2 & x & _ & _ & _ & ext' & E')]];
              rewrite E', in_app_iff; now left.
        - assert (Ea : accepts_at n = false).
          { unfold accepts_at. destruct (ts n); try reflexivity. unfold idle. unfold out_at in Ho. rewrite Ho.
            destruct (l_status _); reflexivity. }
          destruct (no_accept n Ea) as [(H & _)|[(o2 & o3 & G1 & G2 & G3 & _)|(o2 & x & G1 & G2 & G3 & _)]].
          + congruence.
          + right. exists o3. split; [exact G2|congruence].
          + exfalso. rewrite Ho in G1. injection G1 as <-. rewrite Ht in G3.
            pose proof (hears_now i n _ _ _ _ _ x Hc' G3) as K. congruence. }
      destruct (call_at i n) as [[xs' p|xs' id' q' d' k']|] eqn:E.
      + (* asked now *)
        left. unfold call_at, queue_at in *. rewrite at_S in *.
        assert (G : forall outs, nth_error (hear_all outs (sy_calls (S_ n))) i = Some (Going xs' p)).
        { intros outs. rewrite nth_hear_all, E. f_equal. clear. induction outs as [|o outs IHo]; [reflexivity|].
          cbn [fold_left]. destruct o; exact IHo. }
        destruct (turn_kinds sp (S_ n) (ts n)) as [Em Es|j xs1 q1 d1 k1 Et Em Ei Ewf Es|j xs1 u p' Et Em Ei Es|r io a b Em Eq El Es|m' Em Et Hm' Es];
          rewrite Es in *; cbn [sy_calls sy_queue] in *.
        * congruence.
        * rewrite nth_update in Hc. destruct (Nat.eqb_spec j i) as [->|]; [|congruence]. rewrite Ei in Hc.
          injection Hc as <- <- <- <- <-. apply in_or_app. right. now left.
        * rewrite nth_update in Hc. destruct (Nat.eqb_spec j i) as [->|]; [|congruence]. rewrite Ei in Hc. discriminate.
        * rewrite G in Hc. discriminate.
        * rewrite G in Hc. discriminate.
      + destruct (waits_or_heard i n _ _ _ _ _ (S n) (Nat.le_succ_diag_r n) E) as [(m' & x & _ & _)|K].
        * (* the next state is known from one step *)
          apply Old. f_equal.
          assert (R : call_at i (S n) = Some (Waiting xs' id' q' d' k') \/ exists y p', call_at i (S n) = Some (Going y p')).
          { unfold call_at. rewrite at_S. unfold call_at in E. destruct (turn_call sp (S_ n) (ts n) i _ E) as (c' & Hc' & K).
            clear - Hc' K E. rewrite Hc'. destruct c' as [y p'|y id2 q2 d2 k2]; [right; eauto|].
            left. destruct (turn_kinds sp (S_ n) (ts n)) as [Em Es|j xs1 q1 d1 k1 Et Em Ei Ewf Es|j xs1 u p' Et Em Ei Es|r io a b Em Eq El Es|m' Em Et Hm' Es];
              rewrite Es in Hc'; cbn [sy_calls] in Hc'.
            - congruence.
            - rewrite nth_update in Hc'. destruct (Nat.eqb_spec j i) as [->|]; congruence.
            - rewrite nth_update in Hc'. destruct (Nat.eqb_spec j i) as [->|]; congruence.
            - rewrite nth_hear_all, E in Hc'. clear - Hc'. revert Hc'.
              generalize (snd (net_step sp (sy_net (S_ n)) (MRequest (rpc_id r) r io))). intros outs Hc'.
              injection Hc' as Hc'. f_equal. revert Hc'. induction outs as [|o outs IHo]; [auto|]. cbn [fold_left].
              destruct o as [|?|tag x| | | |]; try exact IHo. cbn [hear]. destruct (id' =? tag); [|exact IHo].
              intros Hc'. exfalso. clear IHo. induction outs as [|o outs IHo]; [discriminate|]. cbn [fold_left] in Hc'. destruct o; auto.
            - rewrite nth_hear_all, E in Hc'. clear - Hc'. revert Hc'.
              generalize (snd (net_step sp (sy_net (S_ n)) m')). intros outs Hc'.
              injection Hc' as Hc'. f_equal. revert Hc'. induction outs as [|o outs IHo]; [auto|]. cbn [fold_left].
              destruct o as [|?|tag x| | | |]; try exact IHo. cbn [hear]. destruct (id' =? tag); [|exact IHo].
              intros Hc'. exfalso. clear IHo. induction outs as [|o outs IHo]; [discriminate|]. cbn [fold_left] in Hc'. destruct o; auto. }
          destruct R as [R|(y & p' & R)]; congruence.
        * apply Old. congruence.
      + exfalso. unfold call_at in *. rewrite at_S in Hc.
        destruct (turn_kinds sp (S_ n) (ts n)) as [Em Es|j xs1 q1 d1 k1 Et Em Ei Ewf Es|j xs1 u p' Et Em Ei Es|r io a b Em Eq El Es|m' Em Et Hm' Es];
          rewrite Es in Hc; cbn [sy_calls] in Hc; rewrite ?nth_update, ?nth_hear_all, ?E in Hc; try discriminate.
        * destruct (Nat.eqb_spec j i) as [->|]; congruence.
        * destruct (Nat.eqb_spec j i) as [->|]; congruence.
  Qed.
  Lemma wait_ends i n xs id q d k : call_at i n = Some (Waiting xs id q d k) ->
    exists m x, (n <= m)%nat /\ call_at i m = Some (Going (xs ++ [x]) (heard k x)).
  Proof.
    intros Hc.
    assert (Out : forall n' o, (n <= n')%nat -> out_at n' = Some o -> o_tag o = id -> 
      exists m x, (n <= m)%nat /\ call_at i m = Some (Going (xs ++ [x]) (heard k x))).
    { intros n' o Hn Ho Ht. destruct (answered n' o Ho) as (m & o' & x & H1 & H2 & H3 & H4 & H5).
      destruct (waits_or_heard i n _ _ _ _ _ m ltac:(lia) Hc) as [K|K]; [exact K|].
      rewrite Ht in H5. exists (S m), x. split; [lia|]. eapply hears_now; eassumption. }
    destruct (not_lost n i _ _ _ _ _ Hc) as [Hq|(o & Ho & Ht)]; [|now apply (Out n o)].
    apply in_split in Hq. destruct Hq as (a & b & Eq).
    destruct (taken a n _ b Eq) as (m & b' & H1 & H2 & H3).
    destruct (waits_or_heard i n _ _ _ _ _ m H1 Hc) as [K|K]; [exact K|].
    destruct (accept m H2) as (r & rest & E1 & E2 & E3). rewrite H3 in E1. injection E1 as <- <-.
    destruct E3 as [(o' & G1 & G2 & _)|(x & G1 & G2)].
    - apply (Out (S m) o'); [lia|exact G1|exact G2].
    - exists (S m), x. split; [lia|]. eapply hears_now; [exact K|exact G2].
  Qed.
  Lemma counter_at n : sy_counter (S_ n) < 2 ^ 64.
  Proof.
    induction n as [|n IH]; [exact Hc0|]. rewrite at_S.
    destruct (turn_kinds sp (S_ n) (ts n)) as [Em Es|j xs1 q1 d1 k1 Et Em Ei Ewf Es|j xs1 u p' Et Em Ei Es|r io a b Em Eq El Es|m' Em Et Hm' Es];
      rewrite Es; cbn [sy_counter]; try exact IH. now apply N.mod_lt.
  Qed.
  Lemma goes_on (p : prog A) : forall i n xs, (i < length ps)%nat -> call_at i n = Some (Going xs p) ->
    exists m c, (n <= m)%nat /\ call_at i m = Some c /\ (over c \/ ill_formed c).
  Proof.
    induction p as [x|q d k IH|u p IH]; intros i n xs Hi Hc.
    - exists n, (Going xs (Ret x)). split; [lia|]. split; [exact Hc|]. left. now exists xs, x.
    - destruct (its_turn i n _ _ Hi Hc) as (m & H1 & H2 & H3).
      destruct (wf_rpc (host_request (sy_counter (S_ m)) q d)) eqn:Ew.
      + assert (Hw : call_at i (S m) = Some (Waiting xs (sy_counter (S_ m)) q d k)).
        { unfold call_at in *. rewrite at_S, H2. cbn [sys_step]. rewrite H3, Ew. cbn [sy_calls].
          now rewrite nth_update, Nat.eqb_refl, H3. }
        destruct (wait_ends _ _ _ _ _ _ _ Hw) as (m' & x & K1 & K2).
        destruct x as [r|e|]; cbn [heard] in K2.
        * destruct (IH _ i m' _ Hi K2) as (m2 & c & L1 & L2 & L3). exists m2, c. split; [lia|]. auto.
        * destruct (IH _ i m' _ Hi K2) as (m2 & c & L1 & L2 & L3). exists m2, c. split; [lia|]. auto.
        * exists m'. eexists. split; [lia|]. split; [exact K2|]. left. eexists _, _. reflexivity.
      + exists m, (Going xs (Ask q d k)). split; [exact H1|]. split; [exact H3|]. right. exists xs, q, d, k.
        split; [reflexivity|]. unfold wf_rpc in Ew. cbn [rpc_header rpc_message host_request] in Ew.
        assert (Eh : wf_header (header_new (sy_counter (S_ m)) KHostRequest) = true).
        { unfold wf_header. cbn. pose proof (counter_at m). unfold u64. apply N.ltb_lt in H. now rewrite H. }
        rewrite Eh in Ew. exact Ew.
    - destruct (its_turn i n _ _ Hi Hc) as (m & H1 & H2 & H3).
      assert (Hw : call_at i (S m) = Some (Going xs p)).
      { unfold call_at in *. rewrite at_S, H2. cbn [sys_step]. rewrite H3. cbn [sy_calls].
        now rewrite nth_update, Nat.eqb_refl, H3. }
      destruct (IH i _ _ Hi Hw) as (m2 & c & L1 & L2 & L3). exists m2, c. split; [lia|]. auto.
  Qed.
  Lemma all_end i : (i < length ps)%nat -> exists n c, call_at i n = Some c /\ (over c \/ ill_formed c).
  Proof.
    intros Hi. destruct (nth_error ps i) as [p|] eqn:E; [|apply nth_error_None in E; lia].
    destruct (goes_on p i 0%nat [] Hi) as (m & c & _ & H).
    - unfold call_at. cbn. now rewrite nth_error_map, E.
    - eauto.
  Qed.
End Fair.
