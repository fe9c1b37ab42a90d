(** Requests over a network that keeps their order are done once (C96). *)
From Coq Require Import Lia.
From Verif Require Export SpecOnce.
From Verif Require Import Tac Spec ModuleIdProofs CodecProofs MessageProofs IoProofs IoProofs2 IoProofs3 NetProofs.
Import ListNotations.
Open Scope N_scope.

(** ** Datagrams are sent in the order of their requests *)
Lemma wire_same q q' : wf_rpc q = true -> wf_rpc q' = true -> wire q = wire q' -> rpc_id q = rpc_id q'.
Proof.
  intros H H' E. apply andb_prop in H, H'. destruct (wire_decodes q (proj1 H) (proj2 H)) as (r & D & _). destruct (wire_decodes q' (proj1 H') (proj2 H')) as (r' & D' & _).
  rewrite E, D' in D. injection D as D _. unfold rpc_id. congruence.
Qed.
Lemma serves_wire {St} (sp : St -> Rpc -> St * reply) s q : wf_rpc q = true -> fst (serve sp s (wire q)) = fst (sp s (as_received q)).
Proof.
  intros Hw. apply andb_prop in Hw. destruct Hw as [Hh Hm]. unfold serve. destruct (wire_decodes q Hh Hm) as (rest & -> & ->).
  replace (as_received (mkRpc (rpc_header q) (rpc_message q) (Some (match rpc_data q with Some d => d | None => [] end))))
    with (as_received q) by (unfold as_received; cbn; destruct (rpc_data q) as [[|]|]; reflexivity).
  now destruct (sp s (as_received q)).
Qed.
Lemma packets_order cs : let rs := map ss_request cs in let ps := flat_map (fun c => repeat (wire (ss_request c)) (ss_sent c)) cs in
  forall k k' d d', (k <= k')%nat -> nth_error ps k = Some d -> nth_error ps k' = Some d' ->
  exists j j' q q', (j <= j')%nat /\ nth_error rs j = Some q /\ wire q = d /\ nth_error rs j' = Some q' /\ wire q' = d'.
Proof.
  induction cs as [|c cs IH]; intros rs ps k k' d d' L H H'; [destruct k; discriminate|]. unfold ps in H, H'. cbn [flat_map] in H, H'.
  assert (F : forall k d, (k < ss_sent c)%nat -> nth_error (repeat (wire (ss_request c)) (ss_sent c) ++ flat_map (fun c => repeat (wire (ss_request c)) (ss_sent c)) cs) k = Some d ->
    d = wire (ss_request c)).
  { intros i x Li Hx. rewrite nth_error_app1 in Hx by (now rewrite repeat_length). now apply nth_error_In, repeat_spec in Hx. }
  destruct (Nat.lt_ge_cases k (ss_sent c)) as [Lk|Lk].
  - apply F in H; [|exact Lk]. subst d. destruct (Nat.lt_ge_cases k' (ss_sent c)) as [Lk'|Lk'].
    + apply F in H'; [|exact Lk']. subst d'. exists 0%nat, 0%nat, (ss_request c), (ss_request c). split; [lia|]. repeat split.
    + rewrite nth_error_app2 in H' by (now rewrite repeat_length).
      destruct (IH _ _ _ _ (le_n _) H' H') as (j & j' & q & q' & _ & _ & _ & Q & W).
      exists 0%nat, (S j'), (ss_request c), q'. repeat split; [lia|exact Q|exact W].
  - rewrite nth_error_app2 in H, H' by (rewrite repeat_length; lia). rewrite repeat_length in H, H'.
    destruct (IH (k - ss_sent c)%nat (k' - ss_sent c)%nat d d' ltac:(lia) H H') as (j & j' & q & q' & Lj & Q1 & W1 & Q2 & W2).
    exists (S j), (S j'), q, q'. repeat split; [lia|assumption..].
Qed.
Lemma log_sessions n es : exists cs, requests (log (loop_new n) es) = map ss_request cs /\
  packets (log (loop_new n) es) = flat_map (fun c => repeat (wire (ss_request c)) (ss_sent c)) cs.
Proof.
  destruct (sent_packets n es) as (dn & cur & E & _). exists (dn ++ cur). rewrite <- packets_rpc, <- requests_rpc, E. clear E.
  induction (dn ++ cur) as [|c l [IH1 IH2]]; [split; reflexivity|]. cbn [map concat flat_map]. rewrite requests_app. unfold packets in *. rewrite flat_map_app, IH1, IH2.
  assert (R : forall m, requests (repeat (OTx (ss_tag c) (wire (ss_request c))) m) = []) by (induction m as [|m IH]; [reflexivity|exact IH]).
  assert (P : forall m, flat_map (fun o => match o with OTx _ d => [d] | _ => [] end) (repeat (OTx (ss_tag c) (wire (ss_request c))) m) = repeat (wire (ss_request c)) m)
    by (induction m as [|m IH]; [reflexivity|cbn; now rewrite IH]).
  unfold render. split.
  - change (requests (OAccept (ss_tag c) (ss_request c) :: ?l)) with (ss_request c :: requests l). rewrite requests_app, R. now destruct (ss_answer c).
  - cbn [flat_map app]. rewrite flat_map_app, P. f_equal. destruct (ss_answer c); now rewrite app_nil_r.
Qed.

Section Once.
  Context {St : Type} (E : St -> St -> Prop) (sp : St -> Rpc -> St * reply) (Hr : repeats E sp) (retries : option N) (s0 : St).
  Notation n0 := (net_new retries s0).
  Notation net_after := (net_after sp n0). Notation net_log := (net_log sp n0).

  Lemma sent_order ms k k' d d' : (k <= k')%nat -> nth_error (nt_sent (net_after ms)) k = Some d -> nth_error (nt_sent (net_after ms)) k' = Some d' ->
    exists j j' q q', (j <= j')%nat /\ nth_error (requests (net_log ms)) j = Some q /\ wire q = d /\ nth_error (requests (net_log ms)) j' = Some q' /\ wire q' = d'.
  Proof.
    rewrite sent_run. cbn [nt_sent net_new app]. destruct (events_run sp n0 ms) as [_ ->]. cbn [nt_loop net_new].
    destruct (log_sessions retries (events sp n0 ms)) as (cs & -> & ->). apply packets_order.
  Qed.
  Lemma sent_grows a b k d : nth_error (nt_sent (net_after a)) k = Some d -> nth_error (nt_sent (net_after (a ++ b))) k = Some d.
  Proof.
    rewrite net_after_app, (sent_run sp (net_after a) b). intro H. rewrite nth_error_app1; [exact H|]. apply nth_error_Some. congruence.
  Qed.
  Lemma requests_grow a b j q : nth_error (requests (net_log a)) j = Some q -> nth_error (requests (net_log (a ++ b))) j = Some q.
  Proof.
    rewrite net_log_app, requests_app. intro H. rewrite nth_error_app1; [exact H|]. apply nth_error_Some. congruence.
  Qed.

  Definition fit (ms : list (move St)) : Prop :=
    Forall (fun r => wf_rpc r = true) (requests (net_log ms)) /\ NoDup (map rpc_id (requests (net_log ms))) /\ Forall still ms /\ in_turn sp n0 ms.
  Lemma fit_prefix a b : fit (a ++ b) -> fit a.
  Proof.
    intros (H1 & H2 & H3 & H4). rewrite net_log_app, requests_app in H1, H2. rewrite map_app in H2. apply Forall_app in H1, H3. split; [tauto|]. split.
    - clear - H2. induction (map rpc_id (requests (net_log a))) as [|x l IH]; [constructor|]. cbn in H2. inversion H2; subst. constructor; [|now apply IH].
      rewrite in_app_iff in *. tauto.
    - split; [tauto|]. intros pre k mid k' post d d' Em. apply (H4 pre k mid k' (post ++ b)). rewrite Em. rewrite <- !app_assoc. cbn. now rewrite <- !app_assoc.
  Qed.
  (** The datagrams the SP was given, and each once. *)
  Definition served_by_move (n : net St) (m : move St) : list (list N) :=
    match m with MServe k => match nth_error (nt_sent n) k with Some d => [d] | None => [] end | _ => [] end.
  Fixpoint serves (n : net St) (ms : list (move St)) : list (list N) :=
    match ms with [] => [] | m :: r => served_by_move n m ++ serves (fst (net_step sp n m)) r end.
  Definition note (done : list (list N)) (d : list N) : list (list N) :=
    match rev done with x :: _ => if list_eq_dec N.eq_dec x d then done else done ++ [d] | [] => done ++ [d] end.
  Definition dones (ms : list (move St)) : list (list N) := fold_left note (serves n0 ms) [].
  Lemma serves_app n a b : serves n (a ++ b) = serves n a ++ serves (SpecNet.net_after sp n a) b.
  Proof. revert n. induction a as [|m a IH]; intro n; [reflexivity|]. cbn [serves app]. now rewrite IH, net_after_cons, app_assoc. Qed.
  Lemma note_grows done d : exists more, note done d = done ++ more.
  Proof. unfold note. destruct (rev done); [eauto|]. destruct (list_eq_dec _ _ _); [exists []; now rewrite app_nil_r|eauto]. Qed.
  Lemma notes_grow ds : forall done, exists more, fold_left note ds done = done ++ more.
  Proof.
    induction ds as [|d ds IH]; intro done; [exists []; now rewrite app_nil_r|]. cbn. destruct (note_grows done d) as [m1 ->]. destruct (IH (done ++ m1)) as [m2 ->].
    exists (m1 ++ m2). now rewrite app_assoc.
  Qed.
  Lemma dones_grow a b : exists more, dones (a ++ b) = dones a ++ more.
  Proof. unfold dones. rewrite serves_app, fold_left_app. apply notes_grow. Qed.
  Lemma dones_snoc a m : dones (a ++ [m]) = match served_by_move (net_after a) m with d :: _ => note (dones a) d | [] => dones a end.
  Proof.
    unfold dones. rewrite serves_app, fold_left_app. cbn [serves]. rewrite app_nil_r. unfold served_by_move. destruct m; try reflexivity.
    destruct (nth_error _ _); reflexivity.
  Qed.
  Lemma note_cases done d : (exists a, done = a ++ [d]) /\ note done d = done \/ (forall a x, done = a ++ [x] -> x <> d) /\ note done d = done ++ [d].
  Proof.
    unfold note. destruct (rev done) as [|x l] eqn:R.
    - right. split; [|reflexivity]. intros a x ->. rewrite rev_app_distr in R. discriminate.
    - assert (D : done = rev l ++ [x]) by (rewrite <- (rev_involutive done), R; reflexivity).
      destruct (list_eq_dec N.eq_dec x d) as [->|Ne]; [left; split; [eauto|reflexivity]|right; split; [|reflexivity]].
      intros a y Y. rewrite D in Y. apply app_inj_tail in Y. destruct Y as [_ <-]. exact Ne.
  Qed.

  Lemma same_place l j j' q q' : NoDup (map rpc_id l) -> Forall (fun r => wf_rpc r = true) l -> nth_error l j = Some q -> nth_error l j' = Some q' -> wire q = wire q' -> j = j' /\ q = q'.
  Proof.
    intros N W H H' Ew. rewrite Forall_forall in W. pose proof (W q (nth_error_In _ _ H)) as Wq. pose proof (W q' (nth_error_In _ _ H')) as Wq'.
    pose proof (wire_same q q' Wq Wq' Ew) as I. split; [|apply (nodup_same rpc_id l); auto; eapply nth_error_In; eassumption].
    rewrite NoDup_nth_error in N. apply N; [rewrite map_length; apply nth_error_Some; congruence|]. rewrite !nth_error_map, H, H'. cbn. now rewrite I.
  Qed.
  Lemma sorted_snoc (js : list nat) j : StronglySorted lt js -> Forall (fun i => i < j)%nat js -> StronglySorted lt (js ++ [j]).
  Proof.
    induction 1 as [|x l S IH F]; intro H; cbn; [repeat constructor|]. inversion H; subst. constructor; [now apply IH|]. apply Forall_app. split; [exact F|]. now repeat constructor.
  Qed.
  Lemma sorted_last (js : list nat) j : StronglySorted lt (js ++ [j]) -> Forall (fun i => i <= j)%nat (js ++ [j]).
  Proof.
    induction js as [|x l IH]; intro H; cbn in *; [repeat constructor|]. inversion H; subst. constructor; [|now apply IH].
    apply Forall_app in H3. destruct H3 as [_ H3]. inversion H3; subst. lia.
  Qed.
  Lemma map_snoc {A B} (f : A -> B) l (ys : list B) y : map f l = ys ++ [y] -> exists l' x, l = l' ++ [x] /\ map f l' = ys /\ f x = y.
  Proof.
    destruct l as [|x l _] using rev_ind; [now destruct ys|]. rewrite map_app. cbn. intro H. apply app_inj_tail in H. exists l, x. now destruct H.
  Qed.
  Lemma done_snoc s rs r : having_done sp s (rs ++ [r]) = fst (sp (having_done sp s rs) r).
  Proof. unfold having_done. now rewrite fold_left_app. Qed.

  (** What the SP has done: each request once, in order. *)
  Definition kept_once (ms : list (move St)) (qs : list Rpc) : Prop :=
    dones ms = map wire qs /\ some_of qs (requests (net_log ms)) /\ E (nt_sp (net_after ms)) (having_done sp s0 (map as_received qs)) /\
    (qs = [] \/ exists pre k mid q qs', ms = pre ++ MServe k :: mid /\ nth_error (nt_sent (net_after pre)) k = Some (wire q) /\ qs = qs' ++ [q]).
  Lemma sp_step n m : still m -> nt_sp (fst (net_step sp n m)) = match served_by_move n m with d :: _ => fst (serve sp (nt_sp n) d) | [] => nt_sp n end.
  Proof.
    intro S. unfold net_step. destruct m; cbn [move_event served_by_move]; try (destruct (step _ _); reflexivity).
    - destruct (nth_error _ _); [|reflexivity]. now destruct (serve _ _ _).
    - destruct (nth_error _ _); [destruct (step _ _)|]; reflexivity.
    - now destruct (S s).
  Qed.
  Lemma some_grows a b qs : some_of qs (requests (net_log a)) -> some_of qs (requests (net_log (a ++ b))).
  Proof.
    intros (js & S & M). exists js. split; [exact S|]. revert qs M. clear S. induction js as [|j js IH]; intros [|q qs] M; try discriminate; [reflexivity|].
    cbn in M |- *. injection M as M1 M2. f_equal; [now apply requests_grow|now apply IH].
  Qed.
  Lemma some_in (qs : list Rpc) rs q : some_of qs rs -> In q qs -> exists j, nth_error rs j = Some q.
  Proof.
    intros (js & _ & M) H. apply (in_map Some) in H. rewrite <- M in H. apply in_map_iff in H. destruct H as (j & H & _). eauto.
  Qed.

  Lemma kept_all ms : fit ms -> exists qs, kept_once ms qs.
  Proof.
    induction ms as [|m ms IH] using rev_ind; intro F.
    { exists []. split; [reflexivity|]. split; [exists []; split; [constructor|reflexivity]|]. split; [apply (rp_refl _ _ Hr)|now left]. }
    destruct (IH (fit_prefix _ _ F)) as (qs & D & O & Q & L). pose proof F as (Fw & Fn & Fs & Ft). apply Forall_app in Fs. destruct Fs as [_ Fs]. inversion Fs as [|? ? Sm _]; subst.
    assert (A : net_after (ms ++ [m]) = fst (net_step sp (net_after ms) m)) by (rewrite net_after_app, net_after_cons; reflexivity).
    assert (Ls : qs = [] \/ exists pre k mid q qs', ms ++ [m] = pre ++ MServe k :: mid /\ nth_error (nt_sent (net_after pre)) k = Some (wire q) /\ qs = qs' ++ [q]).
    { destruct L as [L|(pre & k & mid & q & qs' & -> & L2 & L3)]; [now left|right]. exists pre, k, (mid ++ [m]), q, qs'. rewrite <- app_assoc. now repeat split. }
    pose proof (dones_snoc ms m) as Dm. pose proof (sp_step (net_after ms) m Sm) as Sp. rewrite <- A in Sp.
    destruct (served_by_move (net_after ms) m) as [|d ds] eqn:Sv.
    { exists qs. split; [now rewrite Dm|]. split; [now apply some_grows|]. split; [now rewrite Sp|exact Ls]. }
    assert (Hk : exists k, m = MServe k /\ nth_error (nt_sent (net_after ms)) k = Some d).
    { destruct m; try discriminate Sv. exists k. split; [reflexivity|]. cbn in Sv. destruct (nth_error _ _); [|discriminate]. now injection Sv as -> _. }
    destruct Hk as (k & -> & Hk). pose proof (sent_grows ms [MServe k] k d Hk) as Hk'.
    destruct (sent_order _ k k d d (le_n _) Hk' Hk') as (j & _ & q & _ & _ & Jq & Wq & _).
    assert (Wf : wf_rpc q = true) by (rewrite Forall_forall in Fw; apply Fw; eapply nth_error_In; exact Jq). subst d.
    rewrite (serves_wire sp _ q Wf) in Sp. rewrite D in Dm. pose proof (some_grows ms [MServe k] qs O) as O'.
    destruct (note_cases (map wire qs) (wire q)) as [[[a Ha] Hn]|[Ha Hn]]; rewrite Hn in Dm.
    - (* again *)
      destruct (map_snoc wire qs a _ Ha) as (qs' & q' & -> & _ & Eq).
      destruct (some_in _ _ q' O') as [j' Jq']; [apply in_app_iff; right; now left|].
      destruct (same_place _ _ _ _ _ Fn Fw Jq' Jq Eq) as [_ ->].
      exists (qs' ++ [q]). split; [exact Dm|]. split; [exact O'|]. split; [|exact Ls]. rewrite Sp.
      rewrite map_app in *. cbn [map] in *. rewrite done_snoc in *. set (s := having_done sp s0 (map as_received qs')) in *.
      eapply (rp_trans _ _ Hr); [apply (rp_same _ _ Hr _ _ (as_received q) Q)|]. apply (rp_twice _ _ Hr).
    - (* a later one *)
      exists (qs ++ [q]). split; [rewrite map_app; exact Dm|]. split; [|split].
      + destruct O' as (js & Sj & Mj). exists (js ++ [j]). split; [|rewrite !map_app, Mj; cbn; now rewrite Jq].
        apply sorted_snoc; [exact Sj|]. destruct L as [->|(pre & k0 & mid & q0 & qs' & Em & L2 & ->)]; [destruct js; [constructor|discriminate]|].
        rewrite map_app in Mj. cbn [map] in Mj. destruct (map_snoc _ js _ _ Mj) as (js' & j0 & -> & _ & Jq0).
        assert (Ne : wire q0 <> wire q) by (apply (Ha (map wire qs') (wire q0)); now rewrite map_app).
        assert (T : (k0 <= k)%nat).
        { destruct (Ft pre k0 mid k [] (wire q0) (wire q)) as [T|T]; [rewrite Em, <- app_assoc; reflexivity|exact L2|now rewrite <- Em|exact T|contradiction]. }
        assert (L2' : nth_error (nt_sent (net_after (ms ++ [MServe k]))) k0 = Some (wire q0)) by (rewrite Em, <- app_assoc; now apply sent_grows).
        destruct (sent_order _ k0 k _ _ T L2' Hk') as (j1 & j2 & q1 & q2 & Lj & H1 & W1 & H2 & W2).
        destruct (same_place _ _ _ _ _ Fn Fw H1 Jq0 W1) as [-> _]. destruct (same_place _ _ _ _ _ Fn Fw H2 Jq W2) as [-> _].
        assert (j0 <> j) by (intros ->; rewrite Jq0 in Jq; injection Jq as ->; now apply Ne).
        pose proof (sorted_last _ _ Sj) as X. revert X. apply Forall_impl. intros i Hi. lia.
      + rewrite Sp, map_app. cbn [map]. rewrite done_snoc. apply (rp_same _ _ Hr _ _ (as_received q) Q).
      + right. exists ms, k, [], q, qs. repeat split. exact Hk.
  Qed.

  Lemma same_all l qs qs' : NoDup (map rpc_id l) -> Forall (fun r => wf_rpc r = true) l -> (forall q, In q qs -> exists j, nth_error l j = Some q) ->
    (forall q, In q qs' -> exists j, nth_error l j = Some q) -> map wire qs = map wire qs' -> qs = qs'.
  Proof.
    intros N W. revert qs'. induction qs as [|q qs IH]; intros [|q' qs'] H H' Em; try discriminate; [reflexivity|]. cbn [map] in Em.
    pose proof (f_equal (fun l => hd [] l) Em) as E1. pose proof (f_equal (@tl _) Em) as E2. cbn [hd tl] in E1, E2.
    destruct (H q (or_introl eq_refl)) as [j J]. destruct (H' q' (or_introl eq_refl)) as [j' J']. destruct (same_place l j j' q q' N W J J' E1) as [_ ->].
    f_equal. apply IH; [intros x X; apply H; now right|intros x X; apply H'; now right|exact E2].
  Qed.
  Lemma done_once ms : polite sp -> forallb noise_ok ms = true -> fit ms -> exists done,
    some_of done (requests (net_log ms)) /\ E (nt_sp (net_after ms)) (having_done sp s0 (map as_received done)) /\
    forall tag resp, In (OReply tag (Ok resp)) (net_log ms) -> exists before q later, done = before ++ q :: later /\ In (OAccept tag q) (net_log ms) /\
      rpc_id resp = rpc_id q /\ snd (sp (having_done sp s0 (map as_received before)) (as_received q)) = Ok resp.
  Proof.
    intros Po No F. destruct (kept_all ms F) as (qs & D & O & Q & _). exists qs. split; [exact O|]. split; [exact Q|]. intros tag resp Hin.
    pose proof F as (Fw & Fn & _). destruct (net_sound_all sp Po retries s0 ms tag resp No Fw Fn Hin) as (pre & q & mid & k & post & Em & _ & _ & Hk & Ha & Hi & Hs).
    set (P := pre ++ MRequest tag q true :: mid) in *. assert (Em' : ms = (P ++ [MServe k]) ++ post) by (unfold P; rewrite Em, <- !app_assoc; reflexivity).
    assert (F1 : fit (P ++ [MServe k])) by (rewrite Em' in F; now apply fit_prefix in F). pose proof (fit_prefix _ _ F1) as F0.
    destruct (kept_all _ F0) as (q0 & D0 & O0 & Q0 & _). destruct (dones_grow (P ++ [MServe k]) post) as [more Dg]. rewrite <- Em', D in Dg.
    rewrite dones_snoc in Dg. cbn [served_by_move] in Dg. rewrite Hk, D0 in Dg.
    assert (I0 : forall x, In x q0 -> exists j, nth_error (requests (net_log ms)) j = Some x).
    { intros x X. destruct (some_in _ _ x O0 X) as [j J]. exists j. rewrite Em', <- app_assoc. now apply requests_grow. }
    assert (I : forall x, In x qs -> exists j, nth_error (requests (net_log ms)) j = Some x) by (intros x X; now apply (some_in qs)).
    assert (Iq : exists j, nth_error (requests (net_log ms)) j = Some q).
    { apply In_nth_error. unfold requests. apply in_flat_map. exists (OAccept tag q). split; [exact Ha|now left]. }
    assert (Sp : forall b, (forall x, In x b -> exists j, nth_error (requests (net_log ms)) j = Some x) -> map wire qs = (map wire b ++ [wire q]) ++ more ->
      exists later, qs = b ++ q :: later).
    { intros b Ib Hb. assert (X : map wire (firstn (length b + 1) qs) = map wire (b ++ [q])).
      { rewrite <- firstn_map, Hb, map_app. cbn [map]. rewrite firstn_app. rewrite firstn_all2 by (rewrite app_length, map_length; cbn; lia).
        replace (length b + 1 - length (map wire b ++ [wire q]))%nat with 0%nat by (rewrite app_length, map_length; cbn; lia). cbn. now rewrite app_nil_r. }
      apply (same_all _ _ _ Fn Fw) in X.
      - exists (skipn (length b + 1) qs). rewrite <- (firstn_skipn (length b + 1) qs) at 1. rewrite X, <- app_assoc. reflexivity.
      - intros x Hx. apply I. rewrite <- (firstn_skipn (length b + 1) qs). apply in_app_iff. now left.
      - intros x Hx. apply in_app_iff in Hx. destruct Hx as [Hx|[<-|[]]]; [now apply Ib|exact Iq]. }
    destruct (note_cases (map wire q0) (wire q)) as [[[a Aa] Hn]|[Aa Hn]]; rewrite Hn in Dg.
    - destruct (map_snoc wire q0 a _ Aa) as (b & q1 & -> & Eb & E1). destruct (I0 q1) as [j1 J1]; [apply in_app_iff; right; now left|]. destruct Iq as [j J].
      destruct (same_place _ _ _ _ _ Fn Fw J1 J E1) as [_ ->]. destruct (Sp b) as [later L].
      { intros x X. apply I0, in_app_iff. now left. } { rewrite map_app in Dg. exact Dg. }
      exists b, q, later. repeat (split; [assumption|]). rewrite map_app in Q0. cbn [map] in Q0. rewrite done_snoc in Q0.
      rewrite <- (proj2 (rp_twice _ _ Hr _ _)), <- (proj2 (rp_same _ _ Hr _ _ (as_received q) Q0)). exact Hs.
    - destruct (Sp q0 I0 Dg) as [later L]. exists q0, q, later. repeat (split; [assumption|]).
      rewrite <- (proj2 (rp_same _ _ Hr _ _ (as_received q) Q0)). exact Hs.
  Qed.
End Once.
