(** Calls made at the same time can always end in time (C92). *)
From Coq Require Import Lia Sorted.
From Verif Require Export SpecCrowd.
From Verif Require Import Tac TimeProofs CostProofs ProgProofs DeadlineProofs ConcProofs CrowdProofs CrowdProofs2.
Import ListNotations.
Open Scope N_scope.

(** ** How far the calls are from their ends when every transmission fails *)
Fixpoint todo {A} (p : prog A) : nat := match p with Ret _ => 0 | Ask _ _ k => 4 + todo (k (Missed EIo)) | Nap _ p => 2 + todo p end.
(** [e]: the error that the call that waits for a reply will get. *)
Definition left_of {A} (e : Error) (c : cstage A) : nat :=
  match c with
  | CReady p _ => todo p
  | CAsleep p _ => 1 + todo p
  | CQueued _ _ _ k => 3 + todo (k (Missed EIo))
  | CPending k => 1 + todo (k (Missed e))
  | CGone => 0
  end.
Definition total_left {A} (e : Error) (l : list (cstage A)) : nat := fold_right (fun c n => left_of e c + n)%nat 0%nat l.
Definition fate (s : loop) : Error :=
  match l_out s with
  | Some o => if (o_retries o <? l_limit s) && (o_errors o <? NUM_ALLOWED_ERROR_MESSAGES) then EIo
              else if l_limit s <=? o_retries o then EMaxRetries (o_retries o) else EMaxFaultMessages (o_errors o)
  | None => EIo
  end.
Definition far {A} (c : timed_calls A) : nat :=
  total_left (fate (tm_loop (tcs_timed c))) (tcs_calls c) + match tcs_slot c with Some s => if sl_sent s then 0 else 1 | None => 0 end.
Lemma total_update {A} e i (x y : cstage A) l : nth_error l i = Some y -> (total_left e (update i x l) + left_of e y = total_left e l + left_of e x)%nat.
Proof.
  revert i. induction l as [|z l IH]; intros [|i] E; try discriminate; cbn [update total_left fold_right].
  - injection E as ->. lia.
  - specialize (IH i E). unfold total_left in IH. lia.
Qed.
(** The call [j], alone in waiting for a reply, fails with [e]. *)
Definition fails_as (e : Error) (j : N) (t : timed) (out : list output) : Prop :=
  answer_for j out = Some (Err e) \/ answer_for j out = None /\ runs t = false.
Lemma left_rest {A} e e' t now out i (c : cstage A) : (forall k, c <> CPending k) -> (left_of e' (hears_one t now out i c) <= left_of e c)%nat.
Proof.
  intro H. destruct c as [p since|p until|id q d k|k|]; cbn [hears_one left_of]; try lia.
  - destruct (runs t); cbn; lia.
  - now destruct (H k).
Qed.
Lemma total_rest {A} e e' t now out (l : list (cstage A)) : forall i, (forall j k, nth_error l j <> Some (CPending k)) ->
  (total_left e' (hears t now out i l) <= total_left e l)%nat.
Proof.
  induction l as [|c l IH]; intros i H; [cbn; lia|].
  assert (B : (left_of e' (hears_one t now out i c) <= left_of e c)%nat).
  { apply left_rest. intros k ->. now apply (H 0%nat k). }
  assert (C : (total_left e' (hears t now out (S i) l) <= total_left e l)%nat).
  { apply IH. intros j k E. now apply (H (S j) k). }
  cbn [hears total_left fold_right]. unfold total_left in C. change (match c with CPending k => _ | _ => _ end) with (hears_one t now out i c). lia.
Qed.
Lemma total_less {A} e e' t now out (l : list (cstage A)) j k : forall i,
  nth_error l j = Some (CPending k) -> (forall m k', nth_error l m = Some (CPending k') -> m = j) ->
  fails_as e (N.of_nat (i + j)) t out -> (total_left e' (hears t now out i l) < total_left e l)%nat.
Proof.
  revert j. induction l as [|c l IH]; intros [|j] i E G H; try discriminate; cbn [hears total_left fold_right];
    change (match c with CPending k => _ | _ => _ end) with (hears_one t now out i c).
  - cbn in E. injection E as ->. rewrite Nat.add_0_r in H.
    assert (C : (total_left e' (hears t now out (S i) l) <= total_left e l)%nat).
    { apply total_rest. intros m k' F. discriminate (G (S m) k' F). }
    unfold total_left in C. cbn [left_of]. cbn [hears_one]. destruct H as [-> |[-> ->]]; cbn [left_of heard todo]; lia.
  - assert (G' : forall m k', nth_error l m = Some (CPending k') -> m = j).
    { intros m k' F. specialize (G (S m) k' F). congruence. }
    specialize (IH j (S i) E G'). rewrite Nat.add_succ_r in H. specialize (IH H).
    assert (B : (left_of e' (hears_one t now out i c) <= left_of e c)%nat).
    { apply left_rest. intros k' ->. discriminate (G 0%nat k' eq_refl). }
    unfold total_left in IH. lia.
Qed.
Lemma stopped_not t : l_status (tm_loop t) <> Running -> runs t = false.
Proof. apply runs_false. Qed.
Lemma answer_as s o e t : tm_loop t = fst (IoLoop.answer s o (Err e)) ->
  fails_as e (o_tag o) t (snd (IoLoop.answer s o (Err e))).
Proof.
  unfold IoLoop.answer. destruct (o_gone o); cbn [fst snd]; intro E.
  - right. split; [reflexivity|]. apply stopped_not. now rewrite E.
  - left. cbn. now rewrite N.eqb_refl.
Qed.
Lemma send_as s o t : tm_loop t = fst (send_outgoing_request s o false) ->
  fails_as EIo (o_tag o) t (snd (send_outgoing_request s o false)).
Proof.
  unfold send_outgoing_request. destruct (request_packet (o_request o)) as [p|]; cbn [fst snd]; intro E.
  - pose proof (answer_as s o EIo t) as X. destruct (IoLoop.answer s o (Err EIo)) as [s' out]. exact (X E).
  - right. split; [reflexivity|]. apply stopped_not. now rewrite E.
Qed.
Lemma tick_as s o t : waiting s o -> tm_loop t = fst (handle_tick s false) -> fails_as (fate s) (o_tag o) t (snd (handle_tick s false)).
Proof.
  intros [_ H] E. unfold fate, handle_tick in *. rewrite H in *. destruct (_ && _); [now apply send_as|].
  destruct (_ <=? _); now apply answer_as.
Qed.
Lemma taking_as t now i r g : l_status (tm_loop t) = Running -> l_out (tm_loop t) = None ->
  fails_as EIo i (fst (taking t now i r false g)) (snd (taking t now i r false g)).
Proof.
  intros H1 H2. unfold taking. destruct g.
  - unfold take_left, send_outgoing_request. cbn [o_request]. destruct (request_packet r); right; (split; [reflexivity|]); now apply stopped_not.
  - unfold timed_step, step. rewrite H1, H2. set (s1 := set_out _ _). set (o := mkOut _ _ _ _ _).
    pose proof (send_as s1 o) as X. change (o_tag o) with i in X. destruct (send_outgoing_request s1 o false) as [s' out]. cbn [fst snd] in *.
    match goal with |- fails_as _ _ ?t' _ => specialize (X t' eq_refl) end. exact X.
Qed.
Definition simple (h : occurrence) : Prop := match h with OcCall _ | OcTake _ | OcLoop (EvTick _) => True | _ => False end.
(** Whatever is due brings the calls nearer to their ends. *)
Lemma nearer {A} (c : timed_calls A) d now : shape c -> is_due c d -> d <= now ->
  exists h, (far (calls_step c now h) < far c)%nat /\ simple h.
Proof.
  intros S D L. destruct D as [i q dt k since E|i m p since E|i p until E|i g b id q dt k E Es|o Ho|i s b R O Es].
  - exists (OcCall i). split; [|exact I]. unfold calls_step, calls_does. unfold nth_call in E. rewrite E. destruct (N.ltb_spec now since); [lia|].
    destruct (runs (tcs_timed c)) eqn:R.
    + destruct (tcs_slot c) as [s|] eqn:Es; unfold far; cbn [fst tcs_calls tcs_slot tcs_timed]; rewrite ?Es;
        pose proof (total_update (fate (tm_loop (tcs_timed c))) i (CQueued (tcs_counter c) q dt k) _ _ E) as U; cbn [left_of todo sl_sent] in *; lia.
    + unfold far. cbn [fst tcs_calls tcs_slot tcs_timed]. pose proof (total_update (fate (tm_loop (tcs_timed c))) i (CReady (Ret Panic) now) _ _ E) as U. cbn [left_of todo] in U. lia.
  - exists (OcCall i). split; [|exact I]. unfold calls_step, calls_does. unfold nth_call in E. rewrite E. destruct (N.ltb_spec now since); [lia|].
    unfold far. cbn [fst tcs_calls tcs_slot tcs_timed]. pose proof (total_update (fate (tm_loop (tcs_timed c))) i (CAsleep p (now + m)) _ _ E) as U. cbn [left_of todo] in U. lia.
  - exists (OcCall i). split; [|exact I]. unfold calls_step, calls_does. unfold nth_call in E. rewrite E. destruct (N.leb_spec until now); [|lia].
    unfold far. cbn [fst tcs_calls tcs_slot tcs_timed]. pose proof (total_update (fate (tm_loop (tcs_timed c))) i (CReady p now) _ _ E) as U. cbn [left_of todo] in U. lia.
  - exists (OcCall i). split; [|exact I]. unfold calls_step, calls_does. unfold nth_call in E. rewrite E, Es, Nat.eqb_refl.
    unfold far. cbn [fst tcs_calls tcs_slot sl_sent tcs_timed]. rewrite Es. pose proof (total_update (fate (tm_loop (tcs_timed c))) i (CQueued id q dt k) _ _ E) as U. cbn [left_of todo sl_sent] in *. lia.
  - exists (OcLoop (EvTick false)). split; [|exact I]. unfold calls_step, calls_does. cbn [fst].
    destruct (sh_out c S o Ho) as (i & k & E & Ht).
    assert (One : forall m k', nth_error (tcs_calls c) m = Some (CPending k') -> m = i).
    { intros m k' F. destruct (sh_pending c S m k' F) as (o' & Ho' & Ht'). destruct Ho as [_ O1], Ho' as [_ O2]. rewrite O1 in O2.
      injection O2 as <-. rewrite Ht in Ht'. now apply Nnat.Nat2N.inj in Ht'. }
    set (r := timed_step (tcs_timed c) now (EvTick false)).
    assert (Er : tm_loop (fst r) = fst (handle_tick (tm_loop (tcs_timed c)) false) /\ snd r = snd (handle_tick (tm_loop (tcs_timed c)) false)).
    { unfold r, timed_step. rewrite (proj2 Ho). destruct (N.ltb_spec now (tm_deadline (tcs_timed c))); [lia|]. unfold step. rewrite (proj1 Ho).
      destruct (handle_tick (tm_loop (tcs_timed c)) false). now split. }
    destruct Er as [E1 E2]. pose proof (tick_as _ o (fst r) Ho E1) as G. rewrite <- E2, Ht in G.
    unfold far. thens. destruct r as [t' out] eqn:Er. cbn [fst snd] in *. unfold then_calls.
    pose proof (total_less _ (fate (tm_loop t')) t' now out _ i k 0%nat E One G) as X.
    destruct (runs t'); cbn [tcs_calls]; lia.
  - exists (OcTake false). split; [|exact I]. unfold calls_step, calls_does. rewrite O, Es.
    destruct (sh_in c S i) as (id & q & dt & k & E); [unfold line; rewrite Es; now left|]. unfold nth_call in E. rewrite E.
    change (if b then _ else _) with (taking (tcs_timed c) now (N.of_nat i) (host_request id q dt) false b).
    pose proof (taking_as (tcs_timed c) now (N.of_nat i) (host_request id q dt) b R O) as G. cbv zeta.
    set (r := taking (tcs_timed c) now (N.of_nat i) (host_request id q dt) false b) in *.
    pose proof (total_update EIo i (CPending k) _ _ E) as U. cbn [left_of] in U.
    assert (One : forall m k', nth_error (update i (CPending k) (tcs_calls c)) m = Some (CPending k') -> m = i).
    { intros m k' F. rewrite nth_update in F. destruct (Nat.eqb_spec i m) as [->|]; [reflexivity|].
      destruct (sh_pending c S m k' F) as (o' & Ho' & _). destruct Ho' as [_ O2]. congruence. }
    assert (Ep : nth_error (update i (CPending k) (tcs_calls c)) i = Some (CPending k)) by now rewrite nth_update, Nat.eqb_refl, E.
    pose proof (total_less EIo (fate (tm_loop (fst r))) (fst r) now (snd r) _ i k 0%nat Ep One G) as X.
    assert (F0 : fate (tm_loop (tcs_timed c)) = EIo) by (unfold fate; now rewrite O).
    unfold far. rewrite Es, F0. unfold next_slot. destruct (tcs_waiters c) as [|j ws]; cbn [fst tl]; thens; destruct r as [t' out]; cbn [fst snd] in *; unfold then_calls;
      destruct (runs t'); cbn [tcs_calls sl_sent]; lia.
Qed.

(** Something is due unless all have ended. *)
Definition all_ended {A} (c : timed_calls A) : Prop := forall i, (i < length (tcs_calls c))%nat -> ended_call i c \/ nth_call c i = Some CGone.
Lemma due_or_ended {A} (c : timed_calls A) : shape c -> all_ended c \/ exists d, is_due c d.
Proof.
  intro S. destruct (all_due c) as [|d l] eqn:E.
  2: { right. exists d. apply due_is. rewrite E. now left. }
  left. assert (N0 : forall d, ~ is_due c d) by (intros d H; apply due_is in H; rewrite E in H; destruct H).
  assert (L : tcs_slot c = None).
  { destruct (tcs_slot c) as [[j [] g b]|] eqn:Es; [| |reflexivity]; exfalso.
    - assert (R : l_status (tm_loop (tcs_timed c)) = Running).
      { destruct (runs (tcs_timed c)) eqn:R1; [now apply runs_true|]. apply runs_false in R1. pose proof (sh_stop c S R1). congruence. }
      destruct (l_out (tm_loop (tcs_timed c))) as [o|] eqn:O; [now apply (N0 _ (DueTick c o (conj R O)))|now apply (N0 _ (DueTake c j g b R O Es))].
    - destruct (sh_in c S j) as (id & q & d & k & X); [unfold line; rewrite Es; now left|]. now apply (N0 _ (DuePush c j g b id q d k X Es)). }
  intros i Hi. unfold ended_call, nth_call. destruct (nth_error (tcs_calls c) i) as [[[x|q d k|m p] since|p until|id q d k|k|]|] eqn:Ei.
  - left. now exists x, since.
  - now destruct (N0 _ (DueAsk c i q d k since Ei)).
  - now destruct (N0 _ (DueNap c i m p since Ei)).
  - now destruct (N0 _ (DueWake c i p until Ei)).
  - pose proof (sh_queued c S i id q d k Ei) as X. unfold line in X. rewrite L in X. destruct X.
  - destruct (sh_pending c S i k Ei) as (o & Ho & _). now destruct (N0 _ (DueTick c o Ho)).
  - now right.
  - apply nth_error_None in Ei. lia.
Qed.
Lemma least_of (l : list N) : l <> [] -> exists d, In d l /\ Forall (N.le d) l.
Proof.
  induction l as [|x l IH]; intro H; [contradiction|]. destruct l as [|y l].
  - exists x. split; [now left|]. repeat constructor; lia.
  - destruct (IH ltac:(discriminate)) as (d & D1 & D2). destruct (N.leb_spec x d).
    + exists x. split; [now left|]. constructor; [lia|]. revert D2. apply Forall_impl. intros; lia.
    + exists d. split; [now right|]. constructor; [lia|exact D2].
Qed.
Lemma least_due {A} (c : timed_calls A) d0 : is_due c d0 -> exists d, is_due c d /\ forall d', is_due c d' -> d <= d'.
Proof.
  intro H. apply due_is in H. destruct (least_of (all_due c)) as (d & D1 & D2); [intro X; rewrite X in H; destruct H|].
  exists d. split; [now apply due_is|]. intros d' H'. apply due_is in H'. rewrite Forall_forall in D2. now apply D2.
Qed.
Lemma calls_length {A} (c : timed_calls A) now h : length (tcs_calls (calls_step c now h)) = length (tcs_calls c).
Proof.
  assert (U : forall i (x : cstage A) l, length (update i x l) = length l).
  { intros i x l. revert i. induction l as [|y l IH]; intros [|i]; cbn; auto. }
  assert (V : forall t out (l : list (cstage A)) i, length (hears t now out i l) = length l).
  { intros t out l. induction l as [|y l IH]; intro i; cbn; auto. }
  pose proof (step_does c now h) as D. set (c2 := calls_step c now h) in *. clearbody c2.
  destruct D; try reflexivity; cbn [tcs_calls]; rewrite ?U; try reflexivity.
  - subst c'. cbn [tcs_calls]. now rewrite U.
  - unfold then_calls. destruct r. destruct (runs t); cbn [tcs_calls]; now rewrite V, U.
  - unfold then_calls. destruct r. destruct (runs t); cbn [tcs_calls]; now rewrite V.
Qed.
Lemma can_all_end {A} slack n : forall (c : timed_calls A) last, (far c < n)%nat -> shape c -> on_time slack c last ->
  exists hs, StronglySorted N.le (last :: map fst hs) /\ all_punctual slack c hs /\ all_ended (calls_run c hs) /\ forall i, ~ given_up i hs.
Proof.
  induction n as [|n IH]; intros c last B S T; [lia|].
  destruct (due_or_ended c S) as [E|(d0 & D0)].
  { exists []. split; [repeat constructor|]. split; [|split; [exact E|intros i []]]. intros [|? ?] ? ? ? Q; discriminate. }
  destruct (least_due c d0 D0) as (d & D & Min). set (now := N.max last d).
  assert (T1 : on_time slack c now).
  { rewrite on_time_is in *. intros d' H'. specialize (T d' H'). specialize (Min d' H'). lia. }
  destruct (nearer c d now S D ltac:(lia)) as (h & Hf & Hd).
  destruct (IH (calls_step c now h) now ltac:(lia) (shape_step c now h S) (on_time_step slack c now h S T1)) as (hs & H1 & H2 & H3 & H6).
  exists ((now, h) :: hs). split; [|split; [|split; [exact H3|]]].
  - cbn [map fst]. constructor; [exact H1|]. constructor; [lia|]. inversion H1 as [|? ? _ H4]. revert H4. apply Forall_impl. intros; lia.
  - intros [|x hs1] now' h' hs2 Q.
    + injection Q as <- _ _. exact T1.
    + injection Q as <- Q. exact (H2 hs1 now' h' hs2 Q).
  - intros i [X|X]; [cbn in X; now rewrite X in Hd|now apply (H6 i)].
Qed.
Lemma always_can_end {A} n_retries interval slack t id (ps : list (prog A * N)) hs : idle_timed n_retries interval t ->
  goes_forward hs -> all_punctual slack (calls_new t id ps) hs ->
  exists hs', goes_forward (hs ++ hs') /\ all_punctual slack (calls_new t id ps) (hs ++ hs') /\
    forall i, (i < length ps)%nat -> ended_call i (calls_run (calls_new t id ps) (hs ++ hs')) \/ given_up i hs.
Proof.
  intros I F P. set (c0 := calls_new t id ps) in *.
  assert (S0 : shape c0) by (apply shape_new; now apply (idle_out n_retries interval)).
  assert (T : on_time slack (calls_run c0 hs) (latest hs)).
  { destruct hs as [|[now h] hs _] using rev_ind.
    - apply on_time_is. intros d _. unfold latest. cbn. lia.
    - destruct (all_prefix _ _ _ _ P) as [_ P2]. rewrite calls_snoc, latest_snoc. apply on_time_step; [now apply shape_run|exact P2]. }
  destruct (can_all_end slack _ (calls_run c0 hs) (latest hs) (Nat.lt_succ_diag_r _) (shape_run c0 hs S0) T) as (hs' & H1 & H2 & H3 & H6).
  assert (Lr : forall hs (c : timed_calls A), length (tcs_calls (calls_run c hs)) = length (tcs_calls c)).
  { clear. intro hs. induction hs as [|[now h] hs IH]; intro c; [reflexivity|]. unfold calls_run in *. cbn [fold_left]. rewrite IH. apply calls_length. }
  assert (Rr : calls_run c0 (hs ++ hs') = calls_run (calls_run c0 hs) hs') by (unfold calls_run; now rewrite fold_left_app).
  exists hs'. split; [|split].
  - inversion H1 as [|? ? H4 H5]; subst. clear - F H4 H5. unfold goes_forward in *. rewrite map_app.
    destruct hs as [|x hs _] using rev_ind; [exact H4|]. rewrite latest_snoc in H5. rewrite map_app in *. cbn [map] in *.
    revert F H4 H5. generalize (map fst hs) (fst x) (map fst hs'). clear. intros a z b F Hb Hz. induction a as [|y a IH]; cbn [app] in *.
    + constructor; assumption.
    + inversion F as [|? ? F1 F2]; subst. constructor; [now apply IH|]. apply Forall_app in F2. destruct F2 as [F2 F3]. inversion F3 as [|? ? F4 _]; subst.
      repeat (apply Forall_app; split); [exact F2|now constructor|]. revert Hz. apply Forall_impl. intros; lia.
  - intros hs1 now h hs2 Q.
    assert (D : (exists y, hs = hs1 ++ (now, h) :: y) \/ exists y, hs1 = hs ++ y).
    { clear - Q. revert hs Q. induction hs1 as [|z hs1 IH]; intros [|z' hs] Q; cbn [app] in Q.
      - right. now exists [].
      - injection Q as -> _. left. now exists hs.
      - right. now exists (z :: hs1).
      - injection Q as -> Q. destruct (IH hs Q) as [(y & ->)|(y & ->)]; [left; now exists y|right; now exists y]. }
    destruct D as [(y & ->)|(y & ->)]; [exact (P hs1 now h y eq_refl)|].
    rewrite <- app_assoc in Q. apply app_inv_head in Q. unfold calls_run. rewrite fold_left_app. exact (H2 y now h hs2 Q).
  - intros i Hi. destruct (H3 i) as [X|X]; [rewrite !Lr; unfold c0; cbn; now rewrite map_length|left; now rewrite Rr|].
    right. rewrite <- Rr in X. apply gone_run in X. unfold given_up in X. rewrite map_app, in_app_iff in X. destruct X as [X|X]; [exact X|now destruct (H6 i)].
Qed.
