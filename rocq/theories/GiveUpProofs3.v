(** Giving up calls: how soon it stops the loop, and what becomes of the others (C93). *)
From Coq Require Import Lia Sorted.
From Verif Require Export SpecGiveUp.
From Verif Require Import Tac TimeProofs CostProofs ProgProofs DeadlineProofs ConcProofs CrowdProofs CrowdProofs2 CrowdProofs3 CrowdProofs4 GiveUpProofs.
Import ListNotations.
Open Scope N_scope.

Section Soon.
  Context {A : Type} (n_retries : option N) (interval slack : N) (i : nat) (limit : N).
  Local Notation once := (attempts n_retries * (interval + slack)).
  Local Notation fin := (fin n_retries interval slack).
  (** The loop stops by [limit]. *)
  Definition doomed (c : timed_calls A) : Prop := runs (tcs_timed c) = true ->
    (exists g, tcs_slot c = Some (mkSlot i true g true) /\ slack + N.max g (fin c) + once <= limit) \/
    (exists o, l_out (tm_loop (tcs_timed c)) = Some o /\ o_gone o = true /\ fin c <= limit).
  Lemma fin_same (c c' : timed_calls A) : tcs_timed c' = tcs_timed c -> tcs_free c' = tcs_free c -> fin c' = fin c.
  Proof. intros H1 H2. unfold CrowdProofs.fin. now rewrite H1, H2. Qed.
  Lemma fin_gone (c : timed_calls A) now o sl ws (l : list (cstage A)) n : waiting (tm_loop (tcs_timed c)) o ->
    fin (mkTimedCalls (fst (timed_step (tcs_timed c) now EvCallerGone)) (tcs_free c) n sl ws l) = fin c.
  Proof.
    intro Ho. destruct (gone_does (tcs_timed c) now o Ho) as ([_ G1] & G2 & G3 & G4). unfold CrowdProofs.fin. cbn [tcs_timed tcs_free]. rewrite G1, G2. cbn [o_retries].
    now rewrite (proj2 Ho).
  Qed.
  Lemma doomed_step c last now h : shape c -> clock n_retries interval c last -> on_time slack c now -> doomed c -> doomed (calls_step c now h).
  Proof.
    intros S C T D. pose proof (K_pos n_retries) as KP.
    assert (Same : forall c', tcs_timed c' = tcs_timed c -> tcs_free c' = tcs_free c ->
      (forall g, tcs_slot c = Some (mkSlot i true g true) -> tcs_slot c' = tcs_slot c) -> doomed c').
    { intros c' H1 H2 H3 R. rewrite H1 in R. rewrite H1, (fin_same c c' H1 H2). destruct (D R) as [(g & G1 & G2)|G]; [left|now right].
      exists g. split; [|exact G2]. rewrite (H3 g G1). exact G1. }
    pose proof (step_does c now h) as St. set (c2 := calls_step c now h) in *. clearbody c2. set (out := snd (calls_does c now h)) in *. clearbody out.
    destruct St as [|j q d k since sl n E _ R c' Esl|j q d k since n E _ R|j m p since E _|j p until E _|j id q d k g b E Es|j s g id q d k io O Es E r|e P r
    |j y E Ny Hy|j id q d k g b E Es|j id q d k s E Es Ni|j id q d k g b E Es|j k E].
    - exact D.
    - apply Same; try reflexivity. intros g G. cbn [c' tcs_slot]. subst sl. now rewrite G.
    - now apply Same.
    - now apply Same.
    - now apply Same.
    - apply Same; try reflexivity. intros g' G. congruence.
    - assert (R : l_status (tm_loop (tcs_timed c)) = Running).
      { destruct (runs (tcs_timed c)) eqn:R; [now apply runs_true|]. apply runs_false in R. pose proof (sh_stop c S R). congruence. }
      destruct (D (proj2 (runs_true _) R)) as [(g0 & G1 & G2)|(o & G1 & _)]; [|congruence]. rewrite Es in G1. injection G1 as -> -> ->.
      pose proof (hd_now n_retries interval slack c now _ T S Es) as Hn. unfold CrowdProofs.hd in Hn. rewrite Es in Hn. cbn [sl_since sl_sent] in Hn.
      intro Rr. thens. right. destruct (take_left_lost (tcs_timed c) now (N.of_nat i) (host_request id q d) io R O) as [L _]. fold r in L.
      apply runs_true in Rr. destruct (L Rr) as (o & O1 & O2). exists o. split; [exact O1|]. split; [exact O2|].
      pose proof (take_does (tcs_timed c) now (N.of_nat i) (host_request id q d) io true R O) as X. fold r in X. destruct X as [g' T1 T2 T3|x T1 T2 T3|T1 T2]; [|congruence|contradiction].
      unfold CrowdProofs.fin at 1. thens. rewrite (proj2 T1), T2. cbn [o_retries]. rewrite (ck_period n_retries interval c last C).
      rewrite N.add_0_r in Hn. nia.
    - intro Rr. thens.
      assert (R : runs (tcs_timed c) = true).
      { destruct (runs (tcs_timed c)) eqn:Y; [reflexivity|]. apply runs_false in Y. destruct (stopped_step (tcs_timed c) now e Y) as [Z _].
        apply runs_true in Rr. fold r in Z. congruence. }
      pose proof (fin_loop n_retries interval slack c last now e C T P _ (tcs_counter c) (tcs_slot c) (tcs_waiters c) (tcs_calls c) eq_refl Rr) as F. fold r in F. cbv zeta in F.
      destruct (D R) as [(g & G1 & G2)|(o & G1 & G2 & G3)].
      + left. exists g. rewrite Rr. split; [exact G1|]. lia.
      + right. assert (L : lost (tm_loop (tcs_timed c))) by (intros _; now exists o). destruct (lost_step (tcs_timed c) now e P L) as [L1 _]. fold r in L1.
        apply runs_true in Rr. destruct (L1 Rr) as (o' & O1 & O2). exists o'. split; [exact O1|]. split; [exact O2|]. lia.
    - now apply Same.
    - apply Same; try reflexivity. intros g' G. congruence.
    - apply Same; try reflexivity. intros g' G. cbn [tcs_slot]. congruence.
    - intro R. cbn [tcs_timed tcs_slot] in *. destruct (D R) as [(g0 & G1 & G2)|G].
      + left. rewrite Es in G1. injection G1 as -> -> ->. exists g0. split; [reflexivity|]. rewrite (fin_same c) by reflexivity. exact G2.
      + right. rewrite (fin_same c) by reflexivity. exact G.
    - destruct (sh_pending c S j k E) as (o & Ho & _). intro R. cbn [tcs_timed tcs_slot] in *. rewrite (fin_gone c now o _ _ _ _ Ho).
      destruct (D (proj2 (runs_true _) (proj1 Ho))) as [G|(o' & G1 & G2 & G3)]; [now left|]. right.
      destruct (gone_does (tcs_timed c) now o Ho) as ([_ X] & _). eexists. split; [exact X|]. now split.
  Qed.
  Lemma doomed_drop c last now : shape c -> clock n_retries interval c last -> last <= now -> submitted i c -> now + slack + 2 * once <= limit ->
    doomed (calls_step c now (OcDrop i)).
  Proof.
    intros S C L [(g & b & Es)|(k & E)] B R.
    - left. pose proof (drop_sent c now i g b S Es) as (g' & G). exists g'. split; [exact G|].
      pose proof (clock_step n_retries interval c last now (OcDrop i) S C L) as C'. pose proof (fin_most n_retries interval slack _ now C' R) as F.
      pose proof (busy_one (calls_step c now (OcDrop i))). pose proof (ck_slot n_retries interval _ _ C' _ G) as X. cbn [sl_since] in X. nia.
    - right. pose proof (drop_pending c now i k S E) as Lo. destruct (Lo (proj1 (runs_true _) R)) as (o & O1 & O2). exists o. split; [exact O1|]. split; [exact O2|].
      pose proof (clock_step n_retries interval c last now (OcDrop i) S C L) as C'. pose proof (fin_most n_retries interval slack _ now C' R) as F.
      pose proof (busy_one (calls_step c now (OcDrop i))) as Bo. destruct (busy (calls_step c now (OcDrop i))) as [|[|n]]; [| |lia]; generalize dependent (attempts n_retries * (interval + slack)); intros W B F; lia.
  Qed.
  Lemma doomed_now c now : shape c -> on_time slack c now -> doomed c -> limit < now -> stopped c.
  Proof.
    intros S T D L R. destruct (D (proj2 (runs_true _) R)) as [(g & G1 & G2)|(o & G1 & G2 & G3)].
    - pose proof (hd_now n_retries interval slack c now _ T S G1) as H. unfold CrowdProofs.hd in H. rewrite G1 in H. cbn [sl_since sl_sent] in H.
      rewrite N.add_0_r in H. lia.
    - pose proof (due_tick slack c now T o (conj R G1)) as H. unfold CrowdProofs.fin in G3. rewrite G1 in G3.
      generalize dependent ((attempts n_retries - o_retries o) * (interval + slack)). intros W G3. lia.
  Qed.
End Soon.

Lemma stops_soon {A} n_retries interval slack t id (ps : list (prog A * N)) hs now i hs2 now' h' : idle_timed n_retries interval t ->
  goes_forward (hs ++ (now, OcDrop i) :: hs2 ++ [(now', h')]) -> all_punctual slack (calls_new t id ps) (hs ++ (now, OcDrop i) :: hs2 ++ [(now', h')]) ->
  submitted i (calls_run (calls_new t id ps) hs) -> now + slack + 2 * (attempts n_retries * (interval + slack)) < now' ->
  stopped (calls_run (calls_new t id ps) (hs ++ (now, OcDrop i) :: hs2)).
Proof.
  intros I F P Sub L. set (c0 := calls_new t id ps) in *. set (limit := now + slack + 2 * (attempts n_retries * (interval + slack))) in *.
  assert (S0 : shape c0) by (apply shape_new; now apply (idle_out n_retries interval)).
  assert (G : forall hs2, goes_forward (hs ++ (now, OcDrop i) :: hs2) -> all_punctual slack c0 (hs ++ (now, OcDrop i) :: hs2) ->
    doomed n_retries interval slack i limit (calls_run c0 (hs ++ (now, OcDrop i) :: hs2))).
  { clear F P. intro l. induction l as [|[n2 h2] l IH] using rev_ind; intros F P.
    - rewrite calls_snoc. destruct (forward_snoc _ _ F) as [F1 F2]. apply (doomed_drop n_retries interval slack i limit _ (latest hs)); auto.
      + now apply shape_run.
      + now apply clock_run.
      + unfold limit. lia.
    - rewrite app_comm_cons, app_assoc in F, P |- *. rewrite calls_snoc. destruct (forward_snoc _ _ F) as [F1 F2]. destruct (all_prefix _ _ _ _ P) as [P1 P2].
      apply (doomed_step n_retries interval slack i limit _ (latest (hs ++ (now, OcDrop i) :: l))); auto; [now apply shape_run|now apply clock_run]. }
  rewrite app_comm_cons, app_assoc in F, P. destruct (forward_snoc _ _ F) as [F1 F2]. destruct (all_prefix _ _ _ _ P) as [P1 P2].
  apply (doomed_now n_retries interval slack i limit _ now'); auto. now apply shape_run.
Qed.

(** ** When the loop has stopped *)
Lemma all_panic {A} n_retries interval t id (ps : list (prog A * N)) hs : idle_timed n_retries interval t ->
  let c := calls_run (calls_new t id ps) hs in stopped c ->
  (forall i x, nth_error (tcs_calls c) i = Some x -> call_waits x = false) /\
  (forall i q d k since now, nth_error (tcs_calls c) i = Some (CReady (Ask q d k) since) -> since <= now ->
    nth_error (tcs_calls (calls_step c now (OcCall i))) i = Some (CReady (Ret Panic) now)) /\
  (forall hs', stopped (calls_run c hs')).
Proof.
  intros I c H. assert (S : shape c) by (apply shape_run, shape_new; now apply (idle_out n_retries interval)). split; [|split].
  - intros i x E. destruct x as [p s|p s|id' q d k|k|]; try reflexivity; exfalso.
    + pose proof (sh_queued c S i id' q d k E) as X. unfold line in X. rewrite (sh_stop c S H) in X. destruct X.
    + destruct (sh_pending c S i k E) as (o & [X _] & _). contradiction.
  - intros i q d k since now E Hn. unfold calls_step, calls_does. rewrite E. destruct (N.ltb_spec now since); [lia|].
    rewrite (proj2 (runs_false _) H). cbn [fst tcs_calls]. now rewrite nth_update, Nat.eqb_refl, E.
  - intro hs'. clearbody c. revert c H S. induction hs' as [|[now h] hs' IH]; intros c H S; [exact H|]. apply (IH (calls_step c now h)); [|now apply shape_step].
    clear IH. pose proof (step_does c now h) as D. set (c2 := calls_step c now h) in *. clearbody c2. set (out := snd (calls_does c now h)) in *. clearbody out.
    unfold stopped in *. destruct D as [|j q d k since sl n E _ R c' Esl|j q d k since n E _ R|j m p since E _|j p until E _|j id' q d k g b E Es|j s g id' q d k io O Es E r|e P r
    |j y E Ny Hy|j id' q d k g b E Es|j id' q d k s E Es Ni|j id' q d k g b E Es|j k E]; thens; try assumption.
    + exfalso. rewrite (sh_stop c S H) in Es. discriminate.
    + destruct (stopped_step (tcs_timed c) now e H) as [X _]. fold r in X. now rewrite X.
    + cbn [tcs_timed]. destruct (stopped_step (tcs_timed c) now EvCallerGone H) as [X _]. now rewrite X.
Qed.
