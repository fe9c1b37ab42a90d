(** Giving up calls: when it does no harm, and how soon it stops the loop otherwise (C93). *)
From Coq Require Import Lia Sorted.
From Verif Require Export SpecGiveUp.
From Verif Require Import Tac TimeProofs CostProofs ProgProofs DeadlineProofs ConcProofs CrowdProofs CrowdProofs2 CrowdProofs3 CrowdProofs4 GiveUpProofs.
Import ListNotations.
Open Scope N_scope.

(** ** No harm *)
Record kept {A} (c : timed_calls A) : Prop := {
  kp_out : forall o, l_out (tm_loop (tcs_timed c)) = Some o -> o_gone o = false /\ request_packet (o_request o) <> None;
  kp_slot : forall s, tcs_slot c = Some s -> sl_left s = false }.
Lemma take_out t now i r io o : l_status (tm_loop t) = Running -> l_out (tm_loop t) = None ->
  let x := timed_step t now (EvRequest i r io) in l_out (tm_loop (fst x)) = Some o -> l_status (tm_loop (fst x)) = Running ->
  o_gone o = false /\ request_packet (o_request o) <> None.
Proof.
  intros H1 H2 x. unfold x, timed_step, step. rewrite H1, H2. unfold send_outgoing_request. cbn [o_request o_gone o_tag]. destruct (request_packet r) as [p|] eqn:E.
  - destruct io; cbn; intros [= <-] _. cbn. split; [reflexivity|congruence].
  - cbn. discriminate.
Qed.
Lemma kept_step {A} (c : timed_calls A) now h : shape c -> (runs (tcs_timed c) = true -> kept c) -> (forall i, h = OcDrop i -> ~ submitted i c) ->
  (runs (tcs_timed (calls_step c now h)) = true -> kept (calls_step c now h)) /\
  exists es, (forall at_, ~ In (at_, EvCallerGone) es) /\ timed_run (tcs_timed c) es = (tcs_timed (calls_step c now h), map (pair now) (snd (calls_does c now h))).
Proof.
  intros S K Hd.
  assert (Same : forall (c' : timed_calls A), tcs_timed c' = tcs_timed c -> (forall s, tcs_slot c' = Some s -> sl_left s = false \/ tcs_slot c = Some s) ->
    (runs (tcs_timed c') = true -> kept c') /\
    exists es, (forall at_, ~ In (at_, EvCallerGone) es) /\ timed_run (tcs_timed c) es = (tcs_timed c', map (pair now) [])).
  { intros c' E Es. split.
    - intro R. rewrite E in R. destruct (K R) as [K1 K2]. split; [now rewrite E|]. intros s Hs. destruct (Es s Hs) as [X|X]; [exact X|now apply K2].
    - exists []. split; [intros at_ []|]. cbn. now rewrite E. }
  assert (Stay : (runs (tcs_timed c) = true -> kept c) /\
    exists es, (forall at_, ~ In (at_, EvCallerGone) es) /\ timed_run (tcs_timed c) es = (tcs_timed c, map (pair now) [])).
  { apply Same; [reflexivity|]. intros s Hs. now right. }
  assert (One : forall e, e <> EvCallerGone -> forall t' out, timed_step (tcs_timed c) now e = (t', out) ->
    exists es, (forall at_, ~ In (at_, EvCallerGone) es) /\ timed_run (tcs_timed c) es = (t', map (pair now) out)).
  { intros e Ne t' out E. exists [(now, e)]. split; [intros at_ [[= _ X]|[]]; congruence|]. cbn. rewrite E. now rewrite app_nil_r. }
  assert (Next : forall s, next_slot now (tcs_waiters c) = Some s -> sl_left s = false).
  { unfold next_slot. destruct (tcs_waiters c); [discriminate|]. now intros s [= <-]. }
  unfold calls_step, calls_does. destruct h as [i|io|e|i].
  - destruct (nth_error (tcs_calls c) i) as [[[x|q d k|m p] since|p until|id q d k|k|]|] eqn:E; cbn [fst snd]; try exact Stay.
    + destruct (now <? since); cbn [fst snd]; [exact Stay|]. destruct (runs (tcs_timed c)) eqn:R.
      * destruct (tcs_slot c) as [sl|] eqn:Es; cbn [fst snd]; (apply Same; [reflexivity|]); cbn [tcs_slot]; intros s [= <-]; [now right|now left].
      * cbn [fst snd]. apply Same; [reflexivity|]. cbn [tcs_slot]. intros s Hs. now right.
    + destruct (now <? since); cbn [fst snd]; [exact Stay|]. apply Same; [reflexivity|]. cbn [tcs_slot]. intros s Hs. now right.
    + destruct (until <=? now); cbn [fst snd]; [|exact Stay]. apply Same; [reflexivity|]. cbn [tcs_slot]. intros s Hs. now right.
    + destruct (tcs_slot c) as [[j [] g b]|] eqn:Es; cbn [fst snd]; try exact Stay.
      destruct (Nat.eqb i j); cbn [fst snd]; [|exact Stay]. apply Same; [reflexivity|]. cbn [tcs_slot]. intros s [= <-]. now left.
  - destruct (l_out (tm_loop (tcs_timed c))) eqn:O; [exact Stay|]. destruct (tcs_slot c) as [[j [] g b]|] eqn:Es; cbn [fst snd]; try exact Stay.
    destruct (nth_error (tcs_calls c) j) as [[ | |id q d k| |]|] eqn:E; cbn [fst snd]; try exact Stay.
    assert (R : l_status (tm_loop (tcs_timed c)) = Running).
    { destruct (runs (tcs_timed c)) eqn:R; [now apply runs_true|]. apply runs_false in R. pose proof (sh_stop c S R). congruence. }
    pose proof (K (proj2 (runs_true _) R)) as [K1 K2]. pose proof (K2 _ Es) as B. cbn in B. subst b.
    set (r := timed_step (tcs_timed c) now (EvRequest (N.of_nat j) (host_request id q d) io)). split.
    + thens. intro Rr. split; thens.
      * intros o Ho. apply runs_true in Rr. exact (take_out (tcs_timed c) now (N.of_nat j) (host_request id q d) io o R O Ho Rr).
      * rewrite Rr. exact Next.
    + thens. apply (One (EvRequest (N.of_nat j) (host_request id q d) io)); [discriminate|]. unfold r. apply surjective_pairing.
  - destruct e as [tag r io| |io|hr io| |peer d io| |] eqn:Ee; try exact Stay; rewrite <- Ee; assert (P : plain e = true) by (now subst e); assert (Ne : e <> EvCallerGone) by (now subst e); clear Ee;
      (set (r0 := timed_step (tcs_timed c) now e); cbn [fst snd]; split; thens; [|apply (One e Ne); apply surjective_pairing]; intro Rr;
       assert (R : runs (tcs_timed c) = true) by
         (destruct (runs (tcs_timed c)) eqn:Y; [reflexivity|]; apply runs_false in Y; destruct (stopped_step (tcs_timed c) now e Y) as [Z _];
          apply runs_true in Rr; fold r0 in Z; congruence);
       destruct (K R) as [K1 K2]; split; thens; [|rewrite Rr; exact K2];
       intros o Ho; destruct (same_timed (tcs_timed c) now e o P Ho) as (o1 & X1 & X2 & X3 & X4); rewrite X2, X3; now apply K1).
  - destruct (nth_error (tcs_calls c) i) as [[[x|q d k|m p] since|p until|id q d k|k|]|] eqn:E; cbn [fst snd]; try exact Stay.
    + apply Same; [reflexivity|]. cbn [tcs_slot]. intros s Hs. now right.
    + apply Same; [reflexivity|]. cbn [tcs_slot]. intros s Hs. now right.
    + apply Same; [reflexivity|]. cbn [tcs_slot]. intros s Hs. now right.
    + destruct (tcs_slot c) as [[j [] g b]|] eqn:Es; cbn [fst snd]; try exact Stay; destruct (Nat.eqb_spec i j) as [<-|Nij]; cbn [fst snd].
      * destruct (Hd i eq_refl). left. rewrite Es. now exists g, b.
      * apply Same; [reflexivity|]. cbn [tcs_slot]. intros s Hs. now right.
      * apply Same; [reflexivity|]. cbn [tcs_slot]. intros s Hs. left. now apply Next.
      * apply Same; [reflexivity|]. cbn [tcs_slot]. intros s Hs. now right.
    + destruct (Hd i eq_refl). right. now exists k.
Qed.
Lemma harmless_snoc {A} (c0 : timed_calls A) hs now h : harmless c0 (hs ++ [(now, h)]) -> harmless c0 hs /\ forall i, h = OcDrop i -> ~ submitted i (calls_run c0 hs).
Proof.
  intro H. split.
  - intros hs1 at_ i hs2 ->. apply (H hs1 at_ i (hs2 ++ [(now, h)])). now rewrite <- app_assoc.
  - intros i ->. exact (H hs now i [] eq_refl).
Qed.
Lemma timed_run_app a : forall t b, timed_run t (a ++ b) = (fst (timed_run (fst (timed_run t a)) b), snd (timed_run t a) ++ snd (timed_run (fst (timed_run t a)) b)).
Proof.
  induction a as [|[now e] a IH]; intros t b; [cbn; now destruct (timed_run t b)|]. cbn [app timed_run]. destruct (timed_step t now e) as [t1 o1].
  rewrite IH. destruct (timed_run t1 a) as [t2 o2]. cbn [fst snd]. now rewrite app_assoc.
Qed.
Lemma outputs_snoc {A} hs now h : forall c : timed_calls A, calls_outputs c (hs ++ [(now, h)]) = calls_outputs c hs ++ snd (calls_does (calls_run c hs) now h).
Proof.
  induction hs as [|[n' h'] hs IH]; intro c; cbn [app calls_outputs]; [now rewrite app_nil_r|]. rewrite IH, <- app_assoc. reflexivity.
Qed.
Lemma kept_run {A} n_retries interval t id (ps : list (prog A * N)) hs : idle_timed n_retries interval t -> harmless (calls_new t id ps) hs ->
  let c := calls_run (calls_new t id ps) hs in
  (runs (tcs_timed c) = true -> kept c) /\ exists es, (forall now, ~ In (now, EvCallerGone) es) /\
    fst (timed_run t es) = tcs_timed c /\ map snd (snd (timed_run t es)) = calls_outputs (calls_new t id ps) hs.
Proof.
  intros I. pose proof (idle_out n_retries interval t I) as O.
  induction hs as [|[now h] hs IH] using rev_ind; intro H; cbv zeta.
  - split; [intros _; split; cbn; [intros; congruence|discriminate]|]. exists []. split; [intros now []|now split].
  - destruct (harmless_snoc _ _ _ _ H) as [H1 H2]. destruct (IH H1) as (K & es & E1 & E2 & E3). set (c := calls_run (calls_new t id ps) hs) in *.
    assert (S : shape c) by (apply shape_run, shape_new; exact O).
    destruct (kept_step c now h S K H2) as (K' & es' & F1 & F2). rewrite calls_snoc. fold c. split; [exact K'|].
    exists (es ++ es'). split; [intros at_ X; apply in_app_iff in X; destruct X; [now apply (E1 at_)|now apply (F1 at_)]|].
    rewrite timed_run_app, E2, F2, outputs_snoc. cbn [fst snd]. split; [reflexivity|]. rewrite map_app, E3, map_map. cbn. now rewrite map_id.
Qed.
Lemma no_harm {A} n_retries interval t id (ps : list (prog A * N)) hs : idle_timed n_retries interval t -> harmless (calls_new t id ps) hs ->
  exists es, (forall now, ~ In (now, EvCallerGone) es) /\
    fst (timed_run t es) = tcs_timed (calls_run (calls_new t id ps) hs) /\ map snd (snd (timed_run t es)) = calls_outputs (calls_new t id ps) hs.
Proof. intros I H. exact (proj2 (kept_run n_retries interval t id ps hs I H)). Qed.

(** What stops a loop whose callers all wait. *)
Lemma packet_none r : request_packet r = None -> too_long (enc_header (rpc_header r) ++ enc_message (rpc_message r) ++ match rpc_data r with Some x => x | None => [] end).
Proof. unfold request_packet, too_long, data_bytes. cbv zeta. destruct (Nat.leb_spec (length (enc_header (rpc_header r) ++ enc_message (rpc_message r) ++ match rpc_data r with Some x => x | None => [] end)) MAX_PACKET_SIZE); [discriminate|]. now intros _. Qed.
Lemma stops_only {A} n_retries interval t id (ps : list (prog A * N)) hs now h : idle_timed n_retries interval t -> harmless (calls_new t id ps) (hs ++ [(now, h)]) ->
  ~ stopped (calls_run (calls_new t id ps) hs) -> stopped (calls_run (calls_new t id ps) (hs ++ [(now, h)])) -> deadly (calls_run (calls_new t id ps) hs) h.
Proof.
  intros I H. destruct (harmless_snoc _ _ _ _ H) as [H1 H2]. destruct (kept_run n_retries interval t id ps hs I H1) as [K _]. rewrite calls_snoc.
  set (c := calls_run (calls_new t id ps) hs) in *. intros R St.
  assert (R1 : runs (tcs_timed c) = true) by (unfold stopped in R; destruct (runs (tcs_timed c)) eqn:X; [reflexivity|]; apply runs_false in X; contradiction).
  destruct (K R1) as [K1 K2]. apply runs_true in R1. clear K R H H1. unfold stopped, calls_step, calls_does in St. clearbody c.
  assert (B : forall s o x, l_status s = Running -> o_gone o = false -> l_status (fst (answer s o x)) = Running) by (intros s o x Hs Ho; unfold answer; now rewrite Ho).
  assert (Fm : forall s h x, l_status s = Running -> (forall o, l_out s = Some o -> o_gone o = false) -> l_status (fst (fail_matching s h x)) = Running).
  { intros s h' x Hs Ho. unfold fail_matching. destruct (l_out s) as [o|]; [|exact Hs]. destruct (_ =? _); [|exact Hs]. now apply B; [|apply Ho]. }
  assert (Rf : l_status (increment_faulty (tm_loop (tcs_timed c))) = Running) by (unfold increment_faulty; now destruct (l_out _)).
  assert (Gf : forall o, l_out (increment_faulty (tm_loop (tcs_timed c))) = Some o -> o_gone o = false).
  { intros o E. apply faulty_out in E. destruct E as (o1 & X1 & X2 & _). rewrite X2. now apply K1. }
  destruct h as [i|io|e|i].
  - exfalso. destruct (nth_error (tcs_calls c) i) as [[[x|q d k|m p] since|p until|id' q d k|k|]|] eqn:E; cbn [fst snd] in St; try contradiction.
    + destruct (now <? since); [contradiction|]. destruct (runs (tcs_timed c)); [destruct (tcs_slot c)|]; contradiction.
    + destruct (now <? since); contradiction.
    + destruct (until <=? now); contradiction.
    + destruct (tcs_slot c) as [[j [] g b]|]; try contradiction. destruct (Nat.eqb i j); contradiction.
  - destruct (l_out (tm_loop (tcs_timed c))) eqn:O; [contradiction|]. destruct (tcs_slot c) as [[j [] g b]|] eqn:Es; try contradiction.
    destruct (nth_error (tcs_calls c) j) as [[ | |id' q d k| |]|] eqn:E; try contradiction.
    pose proof (K2 _ eq_refl) as X. cbn in X. subst b. cbn [fst] in St. thens. unfold timed_step, step in St. rewrite R1, O in St. unfold send_outgoing_request in St. cbn [o_request] in St.
    destruct (request_packet (host_request id' q d)) as [p|] eqn:Ep.
    + exfalso. destruct io; cbn in St; rewrite ?R1 in St; contradiction.
    + cbn [deadly]. exists j, g, false, id', q, d, k. split; [exact Es|]. split; [exact E|]. exact (packet_none _ Ep).
  - assert (D : plain e = true -> l_status (fst (step (tm_loop (tcs_timed c)) e)) <> Running).
    { intro P. destruct e; try discriminate P; cbn [fst] in St; thens; match type of St with context [timed_step ?a ?b ?f] =>
        destruct (timed_loop a b f) as [[X _]|X]; rewrite X in St; [exact St|cbn in St; contradiction] end. }
    unfold step in D. rewrite R1 in D. destruct e as [tag r io| |io|hr io| |peer d io| |]; cbn [fst] in St; try contradiction; cbn [plain] in D; specialize (D eq_refl).
    + exfalso. revert D. unfold handle_tick. destruct (l_out (tm_loop (tcs_timed c))) as [o|] eqn:O; [|contradiction]. destruct (K1 o eq_refl) as [G1 G2]. destruct (_ && _).
      * unfold send_outgoing_request. destruct (request_packet (o_request o)); [|contradiction]. destruct io; [cbn; rewrite R1; contradiction|].
        pose proof (B (tm_loop (tcs_timed c)) o (Err EIo) R1 G1) as X. destruct (answer (tm_loop (tcs_timed c)) o (Err EIo)). cbn [fst] in *. contradiction.
      * destruct (_ <=? _); rewrite B by assumption; contradiction.
    + destruct hr as [r| |]; try (now destruct D). cbn [deadly]. revert D. unfold send_outgoing_response, data_bytes, too_long.
      destruct (Nat.leb_spec (length (enc_message (rpc_message r) ++ match rpc_data r with Some x => x | None => [] end)) MAX_PACKET_SIZE); [cbn; contradiction|]. now intros _.
    + cbn in D. contradiction.
    + cbn [deadly]. revert D. unfold handle_datagram. destruct (dec_header _) as [[h rx]|] eqn:Eh; [|cbn; contradiction]. destruct (h_kind h) eqn:Ek; try (cbn; contradiction).
      * intro D. exfalso. revert D. unfold handle_sp_error. destruct (dec_message rx) as [[m rest]|]; [destruct (msg_body m)|]; try (cbn; contradiction); rewrite Fm by assumption; contradiction.
      * intro D. exists h, rx. split; [reflexivity|]. right. split; [exact Ek|]. revert D. unfold handle_sp_response. destruct (l_out (tm_loop (tcs_timed c))) as [o|] eqn:O; [|cbn; contradiction].
        assert (Ho : forall o', l_out (tm_loop (tcs_timed c)) = Some o' -> o_gone o' = false) by (intros o' X; rewrite O in X; injection X as <-; now apply K1).
        destruct (dec_message rx) as [[m rest]|].
        -- intro D. exfalso. revert D. destruct (msg_body m); try (rewrite Fm by assumption; contradiction). destruct (_ =? _); [rewrite B by (try assumption; now apply K1); contradiction|cbn; contradiction].
        -- destruct rx; [intros _; split; [reflexivity|discriminate]|]. rewrite Fm by assumption. contradiction.
      * intro D. exists h, rx. split; [reflexivity|]. left. split; [exact Ek|]. revert D. unfold handle_sp_request.
        destruct (dec_message rx) as [[m rest]|]; [|cbn; contradiction]. destruct (l_handler _); [cbn; contradiction|reflexivity].
    + cbn in D. contradiction.
  - exfalso. destruct (nth_error (tcs_calls c) i) as [[[x|q d k|m p] since|p until|id' q d k|k|]|] eqn:E; cbn [fst] in St; try contradiction.
    + destruct (tcs_slot c) as [[j [] g b]|]; try contradiction; destruct (Nat.eqb i j); contradiction.
    + apply (H2 i eq_refl). right. now exists k.
Qed.
