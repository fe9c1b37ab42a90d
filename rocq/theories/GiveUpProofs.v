(** Giving up calls (C93). *)
From Coq Require Import Lia Sorted.
From Verif Require Export SpecGiveUp.
From Verif Require Import Tac TimeProofs CostProofs ProgProofs DeadlineProofs ConcProofs CrowdProofs CrowdProofs2 CrowdProofs3 CrowdProofs4.
Import ListNotations.
Open Scope N_scope.

(** ** The request with the loop *)
Definition same_out (s : loop) (o' : Outstanding) : Prop := exists o, l_out s = Some o /\ o_gone o' = o_gone o /\ o_request o' = o_request o /\ o_tag o' = o_tag o.
Lemma same_self s o : l_out s = Some o -> same_out s o.
Proof. intro H. now exists o. Qed.
Lemma answer_out s o x o' : l_out s = Some o -> l_out (fst (answer s o x)) = Some o' -> same_out s o'.
Proof. unfold answer. intro H. destruct (o_gone o); cbn; [|discriminate]. intro E. now apply same_self. Qed.
Lemma faulty_out s o' : l_out (increment_faulty s) = Some o' -> same_out s o'.
Proof. unfold increment_faulty. destruct (l_out s) as [o|] eqn:O; cbn; [|congruence]. intros [= <-]. now exists o. Qed.
Lemma fail_out s h e o' : l_out (fst (fail_matching s h e)) = Some o' -> same_out s o'.
Proof.
  unfold fail_matching. destruct (l_out s) as [o|] eqn:O; cbn; [|congruence]. destruct (_ =? _); [now apply answer_out|]. cbn. intro. apply same_self. congruence.
Qed.
Lemma same_trans s o1 o2 : same_out s o1 -> forall s1, l_out s1 = Some o1 -> same_out s1 o2 -> same_out s o2.
Proof. intros (o & A1 & A2 & A3 & A4) s1 E (o' & B1 & B2 & B3 & B4). exists o. repeat split; congruence. Qed.
Lemma faulty_fail s h e o' : l_out (fst (fail_matching (increment_faulty s) h e)) = Some o' -> same_out s o'.
Proof.
  intro H. apply fail_out in H. pose proof H as (o1 & E & _). exact (same_trans s o1 o' (faulty_out s o1 E) _ E H).
Qed.
Lemma plain_out s e o' : plain e = true -> l_out (fst (step s e)) = Some o' -> same_out s o'.
Proof.
  intro P. unfold step. destruct (l_status s); try (cbn; apply same_self).
  destruct e as [tag r io| |io|hr io| |peer d io| |]; try discriminate P.
  - unfold handle_tick. destruct (l_out s) as [o|] eqn:O; [|cbn; congruence]. destruct (_ && _).
    + unfold send_outgoing_request. destruct (request_packet _); [|cbn; apply same_self]. destruct io; [cbn; intros [= <-]; now exists o|].
      pose proof (answer_out s o (Err EIo) o' O) as X. destruct (answer s o (Err EIo)). exact X.
    + destruct (_ <=? _); now apply answer_out.
  - destruct hr as [r| |]; try (cbn; apply same_self). unfold send_outgoing_response. destruct (Nat.leb _ _); cbn; apply same_self.
  - cbn. apply faulty_out.
  - unfold handle_datagram. destruct (dec_header _) as [[h rx]|]; [|cbn; apply faulty_out]. destruct (h_kind h); try (cbn; apply faulty_out).
    + unfold handle_sp_error. destruct (dec_message rx) as [[m rest]|]; [destruct (msg_body m)|]; try (cbn; apply faulty_out); apply faulty_fail.
    + unfold handle_sp_response. destruct (l_out s) as [o|] eqn:O; [|cbn; congruence]. destruct (dec_message rx) as [[m rest]|].
      * destruct (msg_body m); try apply fail_out. destruct (_ =? _); [now apply answer_out|]. cbn. apply same_self.
      * destruct rx; [cbn; apply same_self|apply faulty_fail].
    + unfold handle_sp_request. destruct (dec_message rx) as [[m rest]|]; [destruct (l_handler s)|]; cbn; apply same_self.
  - cbn. apply same_self.
Qed.
Lemma same_timed t now e o' : plain e = true -> l_out (tm_loop (fst (timed_step t now e))) = Some o' -> same_out (tm_loop t) o'.
Proof. intro P. destruct (timed_loop t now e) as [[-> _]| ->]; [now apply plain_out|cbn; apply same_self]. Qed.

(** Nobody waits for it: whatever happens, no reply is given; the request stays until the loop stops. *)
Definition lost (s : loop) : Prop := l_status s = Running -> exists o, l_out s = Some o /\ o_gone o = true.
Lemma lost_step t now e : plain e = true -> lost (tm_loop t) -> let r := timed_step t now e in lost (tm_loop (fst r)) /\ replies_of (snd r) = [].
Proof.
  intros P H r. pose proof (loop_does t now e P) as D. fold r in D. destruct D as [o o' D1 D2 D3 D4 D5|o x D1 D2 D3 D4|D1 D2|D1 D2 D3 D4].
  - split; [|exact D4]. intros _. exists o'. split; [apply D2|]. destruct (same_timed t now e o' P (proj2 D2)) as (o1 & X1 & X2 & _).
    destruct (H (proj1 D1)) as (o2 & Y1 & Y2). congruence.
  - exfalso. destruct (H (proj1 D1)) as (o1 & Y1 & Y2). assert (o1 = o) as -> by (destruct D1; congruence).
    assert (Z : answer_for (o_tag o) (snd r) = None); [|congruence]. apply unheard.
    unfold r. destruct (timed_loop t now e) as [[_ ->]| ->]; [|reflexivity]. clear - P Y1 Y2 D1.
    assert (B : forall s x, replies_of (snd (answer s o x)) = []) by (intros; unfold answer; now rewrite Y2).
    assert (Fm : forall s h x, (forall o', l_out s = Some o' -> o_gone o' = true) -> replies_of (snd (fail_matching s h x)) = []).
    { intros s h x Hs. unfold fail_matching. destruct (l_out s) as [o'|]; [|reflexivity]. destruct (_ =? _); [|reflexivity]. unfold answer. now rewrite (Hs o' eq_refl). }
    assert (G0 : forall o', l_out (tm_loop t) = Some o' -> o_gone o' = true) by (intros; congruence).
    assert (Gf : forall o', l_out (increment_faulty (tm_loop t)) = Some o' -> o_gone o' = true).
    { intros o' E. apply faulty_out in E. destruct E as (o1 & X1 & X2 & _). rewrite X2. now apply G0. }
    unfold step. destruct D1 as [-> _]. destruct e as [tag r io| |io|hr io| |peer d io| |]; try discriminate P; try reflexivity.
    + unfold handle_tick. rewrite Y1. destruct (_ && _).
      * unfold send_outgoing_request. destruct (request_packet _); [|reflexivity]. destruct io; [reflexivity|].
        specialize (B (tm_loop t) (Err EIo)). destruct (answer (tm_loop t) o (Err EIo)). exact B.
      * destruct (_ <=? _); apply B.
    + destruct hr as [r| |]; try reflexivity. unfold send_outgoing_response. now destruct (Nat.leb _ _).
    + unfold handle_datagram. destruct (dec_header _) as [[h rx]|]; [|reflexivity]. destruct (h_kind h); try reflexivity.
      * unfold handle_sp_error. destruct (dec_message rx) as [[m rest]|]; [destruct (msg_body m)|]; try reflexivity; now apply Fm.
      * unfold handle_sp_response. rewrite Y1. destruct (dec_message rx) as [[m rest]|].
        -- destruct (msg_body m); try (now apply Fm). destruct (_ =? _); [apply B|reflexivity].
        -- destruct rx; [reflexivity|now apply Fm].
      * unfold handle_sp_request. destruct (dec_message rx) as [[m rest]|]; [destruct (l_handler _)|]; reflexivity.
  - split; [intro X; contradiction|exact D2].
  - exfalso. destruct (H D1) as (o & Y1 & Y2). congruence.
Qed.
Lemma lost_calls {A} (c : timed_calls A) now h : shape c -> lost (tm_loop (tcs_timed c)) ->
  lost (tm_loop (tcs_timed (calls_step c now h))) /\ replies_of (snd (calls_does c now h)) = [] /\ taken (snd (calls_does c now h)) = [].
Proof.
  intros S H. pose proof (step_does c now h) as D. set (c2 := calls_step c now h) in *. clearbody c2. set (out := snd (calls_does c now h)) in *. clearbody out.
  destruct D as [|i q d k since sl n E _ R c' Esl|i q d k since n E _ R|i m p since E _|i p until E _|i id q d k g b E Es|i s g id q d k io O Es E r|e P r
    |i y E Ny Hy|i id q d k g b E Es|i id q d k s E Es Ni|i id q d k g b E Es|i k E]; try (now split).
  - exfalso. destruct (runs (tcs_timed c)) eqn:R; [apply runs_true in R; destruct (H R) as (o & X & _); congruence|].
    apply runs_false in R. pose proof (sh_stop c S R). congruence.
  - thens. destruct (lost_step (tcs_timed c) now e P H) as [L1 L2]. fold r in L1, L2. split; [exact L1|]. split; [exact L2|]. unfold r. now apply timed_takes.
  - split; [|now split]. cbn [tcs_timed]. destruct (sh_pending c S i k E) as (o & Ho & _). destruct (gone_does (tcs_timed c) now o Ho) as [[_ G] _].
    intros _. eexists. split; [exact G|reflexivity].
Qed.
Lemma replies_of_app a b : replies_of (a ++ b) = replies_of a ++ replies_of b.
Proof. apply flat_map_app. Qed.
Lemma lost_for_good {A} (c : timed_calls A) hs : shape c -> lost (tm_loop (tcs_timed c)) -> replies_of (calls_outputs c hs) = [] /\ taken (calls_outputs c hs) = [].
Proof.
  revert c. induction hs as [|[now h] hs IH]; intros c S H; [now split|]. destruct (lost_calls c now h S H) as (L1 & L2 & L3).
  destruct (IH _ (shape_step c now h S) L1) as [I1 I2]. cbn [calls_outputs]. now rewrite replies_of_app, taken_app, L2, L3, I1, I2.
Qed.

(** ** Given up while its request is with the loop, or in the channel *)
Lemma drop_pending {A} (c : timed_calls A) now i k : shape c -> nth_error (tcs_calls c) i = Some (CPending k) ->
  lost (tm_loop (tcs_timed (calls_step c now (OcDrop i)))).
Proof.
  intros S E. unfold calls_step, calls_does. rewrite E. cbn [fst tcs_timed]. destruct (sh_pending c S i k E) as (o & Ho & _).
  destruct (gone_does (tcs_timed c) now o Ho) as [[_ G] _]. intros _. eexists. split; [exact G|reflexivity].
Qed.
Lemma given_up_with_loop {A} n_retries interval t id (ps : list (prog A * N)) hs now i hs2 : idle_timed n_retries interval t ->
  (exists k, nth_error (tcs_calls (calls_run (calls_new t id ps) hs)) i = Some (CPending k)) ->
  let out := calls_outputs (calls_run (calls_new t id ps) (hs ++ [(now, OcDrop i)])) hs2 in replies_of out = [] /\ taken out = [].
Proof.
  intros I (k & E) out. assert (S : shape (calls_run (calls_new t id ps) hs)) by (apply shape_run, shape_new; now apply (idle_out n_retries interval)).
  unfold out. rewrite calls_snoc. apply lost_for_good; [now apply shape_step|]. now apply (drop_pending _ now i k).
Qed.
(** In the channel: it stays there until it is taken or the loop stops. *)
Definition left_there {A} (i : nat) (c : timed_calls A) : Prop := exists since, tcs_slot c = Some (mkSlot i true since true).
Lemma take_left_lost t now i r io : l_status (tm_loop t) = Running -> l_out (tm_loop t) = None ->
  let x := taking t now i r io true in lost (tm_loop (fst x)) /\ exists out, snd x = OAccept i r :: out /\ replies_of out = [] /\ taken out = [].
Proof.
  intros H1 H2. unfold taking, take_left, send_outgoing_request. cbn [o_request o_gone]. destruct (request_packet r) as [p|].
  - destruct io; cbn.
    + split; [intros _; eexists; split; reflexivity|]. eexists. split; [reflexivity|]. now split.
    + split; [discriminate|]. eexists. split; [reflexivity|]. now split.
  - cbn. split; [discriminate|]. eexists. split; [reflexivity|]. now split.
Qed.
Lemma left_step {A} i (c : timed_calls A) now h : shape c -> left_there i c ->
  let c' := calls_step c now h in let out := snd (calls_does c now h) in
  left_there i c' /\ taken out = [] \/
  lost (tm_loop (tcs_timed c')) /\ exists a r b, out = a ++ b /\ taken a = [] /\ (b = [] \/ exists b', b = OAccept (N.of_nat i) r :: b' /\ replies_of b' = [] /\ taken b' = []).
Proof.
  intros S (g0 & L) c' out. pose proof (step_does c now h) as D. fold c' in D. fold out in D. clearbody c' out. unfold left_there.
  destruct D as [|j q d k since sl n E _ R c' Esl|j q d k since n E _ R|j m p since E _|j p until E _|j id q d k g b E Es|j s g id q d k io O Es E r|e P r
    |j y E Ny Hy|j id q d k g b E Es|j id q d k s E Es Ni|j id q d k g b E Es|j k E]; cbn [tcs_slot]; rewrite ?L in *;
    try (left; split; [now exists g0|reflexivity]); try discriminate.
  - left. subst sl. split; [now exists g0|reflexivity].
  - right. injection Es as <- <- <-. thens.
    assert (R : l_status (tm_loop (tcs_timed c)) = Running).
    { destruct (runs (tcs_timed c)) eqn:R; [now apply runs_true|]. apply runs_false in R. pose proof (sh_stop c S R). congruence. }
    destruct (take_left_lost (tcs_timed c) now (N.of_nat i) (host_request id q d) io R O) as [L1 (b & L2 & L3 & L4)]. fold r in L1, L2.
    split; [exact L1|]. exists [], (host_request id q d), (snd r). split; [reflexivity|]. split; [reflexivity|]. right. now exists b.
  - thens. assert (T : taken (snd r) = []) by (unfold r; now apply timed_takes). destruct (runs (fst r)) eqn:R.
    + left. split; [now exists g0|exact T].
    + right. split; [apply runs_false in R; intro X; contradiction|]. exists (snd r), (mkRpc (header_new 0 KHostRequest) (message_new (BHostRequest HMacAddrs)) None), [].
      rewrite app_nil_r. split; [reflexivity|]. split; [exact T|now left].
  - left. injection Es as <- <- <-. split; [now exists g0|reflexivity].
Qed.
Lemma left_run {A} i (c : timed_calls A) hs : shape c -> left_there i c -> forall a r b, calls_outputs c hs = a ++ OAccept (N.of_nat i) r :: b ->
  replies_of b = [] /\ taken b = [].
Proof.
  revert c. induction hs as [|[now h] hs IH]; intros c S L a r b E; [destruct a; discriminate|]. cbn [calls_outputs] in E.
  assert (Key : forall u v a', taken u = [] -> u ++ v = a' ++ OAccept (N.of_nat i) r :: b -> exists a2, v = a2 ++ OAccept (N.of_nat i) r :: b).
  { clear. induction u as [|x u IH]; intros v a' Hu E; [now exists a'|]. destruct a' as [|y a']; cbn [app] in E.
    - injection E as -> _. discriminate.
    - injection E as -> E. apply (IH v a'); [|exact E]. change (taken (y :: u)) with (taken ([y] ++ u)) in Hu. rewrite taken_app in Hu. now apply app_eq_nil in Hu. }
  destruct (left_step i c now h S L) as [[L1 L2]|(L1 & u & r' & v & L2 & L3 & L4)].
  - destruct (Key _ _ _ L2 E) as (a2 & E2). apply (IH _ (shape_step c now h S) L1 a2 r b E2).
  - rewrite L2, <- app_assoc in E. destruct (Key _ _ _ L3 E) as (a2 & E2).
    destruct (lost_for_good (calls_step c now h) hs (shape_step c now h S) L1) as [F1 F2].
    destruct L4 as [->|(v' & -> & V1 & V2)].
    + exfalso. cbn [app] in E2. rewrite E2, taken_app in F2. apply app_eq_nil in F2. now destruct F2.
    + destruct a2 as [|y a2]; cbn [app] in E2.
      * injection E2 as -> <-. now rewrite replies_of_app, taken_app, V1, V2, F1, F2.
      * exfalso. injection E2 as _ E2. assert (X : taken (v' ++ calls_outputs (calls_step c now h) hs) = []) by now rewrite taken_app, V2, F2.
        rewrite E2, taken_app in X. apply app_eq_nil in X. now destruct X.
Qed.
Lemma drop_sent {A} (c : timed_calls A) now i g b : shape c -> tcs_slot c = Some (mkSlot i true g b) -> left_there i (calls_step c now (OcDrop i)).
Proof.
  intros S Es. destruct (sh_in c S i) as (id & q & d & k & E); [unfold line; rewrite Es; now left|]. unfold nth_call in E.
  unfold left_there, calls_step, calls_does. rewrite E, Es, Nat.eqb_refl. cbn. now exists g.
Qed.
Lemma given_up_in_channel {A} n_retries interval t id (ps : list (prog A * N)) hs now i hs2 : idle_timed n_retries interval t ->
  (exists since gone, tcs_slot (calls_run (calls_new t id ps) hs) = Some (mkSlot i true since gone)) ->
  forall a r b, calls_outputs (calls_run (calls_new t id ps) (hs ++ [(now, OcDrop i)])) hs2 = a ++ OAccept (N.of_nat i) r :: b -> replies_of b = [] /\ taken b = [].
Proof.
  intros I (g & b0 & E). assert (S : shape (calls_run (calls_new t id ps) hs)) by (apply shape_run, shape_new; now apply (idle_out n_retries interval)).
  rewrite calls_snoc. apply left_run; [now apply shape_step|]. now apply (drop_sent _ now i g b0).
Qed.
