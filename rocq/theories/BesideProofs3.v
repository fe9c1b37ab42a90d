From Coq Require Import Lia Sorted.
From Verif Require Export BesideProofs2.
From Verif Require Import Tac TimeProofs CostProofs ProgProofs DuplexProofs DeadlineProofs CrowdProofs ConcProofs CrowdProofs2 XcvradmProofs.
Import ListNotations.
Open Scope N_scope.

(** ** What the calls return *)
Lemma as_calls {A} hd t id (ps : list (prog A * N)) ins busy outs hs : let b := beside_new t id ps ins busy outs in exists hs',
  calls_run (calls_new t id ps) hs' = bs_calls (beside_run hd b hs) /\ calls_outputs (calls_new t id ps) hs' = beside_outputs hd b hs.
Proof.
  intro b. induction hs as [|[now h] hs IH] using rev_ind; [now exists []|]. destruct IH as (hs' & R & O).
  rewrite beside_run_snoc, beside_outputs_snoc.
  destruct (followed hd (beside_run hd b hs) now h) as [[E1 E2]|(o & E1 & E2 & _)]; rewrite E1, E2.
  - exists hs'. now rewrite app_nil_r.
  - exists (hs' ++ [(now, o)]). now rewrite calls_run_snoc, calls_outputs_snoc, R, O.
Qed.
Lemma beside_returns {A} n_retries interval hd t id (ps : list (prog A * N)) ins busy outs i p start hs x at_ : idle_timed n_retries interval t ->
  nth_error ps i = Some (p, start) -> let b := beside_new t id ps ins busy outs in
  nth_error (tcs_calls (bs_calls (beside_run hd b hs))) i = Some (CReady (Ret x) at_) ->
  forall n log, snd (alone p script (mkWorld (replies_to i (beside_outputs hd b hs)) n log)) = x.
Proof.
  intros I E b X. destruct (as_calls hd t id ps ins busy outs hs) as (hs' & R & O). fold b in R, O. rewrite <- R in X. rewrite <- O.
  exact (returns_own n_retries interval t id ps i p start hs' x at_ I E X).
Qed.

(** ** When the two do not wait for each other *)
Definition backlog {A} (b : beside A) : nat := length (bs_in b) + length (one (bs_wait b)) + length (one (bs_reply b)) + length (bs_out b).
Lemma one_dispatched {A} (c : timed_calls A) now o : dispatched (snd (calls_does c now o)) = one (dispatch_of (snd (calls_does c now o))).
Proof.
  assert (Q : forall os, dispatched os = [] -> dispatched os = one (dispatch_of os)) by (intros os H; now rewrite (none_dispatch os H)).
  destruct o as [i|io|[tag r io| |io|hr io| |peer dg io| |]|i]; try (apply Q, quiet_calls; discriminate).
  cbn [calls_does snd]. destruct (timed_loop (tcs_timed c) now (EvDatagram peer dg io)) as [[_ ->]| ->]; [|reflexivity].
  destruct (step (tm_loop (tcs_timed c)) (EvDatagram peer dg io)) as [s os] eqn:E. exact (proj1 (step_dispatch _ _ _ _ E)).
Qed.
Lemma iterate_backlog {A} hd (b : beside A) now o out : (forall p d io, o = OcLoop (EvDatagram p d io) -> bs_wait b = None) -> (length out <= length (bs_out b))%nat ->
  (backlog (fst (beside_iterate hd b now o out)) <= backlog b + length (dispatched (snd (beside_iterate hd b now o out))))%nat.
Proof.
  intros W L. rewrite (proj2 (iterate_calls hd b now o out)), one_dispatched.
  assert (G : dispatch_of (snd (calls_does (bs_calls b) now o)) <> None -> bs_wait b = None).
  { intro D. destruct o as [i|io|[tag r io| |io|hr io| |peer dg io| |]|i]; try (now apply (W peer dg io));
      exfalso; apply D, none_dispatch, quiet_calls; discriminate. }
  unfold beside_iterate. destruct (calls_does (bs_calls b) now o) as [cs os]. cbn [snd] in *. unfold backlog.
  destruct (dispatch_of os) as [r|]; [rewrite (G ltac:(discriminate)); destruct (room _ _)|]; cbn [fst bs_in bs_wait bs_reply bs_out one length]; rewrite ?app_length; cbn; lia.
Qed.
Lemma step_backlog {A} hd (b : beside A) now h :
  (backlog (beside_step hd b now h) <= backlog b + length (dispatched (snd (beside_does hd b now h))))%nat.
Proof.
  unfold beside_step. destruct h as [o|io| | |]; cbn [beside_does].
  - destruct (bs_wait b) as [r|] eqn:W; [destruct (by_loop o) eqn:B|destruct (not_handler o)]; try (cbn; lia); apply iterate_backlog; try lia.
    + intros p d io ->. discriminate B.
    + now intros.
  - destruct (bs_wait b) as [r|] eqn:W; [cbn; lia|]. destruct (bs_out b) as [|x rest] eqn:O; [cbn; lia|]. apply iterate_backlog; [discriminate|]. rewrite O. cbn. lia.
  - destruct (bs_wait b) as [r|] eqn:W; [|cbn; lia]. destruct (room _ _); [|cbn; lia]. unfold backlog. rewrite W. cbn. rewrite app_length. cbn. lia.
  - destruct (bs_reply b) eqn:R; [cbn; lia|]. destruct (bs_in b) eqn:I; [cbn; lia|]. unfold backlog. rewrite R, I. cbn. lia.
  - destruct (bs_reply b) eqn:R; [|cbn; lia]. destruct (TimedCalls.runs _); [destruct (room _ _)|]; try (cbn; lia); unfold backlog; rewrite R; cbn; rewrite ?app_length; cbn; lia.
Qed.
Lemma run_backlog {A} hd hs : forall (b : beside A), (backlog (beside_run hd b hs) <= backlog b + length (dispatched (beside_outputs hd b hs)))%nat.
Proof.
  induction hs as [|[now h] hs IH]; intro b; [cbn; lia|]. cbn [beside_outputs]. rewrite dispatched_app, app_length.
  specialize (IH (beside_step hd b now h)). pose proof (step_backlog hd b now h). unfold beside_run in *. cbn [fold_left fst snd]. lia.
Qed.
Lemma outputs_prefix {A} hd hs1 : forall (b : beside A) hs2, exists rest, beside_outputs hd b (hs1 ++ hs2) = beside_outputs hd b hs1 ++ rest.
Proof.
  induction hs1 as [|[now h] hs1 IH]; intros b hs2; [now exists (beside_outputs hd b hs2)|]. cbn [app beside_outputs].
  destruct (IH (beside_step hd b now h) hs2) as (rest & ->). exists rest. now rewrite app_assoc.
Qed.
Lemma few_not_jammed {A} hd t id (ps : list (prog A * N)) ins busy outs hs : let b := beside_new t id ps ins busy outs in
  (length ins + length (one busy) + length outs + length (dispatched (beside_outputs hd b hs)) <= hd_in hd + hd_out hd + 1)%nat -> never_jammed hd b hs.
Proof.
  intros b H hs1 hs2 -> (J1 & J2 & J3 & J4). destruct (outputs_prefix hd hs1 b hs2) as (rest & E). rewrite E, dispatched_app, app_length in H.
  pose proof (run_backlog hd hs1 b) as B. assert (B0 : backlog b = (length ins + length (one busy) + length outs)%nat) by (unfold backlog, b, beside_new; cbn; lia).
  unfold backlog in B at 1. destruct (bs_wait _); [|congruence]. destruct (bs_reply _); [|congruence]. cbn [one length] in B. lia.
Qed.

(** Replies before datagrams. *)
Definition open_way {A} (hd : handler) (b : beside A) : Prop := (length (bs_in b) <= hd_in hd)%nat /\
  (bs_wait b <> None -> bs_out b = [] \/ bs_reply b = None \/ (length (bs_in b) < hd_in hd)%nat).
Lemma open_iterate {A} hd (b : beside A) now o out : open_way hd b -> (bs_wait b <> None -> out = bs_out b) ->
  (forall p d io, o = OcLoop (EvDatagram p d io) -> out = []) -> open_way hd (fst (beside_iterate hd b now o out)).
Proof.
  intros [K W] Ho G. unfold beside_iterate.
  assert (Q : dispatch_of (snd (calls_does (bs_calls b) now o)) <> None -> out = []).
  { intro D. destruct o as [i|io|[tag r io| |io|hr io| |peer dg io| |]|i]; try (now apply (G peer dg io));
      exfalso; apply D, none_dispatch, quiet_calls; discriminate. }
  destruct (calls_does (bs_calls b) now o) as [cs os]. cbn [snd] in Q. destruct (dispatch_of os) as [r|].
  - specialize (Q ltac:(discriminate)). subst out. destruct (room _ _) eqn:R; split; cbn; try exact K; try (now left).
    rewrite app_length. cbn. apply Nat.ltb_lt in R. lia.
  - split; [exact K|]. cbn. intro H. rewrite (Ho H). now apply W.
Qed.
Lemma open_step {A} hd (b : beside A) now h : open_way hd b -> (is_gram h -> bs_wait b = None -> bs_out b = []) -> open_way hd (beside_step hd b now h).
Proof.
  intros O G. pose proof O as [K W]. unfold beside_step. destruct h as [o|io| | |]; cbn [beside_does].
  - destruct (bs_wait b) as [r|] eqn:Wt.
    + destruct (by_loop o) eqn:B; [exact O|]. apply open_iterate; [exact O|now intros _|]. intros p d io ->. discriminate B.
    + destruct (not_handler o); [|exact O]. apply open_iterate; [exact O|now intros _|]. intros p d io ->. apply G; [now exists p, d, io|reflexivity].
  - destruct (bs_wait b) as [r|] eqn:Wt; [exact O|]. destruct (bs_out b) as [|x rest]; [exact O|]. apply open_iterate; [exact O|congruence|discriminate].
  - destruct (bs_wait b) as [r|] eqn:Wt; [|exact O]. destruct (room _ _) eqn:R; [|exact O]. split; cbn; [|congruence]. rewrite app_length. cbn. apply Nat.ltb_lt in R. lia.
  - destruct (bs_reply b) as [x|] eqn:Rp; [exact O|]. destruct (bs_in b) as [|r rest] eqn:I; [exact O|]. cbn in K. split; cbn; [lia|]. intros _. right. right. lia.
  - destruct (bs_reply b) as [x|] eqn:Rp; [|exact O].
    assert (X : forall out n, open_way hd (mkBeside (bs_calls b) (bs_in b) (bs_wait b) None out n (bs_freed b))).
    { intros out n. split; [exact K|]. intros _. right. now left. }
    destruct (TimedCalls.runs _); [|apply X]. destruct (room _ _); [apply X|exact O].
Qed.
Lemma first_not_jammed {A} hd t id (ps : list (prog A * N)) ins busy outs hs : let b := beside_new t id ps ins busy outs in
  (length ins <= hd_in hd)%nat -> (1 <= hd_out hd)%nat -> replies_first hd b hs -> never_jammed hd b hs.
Proof.
  intros b Li Lo F.
  assert (X : forall hs1 hs2, hs = hs1 ++ hs2 -> open_way hd (beside_run hd b hs1)).
  { intro hs1. induction hs1 as [|[now h] hs1 IH] using rev_ind; intros hs2 E.
    - split; [exact Li|]. now intros [].
    - rewrite <- app_assoc in E. rewrite beside_run_snoc. apply open_step; [now apply (IH ((now, h) :: hs2))|]. now apply (F hs1 now h hs2). }
  intros hs1 hs2 E (J1 & J2 & J3 & J4). destruct (X hs1 hs2 E) as [K W]. destruct (W J1) as [W1|[W1|W1]]; [rewrite W1 in J4; cbn in J4; lia|congruence|lia].
Qed.

(** ** When they do *)
Lemma jam_step {A} hd (b : beside A) now h : jammed hd b -> TimedCalls.runs (tcs_timed (bs_calls b)) = true ->
  jammed hd (beside_step hd b now h) /\ TimedCalls.runs (tcs_timed (bs_calls (beside_step hd b now h))) = true /\ snd (beside_does hd b now h) = [] /\
  forall i, still_waits i (bs_calls b) -> h <> HpCalls (OcDrop i) -> still_waits i (bs_calls (beside_step hd b now h)).
Proof.
  intros J R. pose proof J as (J1 & J2 & J3 & J4). unfold beside_step.
  assert (St : jammed hd b /\ TimedCalls.runs (tcs_timed (bs_calls b)) = true /\ (@nil output) = [] /\
    forall i, still_waits i (bs_calls b) -> h <> HpCalls (OcDrop i) -> still_waits i (bs_calls b)) by (repeat split; auto).
  destruct h as [o|io| | |]; cbn [beside_does].
  - destruct (bs_wait b) as [r|] eqn:W; [|congruence]. destruct (by_loop o) eqn:B; [exact St|].
    assert (D : snd (calls_does (bs_calls b) now o) = []).
    { destruct o as [i| | |i]; try discriminate B; cbn [calls_does];
        destruct (nth_error (tcs_calls (bs_calls b)) i) as [[[x|q d k|m p] since|p u|id q d k|k|]|]; try reflexivity;
        repeat match goal with |- context [if ?x then _ else _] => destruct x end; try reflexivity;
        destruct (tcs_slot (bs_calls b)) as [[j sent since' lf]|]; try reflexivity; destruct sent; try reflexivity; destruct (Nat.eqb i j); reflexivity. }
    assert (Rn : TimedCalls.runs (tcs_timed (fst (calls_does (bs_calls b) now o))) = true).
    { assert (X : tcs_timed (fst (calls_does (bs_calls b) now o)) = tcs_timed (bs_calls b) \/
        tcs_timed (fst (calls_does (bs_calls b) now o)) = fst (timed_step (tcs_timed (bs_calls b)) now EvCallerGone)).
      { destruct o as [i| | |i]; try discriminate B; cbn [calls_does];
          destruct (nth_error (tcs_calls (bs_calls b)) i) as [[[x|q d k|m p] since|p u|id q d k|k|]|]; try (now left); try (now right); left;
          repeat match goal with |- context [if ?x then _ else _] => destruct x end; try reflexivity;
          destruct (tcs_slot (bs_calls b)) as [[j sent since' lf]|]; try reflexivity; destruct sent; try reflexivity; destruct (Nat.eqb i j); reflexivity. }
      destruct X as [-> | ->]; [exact R|]. unfold TimedCalls.runs in *. unfold timed_step, step.
      destruct (l_status (tm_loop (tcs_timed (bs_calls b)))) eqn:S; try discriminate R. destruct (l_out _); cbn; now rewrite S. }
    assert (Sw : forall i, still_waits i (bs_calls b) -> HpCalls o <> HpCalls (OcDrop i) -> still_waits i (fst (calls_does (bs_calls b) now o))).
    { intros i Hs Hn. pose proof Hs as (st & Ei & Cw).
      assert (U : forall j x t f c s w, (j = i -> call_waits x = true) -> still_waits i (mkTimedCalls t f c s w (update j x (tcs_calls (bs_calls b))))).
      { intros j x t f c s w H. unfold still_waits. cbn [tcs_calls]. rewrite nth_update. destruct (Nat.eqb_spec j i) as [->|].
        - rewrite Ei. exists x. split; [reflexivity|now apply H].
        - now exists st. }
      destruct o as [j| | |j]; try discriminate B; cbn [calls_does];
        destruct (nth_error (tcs_calls (bs_calls b)) j) as [[[x|q d k|m p] since|p u|id q d k|k|]|] eqn:Ej; try exact Hs.
      - destruct (now <? since); [exact Hs|]. destruct (TimedCalls.runs _); [destruct (tcs_slot _)|]; cbn [fst]; apply U; try reflexivity. intros ->. congruence.
      - destruct (now <? since); [exact Hs|]. cbn [fst]. apply U. intros ->. rewrite Ei in Ej. injection Ej as ->. discriminate Cw.
      - destruct (u <=? now); [|exact Hs]. cbn [fst]. apply U. intros ->. rewrite Ei in Ej. injection Ej as ->. discriminate Cw.
      - destruct (tcs_slot _) as [[m sent since lf]|]; [|exact Hs]. destruct sent; [exact Hs|]. destruct (Nat.eqb j m); [|exact Hs]. cbn [fst]. now apply U.
      - cbn [fst]. apply U. intros ->. rewrite Ei in Ej. injection Ej as ->. discriminate Cw.
      - cbn [fst]. apply U. intros ->. rewrite Ei in Ej. injection Ej as ->. discriminate Cw.
      - cbn [fst]. apply U. intros ->. rewrite Ei in Ej. injection Ej as ->. discriminate Cw.
      - assert (j <> i) by congruence.
        destruct (tcs_slot _) as [[m sent since lf]|]; [|exact Hs]. destruct (Nat.eqb j m); [destruct sent|]; cbn [fst]; try (apply U; congruence). exact Hs. }
    unfold beside_iterate in *. destruct (calls_does (bs_calls b) now o) as [cs os]. cbn [fst snd] in *. subst os. cbn [dispatch_of find].
    split; [|split; [exact Rn|split; [reflexivity|exact Sw]]]. unfold jammed. cbn. rewrite W. repeat split; assumption.
  - destruct (bs_wait b); [exact St|congruence].
  - destruct (bs_wait b) as [r|]; [|congruence]. replace (room (hd_in hd) (bs_in b)) with false; [exact St|]. symmetry. apply Nat.ltb_ge. lia.
  - destruct (bs_reply b); [exact St|congruence].
  - destruct (bs_reply b); [|congruence]. rewrite R. replace (room (hd_out hd) (bs_out b)) with false; [exact St|]. symmetry. apply Nat.ltb_ge. lia.
Qed.
Lemma jam_for_ever {A} hd (b : beside A) hs : jammed hd b -> TimedCalls.runs (tcs_timed (bs_calls b)) = true ->
  jammed hd (beside_run hd b hs) /\ beside_outputs hd b hs = [] /\
  forall i, still_waits i (bs_calls b) -> ~ dropped i hs -> still_waits i (bs_calls (beside_run hd b hs)).
Proof.
  revert b. induction hs as [|[now h] hs IH]; intros b J R; [repeat split; auto; apply J|].
  destruct (jam_step hd b now h J R) as (J' & R' & O & W). destruct (IH _ J' R') as (J2 & O2 & W2).
  unfold beside_run in *. cbn [fold_left fst snd beside_outputs]. split; [exact J2|]. split; [now rewrite O, O2|].
  intros i Hi Hd. apply W2; [apply W; [exact Hi|]|]; intro X; apply Hd; [left; cbn; now rewrite X|now right].
Qed.

(** ** The calls, and the tool *)
Lemma calls_in_time_beside m :
  in_time_beside (fun St sp => leds sp m) 1 0 0 /\ in_time_beside (fun St sp => ctl_status sp m) 1 0 0 /\
  in_time_beside (fun St sp => extended_status sp m) 1 0 0 /\ in_time_beside (fun St sp => mac_addrs sp) 1 0 0 /\
  (forall q, in_time_beside (fun St sp => no_payload_request sp q) 1 0 0) /\ in_time_beside (fun St sp => identifier sp m) 1 0 0 /\
  (forall rd, rd_len rd <= 255 -> in_time_beside (fun St sp => ctl_read sp m rd) (1 + rounds (rd_len rd)) 0 0) /\
  (forall wr data, in_time_beside (fun St sp => ctl_write sp m wr data) 2 0 0) /\
  in_time_beside (fun St sp => reset sp m) 2 2000010 2 /\ in_time_beside (fun St sp => power sp m) 6 0 0 /\
  in_time_beside (fun St sp => set_power sp m PowerOff) 3 0 0 /\ (forall st, in_time_beside (fun St sp => set_power sp m st) 20 2000010 2) /\
  in_time_beside (fun St sp => vendor_info sp m) 27 0 0 /\ in_time_beside (fun St sp => memory_model sp m) 9 0 0 /\
  in_time_beside (fun St sp => monitors sp m) 33 0 0 /\ in_time_beside (fun St sp => datapath sp m) 41 0 0.
Proof.
  destruct (calls_in_time_among m) as (H1 & H2 & H3 & H4 & H5 & H6 & H7 & H8 & H9 & H10 & H11 & H12 & H13 & H14 & H15 & H16).
  do 15 (split; [intros; apply beside_from_among; auto|]). now apply beside_from_among.
Qed.
Lemma tool_in_time_beside show_f32 show a : let c := ar_cmd a in
  in_time_beside (xcvradm show_f32 show a) (selecting (chosen a) + fst (commanding c)) (snd (commanding c)) (napping c).
Proof.
  intro c. apply beside_from_among, (@ends_in_time_among false); [|intros St sp s; apply tool_cost].
  destruct (run_of show_f32 show a) as (p & H & _). exists p. split; [exact H|discriminate].
Qed.
