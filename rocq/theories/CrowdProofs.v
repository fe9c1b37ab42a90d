(** Calls made at the same time end in time (C92). *)
From Coq Require Import Lia Sorted.
From Verif Require Export SpecCrowd.
From Verif Require Import Tac TimeProofs CostProofs ProgProofs DeadlineProofs ConcProofs.
Import ListNotations.
Open Scope N_scope.

(** ** What the loop does *)
Lemma unheard out i : replies_of out = [] -> answer_for i out = None.
Proof. induction out as [|[] out IH]; cbn; try assumption; [reflexivity|discriminate]. Qed.
Lemma stopped_step t now e : l_status (tm_loop t) <> Running ->
  tm_loop (fst (timed_step t now e)) = tm_loop t /\ snd (timed_step t now e) = [].
Proof.
  intro H. assert (S : step (tm_loop t) e = (tm_loop t, [])) by (unfold step; destruct (l_status (tm_loop t)); congruence).
  destruct (timed_loop t now e) as [[-> ->]| ->]; [now rewrite S|now split].
Qed.
Definition plain (e : event) : bool := match e with EvRequest _ _ _ | EvClosed | EvCallerGone => false | _ => true end.
Lemma plain_request e : plain e = true -> forall tag r io, e <> EvRequest tag r io.
Proof. now intros H tag r io ->. Qed.
Lemma plain_gone e : plain e = true -> e <> EvCallerGone.
Proof. now intros H ->. Qed.
Lemma runs_true t : runs t = true <-> l_status (tm_loop t) = Running.
Proof. unfold runs. destruct (l_status (tm_loop t)); split; congruence. Qed.
Lemma runs_false t : runs t = false <-> l_status (tm_loop t) <> Running.
Proof. unfold runs. destruct (l_status (tm_loop t)); split; congruence. Qed.
Inductive loop_did (t t' : timed) (now : N) (out : list output) : Prop :=
| LdOn o o' : waiting (tm_loop t) o -> waiting (tm_loop t') o' -> o_tag o' = o_tag o -> replies_of out = [] ->
    (o_retries o' = o_retries o /\ tm_deadline t' = tm_deadline t \/
     o_retries o' = o_retries o + 1 /\ o_retries o < l_limit (tm_loop t) /\ tm_deadline t' = now + tm_period t) ->
    loop_did t t' now out
| LdDone o x : waiting (tm_loop t) o -> l_out (tm_loop t') = None -> answer_for (o_tag o) out = Some x -> replies_of out = [x] -> loop_did t t' now out
| LdEnd : l_status (tm_loop t') <> Running -> replies_of out = [] -> loop_did t t' now out
| LdIdle : l_status (tm_loop t) = Running -> l_out (tm_loop t) = None -> l_out (tm_loop t') = None -> replies_of out = [] -> loop_did t t' now out.
Lemma loop_does t now e : plain e = true -> loop_did t (fst (timed_step t now e)) now (snd (timed_step t now e)).
Proof.
  intro P. pose proof (plain_request e P) as P1. pose proof (plain_gone e P) as P2.
  destruct (runs t) eqn:R; [apply runs_true in R|apply runs_false in R].
  2: { destruct (stopped_step t now e R) as [E1 E2]. apply LdEnd; [congruence|now rewrite E2]. }
  destruct (l_out (tm_loop t)) as [o|] eqn:O.
  - assert (W : waiting (tm_loop t) o) by now split.
    destruct (timed_goes t now e o W P2) as [(o' & G1 & G2 & _ & G4)|[(x & [G1 G2] & G3)|[G1 G2]]]; cbn [fst snd] in *.
    + destruct (waits_on t now e o o' W G1 P1) as [_ G]. apply (LdOn t _ now _ o o'); auto. apply G4.
    + now apply (LdDone t _ now _ o x).
    + apply LdEnd; [exact G1|apply G2].
  - destruct (timed_idle t now e (fun _ => O) P1) as [I1 I2]. destruct (runs (fst (timed_step t now e))) eqn:R'.
    + apply runs_true in R'. apply LdIdle; auto.
    + apply runs_false in R'. now apply LdEnd.
Qed.
Inductive take_did (t' : timed) (i now : N) (period : N) (r : Rpc) (out : list output) : Prop :=
| TdOn g : waiting (tm_loop t') (mkOut i r 1 0 g) -> tm_deadline t' = now + period -> replies_of out = [] -> take_did t' i now period r out
| TdDone x : l_out (tm_loop t') = None -> answer_for i out = Some x -> replies_of out = [x] -> take_did t' i now period r out
| TdEnd : l_status (tm_loop t') <> Running -> replies_of out = [] -> take_did t' i now period r out.
Definition taking (t : timed) (now i : N) (r : Rpc) (io g : bool) : timed * list output :=
  if g then take_left t now i r io else timed_step t now (EvRequest i r io).
Lemma take_does t now i r io g : l_status (tm_loop t) = Running -> l_out (tm_loop t) = None ->
  take_did (fst (taking t now i r io g)) i now (tm_period t) r (snd (taking t now i r io g)).
Proof.
  intros H1 H2. unfold taking. destruct g.
  - unfold take_left, send_outgoing_request. cbn [o_request]. destruct (request_packet r) as [p|]; [|now apply TdEnd].
    destruct io; cbn.
    + apply (TdOn _ _ _ _ _ _ true); [now split|reflexivity|reflexivity].
    + now apply TdEnd.
  - destruct (taken_up t now i r io H1 H2) as [(U1 & U2 & U3 & _)|[(e & [U1 U2] & U3)|[U1 U2]]]; cbn [fst snd] in *.
    + apply (TdOn _ _ _ _ _ _ false); [exact U2|exact U3|apply U1].
    + now apply (TdDone _ _ _ _ _ _ (Err e)).
    + apply TdEnd; [exact U1|apply U2].
Qed.
Lemma limit_taking t now i r io g : l_limit (tm_loop (fst (taking t now i r io g))) = l_limit (tm_loop t) /\
  tm_period (fst (taking t now i r io g)) = tm_period t.
Proof.
  unfold taking. destruct g; [|apply limit_kept]. unfold take_left, send_outgoing_request. cbn [o_request].
  destruct (request_packet r) as [p|]; [|now split]. destruct io; cbn; now split.
Qed.
(** The caller of the request is gone: only that changes. *)
Lemma gone_does t now o : waiting (tm_loop t) o ->
  let t' := fst (timed_step t now EvCallerGone) in
  waiting (tm_loop t') (mkOut (o_tag o) (o_request o) (o_retries o) (o_errors o) true) /\ tm_deadline t' = tm_deadline t /\
  tm_period t' = tm_period t /\ l_limit (tm_loop t') = l_limit (tm_loop t).
Proof. intros [H1 H2]. unfold timed_step, step. rewrite H1, H2. cbn. now repeat split. Qed.

(** ** The calls and the line *)
Definition hears_one {A} (t : timed) (now : N) (out : list output) (i : nat) (c : cstage A) : cstage A :=
  match c with
  | CPending k => match answer_for (N.of_nat i) out with Some x => CReady (heard k x) now | None => if runs t then c else CReady (Ret Panic) now end
  | CQueued _ _ _ _ => if runs t then c else CReady (Ret Panic) now
  | _ => c
  end.
Lemma nth_hears {A} t now out (l : list (cstage A)) : forall i j,
  nth_error (hears t now out i l) j = option_map (hears_one t now out (i + j)) (nth_error l j).
Proof.
  induction l as [|c l IH]; intros i [|j]; cbn [hears nth_error option_map]; try reflexivity.
  - now rewrite Nat.add_0_r.
  - rewrite IH. now rewrite Nat.add_succ_r.
Qed.
Definition line {A} (c : timed_calls A) : list nat := match tcs_slot c with Some s => sl_call s :: tcs_waiters c | None => [] end.
Definition nth_call {A} (c : timed_calls A) (i : nat) : option (cstage A) := nth_error (tcs_calls c) i.
Record shape {A} (c : timed_calls A) : Prop := {
  sh_slot : tcs_slot c = None -> tcs_waiters c = [];
  sh_nodup : NoDup (line c);
  sh_in : forall i, In i (line c) -> exists id q d k, nth_call c i = Some (CQueued id q d k);
  sh_queued : forall i id q d k, nth_call c i = Some (CQueued id q d k) -> In i (line c);
  sh_pending : forall i k, nth_call c i = Some (CPending k) -> exists o, waiting (tm_loop (tcs_timed c)) o /\ o_tag o = N.of_nat i;
  sh_out : forall o, waiting (tm_loop (tcs_timed c)) o -> exists i k, nth_call c i = Some (CPending k) /\ o_tag o = N.of_nat i;
  sh_stop : l_status (tm_loop (tcs_timed c)) <> Running -> tcs_slot c = None }.

Lemma shape_new {A} t id (ps : list (prog A * N)) : l_out (tm_loop t) = None -> shape (calls_new t id ps).
Proof.
  intro H. assert (R : forall i x, nth_call (calls_new t id ps) i = Some x -> exists p s, x = CReady p s).
  { intros i x E. unfold nth_call, calls_new in E. cbn [tcs_calls] in E. rewrite nth_error_map in E.
    destruct (nth_error ps i) as [[p s]|]; [|discriminate]. injection E as <-. now exists p, s. }
  split; cbn; try reflexivity; try contradiction.
  - constructor.
  - intros i id' q d k E. destruct (R _ _ E) as (? & ? & ?). discriminate.
  - intros i k E. destruct (R _ _ E) as (? & ? & ?). discriminate.
  - intros o [_ E]. congruence.
Qed.

(** What one occurrence does to the calls. *)
Inductive step_did {A} (c : timed_calls A) (now : N) : timed_calls A -> list output -> Prop :=
| SdStay : step_did c now c []
| SdJoin i q d k since sl n : nth_call c i = Some (CReady (Ask q d k) since) -> since <= now -> runs (tcs_timed c) = true ->
    let c' := mkTimedCalls (tcs_timed c) (tcs_free c) n (Some sl) (match tcs_slot c with None => tcs_waiters c | Some _ => tcs_waiters c ++ [i] end)
        (update i (CQueued (tcs_counter c) q d k) (tcs_calls c)) in
    sl = match tcs_slot c with None => mkSlot i true now false | Some s => s end -> step_did c now c' []
| SdPanic i q d k since n : nth_call c i = Some (CReady (Ask q d k) since) -> since <= now -> runs (tcs_timed c) = false ->
    step_did c now (mkTimedCalls (tcs_timed c) (tcs_free c) n (tcs_slot c) (tcs_waiters c) (update i (CReady (Ret Panic) now) (tcs_calls c))) []
| SdNap i m p since : nth_call c i = Some (CReady (Nap m p) since) -> since <= now ->
    step_did c now (mkTimedCalls (tcs_timed c) (tcs_free c) (tcs_counter c) (tcs_slot c) (tcs_waiters c) (update i (CAsleep p (now + m)) (tcs_calls c))) []
| SdWake i p until : nth_call c i = Some (CAsleep p until) -> until <= now ->
    step_did c now (mkTimedCalls (tcs_timed c) (tcs_free c) (tcs_counter c) (tcs_slot c) (tcs_waiters c) (update i (CReady p now) (tcs_calls c))) []
| SdPush i id q d k g b : nth_call c i = Some (CQueued id q d k) -> tcs_slot c = Some (mkSlot i false g b) ->
    step_did c now (mkTimedCalls (tcs_timed c) (tcs_free c) (tcs_counter c) (Some (mkSlot i true now false)) (tcs_waiters c)
      (update i (CQueued id q d k) (tcs_calls c))) []
| SdTake i s g id q d k io : l_out (tm_loop (tcs_timed c)) = None -> tcs_slot c = Some (mkSlot i true s g) -> nth_call c i = Some (CQueued id q d k) ->
    let r := taking (tcs_timed c) now (N.of_nat i) (host_request id q d) io g in
    step_did c now (then_calls now now (tcs_counter c) r (next_slot now (tcs_waiters c)) (tl (tcs_waiters c))
      (update i (CPending k) (tcs_calls c))) (snd r)
| SdLoop e : plain e = true ->
    let r := timed_step (tcs_timed c) now e in
    step_did c now (then_calls now (match l_out (tm_loop (tcs_timed c)), l_out (tm_loop (fst r)) with Some _, None => now | _, _ => tcs_free c end)
      (tcs_counter c) r (tcs_slot c) (tcs_waiters c) (tcs_calls c)) (snd r)
| SdLeave i y : nth_call c i = Some y -> call_waits y = false -> (forall x s, y <> CReady (Ret x) s) ->
    step_did c now (mkTimedCalls (tcs_timed c) (tcs_free c) (tcs_counter c) (tcs_slot c) (tcs_waiters c) (update i CGone (tcs_calls c))) []
| SdRelease i id q d k g b : nth_call c i = Some (CQueued id q d k) -> tcs_slot c = Some (mkSlot i false g b) ->
    step_did c now (mkTimedCalls (tcs_timed c) (tcs_free c) (tcs_counter c) (next_slot now (tcs_waiters c)) (tl (tcs_waiters c)) (update i CGone (tcs_calls c))) []
| SdQuit i id q d k s : nth_call c i = Some (CQueued id q d k) -> tcs_slot c = Some s -> i <> sl_call s ->
    step_did c now (mkTimedCalls (tcs_timed c) (tcs_free c) (tcs_counter c) (Some s) (filter (fun j => negb (Nat.eqb i j)) (tcs_waiters c))
      (update i CGone (tcs_calls c))) []
| SdMark i id q d k g b : nth_call c i = Some (CQueued id q d k) -> tcs_slot c = Some (mkSlot i true g b) ->
    step_did c now (mkTimedCalls (tcs_timed c) (tcs_free c) (tcs_counter c) (Some (mkSlot i true g true)) (tcs_waiters c) (tcs_calls c)) []
| SdGone i k : nth_call c i = Some (CPending k) ->
    step_did c now (mkTimedCalls (fst (timed_step (tcs_timed c) now EvCallerGone)) (tcs_free c) (tcs_counter c) (tcs_slot c) (tcs_waiters c) (tcs_calls c)) [].
Lemma step_does {A} (c : timed_calls A) now h : step_did c now (calls_step c now h) (snd (calls_does c now h)).
Proof.
  unfold calls_step, calls_does. destruct h as [i|io|e|i].
  - destruct (nth_error (tcs_calls c) i) as [[[x|q d k|m p] since|p until|id q d k|k|]|] eqn:E; cbn [fst snd]; try (now constructor).
    + destruct (N.ltb_spec now since); cbn [fst snd]; [constructor|]. destruct (runs (tcs_timed c)) eqn:R; cbn [fst snd].
      * destruct (tcs_slot c) as [sl|] eqn:Es; cbn [fst snd].
        -- pose proof (SdJoin c now i q d k since sl ((tcs_counter c + 1) mod 2 ^ 64)) as X. rewrite Es in X. now apply X.
        -- pose proof (SdJoin c now i q d k since (mkSlot i true now false) ((tcs_counter c + 1) mod 2 ^ 64)) as X. rewrite Es in X. now apply X.
      * now apply (SdPanic c now i q d k since).
    + destruct (N.ltb_spec now since); cbn [fst snd]; [constructor|]. now apply (SdNap c now i m p since).
    + destruct (N.leb_spec until now); cbn [fst snd]; [|constructor]. now apply (SdWake c now i p until).
    + destruct (tcs_slot c) as [[j [] g b]|] eqn:Es; cbn [fst snd]; try constructor.
      destruct (Nat.eqb_spec i j) as [<-|]; cbn [fst snd]; [|constructor]. now apply (SdPush c now i id q d k g b).
  - destruct (l_out (tm_loop (tcs_timed c))) eqn:O; cbn [fst snd]; [constructor|].
    destruct (tcs_slot c) as [[i [] g b]|] eqn:Es; cbn [fst snd]; try constructor.
    destruct (nth_error (tcs_calls c) i) as [[ | |id q d k| |]|] eqn:E; cbn [fst snd]; try constructor.
    exact (SdTake c now i g b id q d k io O Es E).
  - destruct e; cbn [fst snd]; try (now constructor); now apply (SdLoop c now).
  - destruct (nth_error (tcs_calls c) i) as [[[x|q d k|m p] since|p until|id q d k|k|]|] eqn:E; cbn [fst snd]; try (now constructor);
      try (now apply (SdLeave c now i _ E)).
    + destruct (tcs_slot c) as [[j b g b']|] eqn:Es; cbn [fst snd]; [|constructor]. destruct (Nat.eqb_spec i j) as [<-|Nij].
      * destruct b; cbn [fst snd]; [exact (SdMark c now i id q d k g b' E Es)|exact (SdRelease c now i id q d k g b' E Es)].
      * apply (SdQuit c now i id q d k _ E Es). exact Nij.
    + exact (SdGone c now i k E).
Qed.
Lemma then_nth {A} now free n r sl ws (l : list (cstage A)) i :
  nth_call (then_calls now free n r sl ws l) i = option_map (hears_one (fst r) now (snd r) i) (nth_error l i).
Proof. destruct r as [t out]. unfold then_calls, nth_call. destruct (runs t) eqn:R; cbn [tcs_calls fst snd]; now rewrite nth_hears. Qed.
Lemma then_timed {A} now free n r sl ws (l : list (cstage A)) : tcs_timed (then_calls now free n r sl ws l) = fst r.
Proof. destruct r as [t out]. unfold then_calls. now destruct (runs t). Qed.
Lemma then_free {A} now free n r sl ws (l : list (cstage A)) : tcs_free (then_calls now free n r sl ws l) = free.
Proof. destruct r as [t out]. unfold then_calls. now destruct (runs t). Qed.
Lemma then_slot {A} now free n r sl ws (l : list (cstage A)) : tcs_slot (then_calls now free n r sl ws l) = if runs (fst r) then sl else None.
Proof. destruct r as [t out]. unfold then_calls. cbn [fst]. now destruct (runs t). Qed.
Lemma then_waiters {A} now free n r sl ws (l : list (cstage A)) : tcs_waiters (then_calls now free n r sl ws l) = if runs (fst r) then ws else [].
Proof. destruct r as [t out]. unfold then_calls. cbn [fst]. now destruct (runs t). Qed.
Ltac thens := rewrite ?then_nth, ?then_timed, ?then_free, ?then_slot, ?then_waiters in *.

Lemma nth_call_update {A} (c : timed_calls A) i x n f sl ws y : nth_call c i = Some y -> forall j,
  nth_call (mkTimedCalls (tcs_timed c) f n sl ws (update i x (tcs_calls c))) j = if Nat.eqb i j then Some x else nth_call c j.
Proof.
  intros E j. unfold nth_call in *. cbn [tcs_calls]. rewrite nth_update, E. reflexivity.
Qed.
(** A call that neither waits before nor after. *)
Lemma shape_other {A} (c : timed_calls A) i x y n : shape c -> nth_call c i = Some y -> call_waits y = false -> call_waits x = false ->
  shape (mkTimedCalls (tcs_timed c) (tcs_free c) n (tcs_slot c) (tcs_waiters c) (update i x (tcs_calls c))).
Proof.
  intros [S1 S2 S3 S4 S5 S6 S7] E Hy Hx. split; cbn [tcs_slot tcs_waiters tcs_timed]; unfold line in *; cbn [tcs_slot tcs_waiters] in *; auto.
  - intros j Hj. destruct (S3 j Hj) as (id & q & d & k & Ej). exists id, q, d, k. rewrite (nth_call_update c i x n _ _ _ y E).
    destruct (Nat.eqb_spec i j) as [<-|]; [|exact Ej]. rewrite E in Ej. injection Ej as ->. discriminate.
  - intros j id q d k. rewrite (nth_call_update c i x n _ _ _ y E). destruct (Nat.eqb_spec i j) as [<-|]; [|apply S4]. intros [= ->]. discriminate.
  - intros j k. rewrite (nth_call_update c i x n _ _ _ y E). destruct (Nat.eqb_spec i j) as [<-|]; [|apply S5]. intros [= ->]. discriminate.
  - intros o Ho. destruct (S6 o Ho) as (j & k & Ej & Ht). exists j, k. rewrite (nth_call_update c i x n _ _ _ y E). split; [|exact Ht].
    destruct (Nat.eqb_spec i j) as [<-|]; [|exact Ej]. rewrite E in Ej. injection Ej as ->. discriminate.
Qed.
Lemma shape_out {A} (c : timed_calls A) i id q d k sl ws n f : shape c -> nth_call c i = Some (CQueued id q d k) ->
  let c' := mkTimedCalls (tcs_timed c) f n sl ws (update i CGone (tcs_calls c)) in
  (sl = None -> ws = []) -> NoDup (line c') -> (forall j, In j (line c') <-> In j (line c) /\ j <> i) ->
  (l_status (tm_loop (tcs_timed c)) <> Running -> sl = None) -> shape c'.
Proof.
  intros [S1 S2 S3 S4 S5 S6 S7] E c' H1 H2 H3 H4.
  assert (U : forall j, nth_call c' j = if Nat.eqb i j then Some CGone else nth_call c j) by (intro; now apply (nth_call_update c i _ _ _ _ _ _ E)).
  split; auto.
  - intros j Hj. apply H3 in Hj. destruct Hj as [Hj Hn]. rewrite U. destruct (Nat.eqb_spec i j); [congruence|]. now apply S3.
  - intros j id' q' d' k'. rewrite U. destruct (Nat.eqb_spec i j) as [<-|]; [discriminate|]. intro Ej. apply H3. split; [now apply (S4 j id' q' d' k')|congruence].
  - intros j k'. rewrite U. destruct (Nat.eqb_spec i j) as [<-|]; [discriminate|apply S5].
  - intros o Ho. destruct (S6 o Ho) as (j & k' & Ej & Ht). exists j, k'. rewrite U. split; [|exact Ht].
    destruct (Nat.eqb_spec i j) as [<-|]; [congruence|exact Ej].
Qed.
Lemma line_join {A} (c : timed_calls A) i f n now (l : list (cstage A)) t : (tcs_slot c = None -> tcs_waiters c = []) ->
  line (mkTimedCalls t f n (Some (match tcs_slot c with None => mkSlot i true now false | Some s => s end))
    (match tcs_slot c with None => tcs_waiters c | Some _ => tcs_waiters c ++ [i] end) l) = line c ++ [i].
Proof. intro H. unfold line. cbn [tcs_slot tcs_waiters]. destruct (tcs_slot c) as [s|]; cbn [app]; [reflexivity|]. now rewrite H. Qed.
Lemma hears_queued {A} t now out i (c : cstage A) id q d k : hears_one t now out i c = CQueued id q d k -> c = CQueued id q d k /\ runs t = true.
Proof.
  destruct c; cbn [hears_one]; try discriminate.
  - destruct (runs t); [|discriminate]. intros ->. auto.
  - destruct (answer_for _ out); [discriminate|]. destruct (runs t); discriminate.
Qed.
Lemma hears_pending {A} t now out i (c : cstage A) k : hears_one t now out i c = CPending k ->
  c = CPending k /\ runs t = true /\ answer_for (N.of_nat i) out = None.
Proof.
  destruct c; cbn [hears_one]; try discriminate.
  - destruct (runs t); discriminate.
  - destruct (answer_for _ out) eqn:E; [discriminate|]. destruct (runs t); [|discriminate]. intros [= ->]. auto.
Qed.
Lemma some_map {X Y} (f : X -> Y) o y : option_map f o = Some y -> exists x, o = Some x /\ f x = y.
Proof. destruct o as [x|]; [|discriminate]. intros [= <-]. now exists x. Qed.
Lemma shape_step {A} (c : timed_calls A) now h : shape c -> shape (calls_step c now h).
Proof.
  intros S. pose proof (step_does c now h) as D.
  destruct D as [|i q d k since sl n E _ R c' Esl|i q d k since n E _ R|i m p since E _|i p until E _|i id q d k g b E Es|i s g id q d k io O Es E r|e P r
    |i y E Ny Hy|i id q d k g b E Es|i id q d k s E Es Ni|i id q d k g b E Es|i k E].
  - exact S.
  - destruct S as [S1 S2 S3 S4 S5 S6 S7]. subst sl c'. set (c' := mkTimedCalls _ _ _ _ _ _).
    assert (L : line c' = line c ++ [i]) by now apply line_join.
    assert (Nl : ~ In i (line c)) by (intro Hi; destruct (S3 i Hi) as (? & ? & ? & ? & X); rewrite E in X; discriminate).
    assert (U : forall j, nth_call c' j = if Nat.eqb i j then Some (CQueued (tcs_counter c) q d k) else nth_call c j) by (intro; now apply (nth_call_update c i _ _ _ _ _ _ E)).
    split.
    + discriminate.
    + rewrite L. apply NetProofs2.NoDup_app_one; assumption.
    + intros j Hj. rewrite L, in_app_iff in Hj. rewrite U. destruct (Nat.eqb_spec i j); [now repeat eexists|].
      destruct Hj as [Hj|[Hj|[]]]; [now apply S3|contradiction].
    + intros j id' q' d' k'. rewrite U, L, in_app_iff. destruct (Nat.eqb_spec i j) as [<-|]; [right; now left|]. left. now apply (S4 j id' q' d' k').
    + intros j k'. rewrite U. destruct (Nat.eqb_spec i j) as [<-|]; [discriminate|apply S5].
    + intros o Ho. destruct (S6 o Ho) as (j & k' & Ej & Ht). exists j, k'. rewrite U. split; [|exact Ht].
      destruct (Nat.eqb_spec i j) as [<-|]; [congruence|exact Ej].
    + intro X. apply runs_true in R. contradiction.
  - now apply (shape_other c i _ _ _ S E).
  - now apply (shape_other c i _ _ _ S E).
  - now apply (shape_other c i _ _ _ S E).
  - destruct S as [S1 S2 S3 S4 S5 S6 S7].
    assert (U : forall j, nth_call (mkTimedCalls (tcs_timed c) (tcs_free c) (tcs_counter c) (Some (mkSlot i true now false)) (tcs_waiters c)
      (update i (CQueued id q d k) (tcs_calls c))) j = nth_call c j).
    { intro j. rewrite (nth_call_update c i _ _ _ _ _ _ E). destruct (Nat.eqb_spec i j) as [<-|]; [now rewrite E|reflexivity]. }
    unfold line in *. rewrite Es in *. cbn [sl_call] in *.
    split; cbn [tcs_slot tcs_waiters tcs_timed line sl_call]; auto.
    + discriminate.
    + intros j Hj. rewrite U. now apply S3.
    + intros j id' q' d' k'. rewrite U. apply S4.
    + intros j k'. rewrite U. apply S5.
    + intros o Ho. destruct (S6 o Ho) as (j & k' & X). exists j, k'. now rewrite U.
    + intro X. specialize (S7 X). discriminate.
  - destruct S as [S1 S2 S3 S4 S5 S6 S7].
    assert (R : l_status (tm_loop (tcs_timed c)) = Running).
    { destruct (runs (tcs_timed c)) eqn:R; [now apply runs_true|]. apply runs_false in R. specialize (S7 R). congruence. }
    pose proof (take_does (tcs_timed c) now (N.of_nat i) (host_request id q d) io g R O) as T. fold r in T.
    assert (Nl : ~ In i (tcs_waiters c)) by (unfold line in S2; rewrite Es in S2; now inversion S2).
    assert (NP : forall j k', nth_call c j <> Some (CPending k')) by (intros j k' X; destruct (S5 j k' X) as (o & [_ Ho] & _); congruence).
    assert (L : line (then_calls now now (tcs_counter c) r (next_slot now (tcs_waiters c)) (tl (tcs_waiters c))
      (update i (CPending k) (tcs_calls c))) = if runs (fst r) then tcs_waiters c else []).
    { unfold line, next_slot. thens. destruct (runs (fst r)); [|reflexivity]. now destruct (tcs_waiters c). }
    assert (U : forall j, nth_error (update i (CPending k) (tcs_calls c)) j = if Nat.eqb i j then Some (CPending k) else nth_call c j).
    { intro j. rewrite nth_update. unfold nth_call in E. now rewrite E. }
    assert (Lc : line c = i :: tcs_waiters c) by (unfold line; now rewrite Es).
    split.
    + thens. destruct (runs (fst r)); [|reflexivity]. destruct (tcs_waiters c); [reflexivity|discriminate].
    + rewrite L. destruct (runs (fst r)); [|constructor]. rewrite Lc in S2. now inversion S2.
    + intros j Hj. rewrite L in Hj. destruct (runs (fst r)) eqn:Rr; [|destruct Hj]. destruct (S3 j) as (id' & q' & d' & k' & X); [rewrite Lc; now right|].
      exists id', q', d', k'. thens. rewrite U. destruct (Nat.eqb_spec i j) as [<-|]; [contradiction|]. rewrite X. cbn [option_map hears_one]. now rewrite Rr.
    + intros j id' q' d' k' X. thens. apply some_map in X. destruct X as (y & X & Y). apply hears_queued in Y. destruct Y as [-> Y]. rewrite L, Y.
      rewrite U in X. destruct (Nat.eqb_spec i j) as [<-|]; [discriminate|]. specialize (S4 j id' q' d' k' X). rewrite Lc in S4. destruct S4; [contradiction|assumption].
    + intros j k' X. thens. apply some_map in X. destruct X as (y & X & Y). apply hears_pending in Y. destruct Y as (-> & Y & Z).
      rewrite U in X. destruct (Nat.eqb_spec i j) as [<-|]; [|now apply NP in X].
      destruct T as [g' T1 T2 T3|x T1 T2 T3|T1 T2]; [eexists; split; [exact T1|reflexivity]|congruence|]. apply runs_true in Y. contradiction.
    + intros o Ho. thens. destruct T as [g' T1 T2 T3|x T1 T2 T3|T1 T2]; [|destruct Ho; congruence|destruct Ho; contradiction].
      assert (o = mkOut (N.of_nat i) (host_request id q d) 1 0 g') as -> by (destruct Ho, T1; congruence). exists i, k. thens. rewrite U, Nat.eqb_refl.
      cbn [option_map hears_one]. rewrite (unheard _ _ T3). destruct T1 as [T1 _]. apply runs_true in T1. now rewrite T1.
    + thens. intro X. apply runs_false in X. now rewrite X.
  - destruct S as [S1 S2 S3 S4 S5 S6 S7]. pose proof (loop_does (tcs_timed c) now e P) as T. fold r in T.
    assert (Rb : runs (fst r) = true -> runs (tcs_timed c) = true).
    { intro X. destruct (runs (tcs_timed c)) eqn:Y; [reflexivity|]. apply runs_false in Y. destruct (stopped_step (tcs_timed c) now e Y) as [Z _].
      apply runs_true in X. fold r in Z. congruence. }
    match goal with |- shape ?x => set (c' := x) end.
    assert (L : line c' = if runs (fst r) then line c else []).
    { unfold line, c'. thens. now destruct (runs (fst r)). }
    assert (U : forall j, nth_call c' j = option_map (hears_one (fst r) now (snd r) j) (nth_call c j)) by (intro; unfold c'; now thens).
    split.
    + unfold c'. thens. now destruct (runs (fst r)).
    + rewrite L. destruct (runs (fst r)); [exact S2|constructor].
    + intros j Hj. rewrite L in Hj. destruct (runs (fst r)) eqn:Rr; [|destruct Hj]. destruct (S3 j Hj) as (id & q & d & k & X).
      exists id, q, d, k. rewrite U, X. cbn [option_map hears_one]. now rewrite Rr.
    + intros j id q d k X. rewrite U in X. apply some_map in X. destruct X as (y & X & Y). apply hears_queued in Y. destruct Y as [-> Y]. rewrite L, Y.
      now apply (S4 j id q d k).
    + intros j k X. rewrite U in X. apply some_map in X. destruct X as (y & X & Y). apply hears_pending in Y. destruct Y as (-> & Y & Z).
      destruct (S5 j k X) as (o & Ho & Ht). unfold c'. thens. destruct T as [o1 o2 T1 T2 T3 T4 T5|o1 x T1 T2 T3 T4|T1 T2|T1 T2 T3 T4].
      * exists o2. split; [exact T2|]. assert (o1 = o) by (destruct Ho, T1; congruence). congruence.
      * assert (o1 = o) by (destruct Ho, T1; congruence). congruence.
      * apply runs_true in Y. contradiction.
      * destruct Ho. congruence.
    + intros o Ho. unfold c' in Ho. thens. destruct T as [o1 o2 T1 T2 T3 T4 T5|o1 x T1 T2 T3 T4|T1 T2|T1 T2 T3 T4].
      * destruct (S6 o1 T1) as (j & k & X & Y). exists j, k. rewrite U, X. cbn [option_map hears_one]. rewrite (unheard _ _ T4).
        destruct T2 as [T2 T2']. pose proof (proj2 (runs_true (fst r)) T2) as ->. split; [reflexivity|]. destruct Ho. congruence.
      * destruct Ho. congruence.
      * destruct Ho. contradiction.
      * destruct Ho. congruence.
    + unfold c'. thens. intro X. apply runs_false in X. now rewrite X.
  - now apply (shape_other c i _ _ _ S E).
  - assert (Lc : line c = i :: tcs_waiters c) by (unfold line; now rewrite Es). pose proof (sh_nodup c S) as Nd. rewrite Lc in Nd.
    inversion Nd as [|? ? N1 N2]; subst.
    assert (L : line (mkTimedCalls (tcs_timed c) (tcs_free c) (tcs_counter c) (next_slot now (tcs_waiters c)) (tl (tcs_waiters c)) (update i CGone (tcs_calls c))) = tcs_waiters c).
    { unfold line, next_slot. cbn [tcs_slot tcs_waiters]. now destruct (tcs_waiters c). }
    apply (shape_out c i id q d k _ _ _ _ S E); rewrite ?L.
    + now destruct (tcs_waiters c).
    + exact N2.
    + intro j. rewrite Lc. cbn [In]. split; [intro Hj; split; [now right|intros ->; contradiction]|]. now intros [[->|Hj] Hn].
    + intro X. pose proof (sh_stop c S X). congruence.
  - assert (Lc : line c = sl_call s :: tcs_waiters c) by (unfold line; now rewrite Es). pose proof (sh_nodup c S) as Nd. rewrite Lc in Nd.
    inversion Nd as [|? ? N1 N2]; subst.
    assert (L : line (mkTimedCalls (tcs_timed c) (tcs_free c) (tcs_counter c) (Some s) (filter (fun j => negb (Nat.eqb i j)) (tcs_waiters c)) (update i CGone (tcs_calls c)))
      = sl_call s :: filter (fun j => negb (Nat.eqb i j)) (tcs_waiters c)) by reflexivity.
    apply (shape_out c i id q d k _ _ _ _ S E); rewrite ?L.
    + discriminate.
    + constructor; [|now apply NoDup_filter]. intro X. apply filter_In in X. tauto.
    + intro j. rewrite Lc. cbn [In]. rewrite filter_In, Bool.negb_true_iff, Nat.eqb_neq. split.
      * intros [<-|[Hj Hn]]; (split; [|congruence]); [now left|now right].
      * intros [[<-|Hj] Hn]; [now left|]. right. split; [exact Hj|congruence].
    + intro X. pose proof (sh_stop c S X). congruence.
  - destruct S as [S1 S2 S3 S4 S5 S6 S7].
    unfold line in *. rewrite Es in *. cbn [sl_call] in *.
    split; cbn [tcs_slot tcs_waiters tcs_timed line sl_call]; auto; [discriminate|]. intro X. specialize (S7 X). discriminate.
  - destruct (sh_pending c S i k E) as (o & Ho & Ht). destruct (gone_does (tcs_timed c) now o Ho) as (G1 & G2 & G3 & G4).
    destruct S as [S1 S2 S3 S4 S5 S6 S7]. split; cbn [tcs_slot tcs_waiters tcs_timed]; auto.
    + intros j k' Ej. destruct (S5 j k' Ej) as (o' & Ho' & Ht'). assert (o' = o) as -> by (destruct Ho, Ho'; congruence).
      eexists. split; [exact G1|exact Ht'].
    + intros o' Ho'. assert (o_tag o' = o_tag o) as -> by (destruct Ho', G1; replace o' with (mkOut (o_tag o) (o_request o) (o_retries o) (o_errors o) true) by congruence; reflexivity).
      now apply S6.
    + destruct G1 as [G1 _]. congruence.
Qed.

(** ** How many wait *)
Lemma filter_count {A} (f : A -> bool) (l : list A) : forall a,
  length (filter (fun i => match nth_error l (i - a) with Some x => f x | None => false end) (seq a (length l))) = length (filter f l).
Proof.
  induction l as [|x l IH]; intro a; [reflexivity|]. cbn [length seq filter]. rewrite Nat.sub_diag. cbn [nth_error].
  assert (E : filter (fun i => match nth_error (x :: l) (i - a) with Some y => f y | None => false end) (seq (S a) (length l)) =
              filter (fun i => match nth_error l (i - S a) with Some y => f y | None => false end) (seq (S a) (length l))).
  { apply filter_ext_in. intros i Hi. apply in_seq in Hi. replace (i - a)%nat with (S (i - S a)) by lia. reflexivity. }
  rewrite E. destruct (f x); cbn [length]; now rewrite IH.
Qed.
Lemma count_most {A} (f : A -> bool) (l : list A) (is : list nat) : NoDup is ->
  (forall i, In i is -> exists x, nth_error l i = Some x /\ f x = true) -> (length is <= length (filter f l))%nat.
Proof.
  intros Hn H. rewrite <- (filter_count f l 0). apply NoDup_incl_length; [exact Hn|]. intros i Hi. destruct (H i Hi) as (x & E & F).
  apply filter_In. split.
  - apply in_seq. split; [lia|]. cbn. apply nth_error_Some. congruence.
  - now rewrite Nat.sub_0_r, E.
Qed.
Definition busy {A} (c : timed_calls A) : nat := match l_out (tm_loop (tcs_timed c)) with Some _ => if runs (tcs_timed c) then 1 else 0 | None => 0 end.
Lemma busy_one {A} (c : timed_calls A) : (busy c <= 1)%nat.
Proof. unfold busy. destruct (l_out _); [destruct (runs _)|]; lia. Qed.
Lemma crowd_line {A} (c : timed_calls A) : shape c -> N.of_nat (length (line c) + busy c) <= crowd c.
Proof.
  intros [S1 S2 S3 S4 S5 S6 S7]. unfold crowd. enough (length (line c) + busy c <= length (filter call_waits (tcs_calls c)))%nat by lia.
  assert (Q : forall i, In i (line c) -> exists x, nth_error (tcs_calls c) i = Some x /\ call_waits x = true).
  { intros i Hi. destruct (S3 i Hi) as (id & q & d & k & E). unfold nth_call in E. rewrite E. eexists. now split. }
  unfold busy. destruct (l_out _) as [o|] eqn:O; [destruct (runs _) eqn:R|]; rewrite ?Nat.add_0_r; [|now apply count_most..].
  apply runs_true in R. destruct (S6 o (conj R O)) as (i & k & E & _).
  rewrite Nat.add_1_r. apply (count_most call_waits (tcs_calls c) (i :: line c)).
  - constructor; [|exact S2]. intro Hi. destruct (S3 i Hi) as (? & ? & ? & ? & X). congruence.
  - intros j [<-|Hj]; [|now apply Q]. unfold nth_call in E. rewrite E. eexists. now split.
Qed.

(** ** What is due *)
Section Due.
  Context {A : Type} (slack : N) (c : timed_calls A) (now : N) (T : on_time slack c now).
  Lemma due_in d : In d (all_due c) -> now <= d + slack.
  Proof. unfold on_time in T. rewrite Forall_forall in T. apply T. Qed.
  Lemma due_call i x d : nth_call c i = Some x -> In d (call_due c i) -> now <= d + slack.
  Proof.
    intros E H. apply due_in. unfold all_due. apply in_app_iff. left. apply in_flat_map. exists i. split; [|exact H].
    apply in_seq. split; [lia|]. cbn. apply nth_error_Some. unfold nth_call in E. congruence.
  Qed.
  Lemma due_ask i q d k since : nth_call c i = Some (CReady (Ask q d k) since) -> now <= since + slack.
  Proof. intro E. apply (due_call i _ since E). unfold nth_call in E. unfold call_due. rewrite E. now left. Qed.
  Lemma due_nap i m p since : nth_call c i = Some (CReady (Nap m p) since) -> now <= since + slack.
  Proof. intro E. apply (due_call i _ since E). unfold nth_call in E. unfold call_due. rewrite E. now left. Qed.
  Lemma due_asleep i p until : nth_call c i = Some (CAsleep p until) -> now <= until + slack.
  Proof. intro E. apply (due_call i _ until E). unfold nth_call in E. unfold call_due. rewrite E. now left. Qed.
  Lemma due_push i g b id q d k : tcs_slot c = Some (mkSlot i false g b) -> nth_call c i = Some (CQueued id q d k) -> now <= g + slack.
  Proof.
    intros Es E. apply (due_call i _ g E). unfold nth_call in E. unfold call_due. rewrite E, Es. cbn. rewrite Nat.eqb_refl. now left.
  Qed.
  Lemma due_take i s b : l_status (tm_loop (tcs_timed c)) = Running -> l_out (tm_loop (tcs_timed c)) = None ->
    tcs_slot c = Some (mkSlot i true s b) -> now <= N.max s (tcs_free c) + slack.
  Proof. intros R O Es. apply due_in. unfold all_due. apply in_app_iff. right. unfold loop_due. rewrite R, O, Es. now left. Qed.
  Lemma due_tick o : waiting (tm_loop (tcs_timed c)) o -> now <= tm_deadline (tcs_timed c) + slack.
  Proof. intros [R O]. apply due_in. unfold all_due. apply in_app_iff. right. unfold loop_due. rewrite R, O. now left. Qed.
End Due.

Lemma nth_filter {X} (f : X -> bool) (l : list X) : forall r x, nth_error l r = Some x -> f x = true ->
  exists r', nth_error (filter f l) r' = Some x /\ (r' <= r)%nat.
Proof.
  induction l as [|y l IH]; intros [|r] x E F; try discriminate.
  - injection E as ->. exists 0%nat. cbn [filter]. rewrite F. split; [reflexivity|lia].
  - destruct (IH r x E F) as (r' & Hr & Hl). cbn [filter]. destruct (f y); [exists (S r')|exists r']; (split; [exact Hr|lia]).
Qed.

(** ** Time *)
Section Clock.
  Context {A : Type} (n_retries : option N) (interval slack w : N).
  Local Notation K := (attempts n_retries).
  Local Notation once := (K * (interval + slack)).
  Local Notation W1 := (slack + once).
  Local Notation wait := (2 * slack + w * W1).
  (** When the loop has no request any more, and when it has taken the one in the channel. *)
  Definition fin (c : timed_calls A) : N :=
    match l_out (tm_loop (tcs_timed c)) with
    | Some o => tm_deadline (tcs_timed c) + slack + (K - o_retries o) * (interval + slack)
    | None => tcs_free c
    end.
  Definition hd (c : timed_calls A) : N :=
    slack + match tcs_slot c with Some s => N.max (sl_since s + if sl_sent s then 0 else slack) (fin c) | None => fin c end.
  Record clock (c : timed_calls A) (last : N) : Prop := {
    ck_period : tm_period (tcs_timed c) = interval;
    ck_limit : N.max 1 (l_limit (tm_loop (tcs_timed c))) = K;
    ck_free : tcs_free c <= last;
    ck_slot : forall s, tcs_slot c = Some s -> sl_since s <= last;
    ck_busy : forall o, waiting (tm_loop (tcs_timed c)) o -> 1 <= o_retries o <= K /\ tm_deadline (tcs_timed c) <= last + interval }.
  Lemma once_long : slack <= once.
  Proof. pose proof (K_pos n_retries). nia. Qed.
  Lemma clock_step c last now h : shape c -> clock c last -> last <= now -> clock (calls_step c now h) now.
  Proof.
    intros S [C1 C2 C3 C4 C5] L. pose proof (K_pos n_retries) as KP.
    assert (C4' : forall s, tcs_slot c = Some s -> sl_since s <= now) by (intros s H; specialize (C4 s H); lia).
    assert (C5' : forall o, waiting (tm_loop (tcs_timed c)) o -> 1 <= o_retries o <= K /\ tm_deadline (tcs_timed c) <= now + interval)
      by (intros o H; specialize (C5 o H); lia).
    pose proof (step_does c now h) as D.
    destruct D as [|i q d k since sl n E _ R c' Esl|i q d k since n E _ R|i m p since E _|i p until E _|i id q d k g b E Es|i s g id q d k io O Es E r|e P r
    |i y E Ny Hy|i id q d k g b E Es|i id q d k s E Es Ni|i id q d k g b E Es|i k E].
    - split; auto. lia.
    - split; cbn [c' tcs_timed tcs_free tcs_slot]; auto; [lia|]. intros s [= <-]. subst sl. destruct (tcs_slot c) as [s|]; [now apply C4'|cbn; lia].
    - split; cbn [tcs_timed tcs_free tcs_slot]; auto. lia.
    - split; cbn [tcs_timed tcs_free tcs_slot]; auto. lia.
    - split; cbn [tcs_timed tcs_free tcs_slot]; auto. lia.
    - split; cbn [tcs_timed tcs_free tcs_slot]; auto; [lia|]. intros s [= <-]. cbn. lia.
    - destruct (limit_taking (tcs_timed c) now (N.of_nat i) (host_request id q d) io g) as [L1 L2]. fold r in L1, L2.
      assert (R : l_status (tm_loop (tcs_timed c)) = Running).
      { destruct (runs (tcs_timed c)) eqn:R; [now apply runs_true|]. apply runs_false in R. pose proof (sh_stop c S R). congruence. }
      pose proof (take_does (tcs_timed c) now (N.of_nat i) (host_request id q d) io g R O) as T. fold r in T.
      split; thens; [congruence|congruence|lia| |].
      + intros sl. destruct (runs (fst r)); [|discriminate]. unfold next_slot. destruct (tcs_waiters c) as [|j ws]; [discriminate|]. intros [= <-]. cbn. lia.
      + intros o Ho. destruct T as [g' T1 T2 T3|x T1 T2 T3|T1 T2]; [|destruct Ho; congruence|destruct Ho; contradiction].
        assert (o = mkOut (N.of_nat i) (host_request id q d) 1 0 g') as -> by (destruct Ho, T1; congruence). cbn [o_retries]. rewrite T2. lia.
    - destruct (limit_kept (tcs_timed c) now e) as [L1 L2]. fold r in L1, L2. pose proof (loop_does (tcs_timed c) now e P) as T. fold r in T.
      split; thens; [congruence|congruence| | |].
      + destruct (l_out (tm_loop (tcs_timed c))); [|lia]. destruct (l_out _); lia.
      + intros sl. destruct (runs (fst r)); [|discriminate]. apply C4'.
      + intros o Ho. destruct T as [o1 o2 T1 T2 T3 T4 T5|o1 x T1 T2 T3 T4|T1 T2|T1 T2 T3 T4]; [|destruct Ho; congruence..].
        assert (o = o2) as -> by (destruct Ho, T2; congruence). destruct (C5' o1 T1) as [B1 B2].
        destruct T5 as [[-> ->]|(-> & Lm & ->)]; [now split|]. split; lia.
    - split; cbn [tcs_timed tcs_free tcs_slot]; auto. lia.
    - split; cbn [tcs_timed tcs_free tcs_slot]; auto; [lia|]. intros s. unfold next_slot. destruct (tcs_waiters c); [discriminate|]. intros [= <-]. cbn. lia.
    - split; cbn [tcs_timed tcs_free tcs_slot]; auto; [lia|]. intros s' [= <-]. now apply C4'.
    - split; cbn [tcs_timed tcs_free tcs_slot]; auto; [lia|]. intros s' [= <-]. now apply (C4' _ Es).
    - destruct (sh_pending c S i k E) as (o & Ho & Ht). destruct (gone_does (tcs_timed c) now o Ho) as (G1 & G2 & G3 & G4).
      split; cbn [tcs_timed tcs_free tcs_slot]; auto; [congruence|congruence|lia|]. intros o' Ho'. rewrite G2.
      assert (o' = mkOut (o_tag o) (o_request o) (o_retries o) (o_errors o) true) as -> by (destruct Ho', G1; congruence). exact (C5' o Ho).
  Qed.
  Lemma fin_most c last : clock c last -> runs (tcs_timed c) = true -> fin c <= last + N.of_nat (busy c) * once.
  Proof.
    intros [C1 C2 C3 C4 C5] R. unfold fin, busy. destruct (l_out _) as [o|] eqn:O; [|lia]. rewrite R. apply runs_true in R.
    destruct (C5 o (conj R O)) as [B1 B2]. nia.
  Qed.
  Lemma hd_most c last : clock c last -> runs (tcs_timed c) = true -> hd c <= last + 2 * slack + N.of_nat (busy c) * once /\
    (busy c <> 0%nat -> hd c <= last + W1).
  Proof.
    intros C R. pose proof (fin_most c last C R) as F. destruct C as [C1 C2 C3 C4 C5]. pose proof once_long as OL. unfold hd.
    assert (B : match tcs_slot c with Some s => N.max (sl_since s + if sl_sent s then 0 else slack) (fin c) | None => fin c end
                <= N.max (last + slack) (fin c)).
    { destruct (tcs_slot c) as [s|] eqn:Es; [|lia]. specialize (C4 s eq_refl). destruct (sl_sent s); lia. }
    split; [lia|]. intro Hb. assert (busy c = 1%nat) as Hb1 by (unfold busy in *; destruct (l_out _); [destruct (runs _)|]; lia).
    rewrite Hb1 in F. change (N.of_nat 1) with 1 in F. lia.
  Qed.
  Lemma hd_now c now o_or : on_time slack c now -> shape c -> tcs_slot c = Some o_or -> now <= hd c.
  Proof.
    intros T S Es. assert (R : l_status (tm_loop (tcs_timed c)) = Running).
    { destruct (runs (tcs_timed c)) eqn:R; [now apply runs_true|]. apply runs_false in R. pose proof (sh_stop c S R). congruence. }
    unfold hd. rewrite Es. destruct o_or as [i [] g b]; cbn [sl_since sl_sent].
    - unfold fin. destruct (l_out (tm_loop (tcs_timed c))) as [o|] eqn:O.
      + pose proof (due_tick slack c now T o (conj R O)). lia.
      + pose proof (due_take slack c now T i g b R O Es). lia.
    - destruct (sh_in c S i) as (id & q & d & k & E); [unfold line; rewrite Es; now left|].
      pose proof (due_push slack c now T i g b id q d k Es E). lia.
  Qed.
  (** The loop goes on: nothing gets later. *)
  Lemma fin_loop c last now e : clock c last -> on_time slack c now -> plain e = true -> forall f n sl ws l,
    let r := timed_step (tcs_timed c) now e in
    f = match l_out (tm_loop (tcs_timed c)), l_out (tm_loop (fst r)) with Some _, None => now | _, _ => tcs_free c end ->
    runs (fst r) = true -> fin (then_calls now f n r sl ws l) <= fin c.
  Proof.
    intros [C1 C2 C3 C4 C5] T P f n sl ws l r -> R. pose proof (loop_does (tcs_timed c) now e P) as D. fold r in D. unfold fin. thens.
    apply runs_true in R. destruct D as [o o' [D1 D1'] [D2 D2'] D3 D4 D5|o x [D1 D1'] D2 D3 D4|D1 D2|D1 D2 D3 D4].
    - rewrite D1', D2'. destruct D5 as [[-> ->]|(-> & Lm & ->)]; [lia|]. pose proof (due_tick slack c now T o (conj D1 D1')). nia.
    - rewrite D1', D2. pose proof (due_tick slack c now T o (conj D1 D1')). nia.
    - contradiction.
    - rewrite D2, D3. lia.
  Qed.

  (** ** One of the calls *)
  Context (p : prog A) (start : N) (i : nat).
  Local Notation W l := (weigh (2 * slack) wait l).
  Definition on_clock (c : timed_calls A) : Prop :=
    exists xs l, match nth_call c i with
    | Some (CReady p' since) => walk p xs l p' /\ since <= start + W l
    | Some (CAsleep p' until) => walk p xs l p' /\ until + slack <= start + W l
    | Some (CQueued _ q d k) => walk p xs l (Ask q d k) /\ exists r, nth_error (line c) r = Some i /\
        hd c + N.of_nat r * W1 + once <= start + W l + wait
    | Some (CPending k) => exists q d, walk p xs l (Ask q d k) /\ fin c <= start + W l + wait
    | Some CGone | None => False
    end.
  Lemma on_clock_same c c' : nth_call c' i = nth_call c i -> hd c' = hd c -> fin c' = fin c -> (exists l, line c' = line c ++ l) -> on_clock c -> on_clock c'.
  Proof.
    intros E1 E2 E3 (l' & E4) (xs & l & H). exists xs, l. rewrite E1. destruct (nth_call c i) as [[p' since|p' until|id q d k|k|]|]; try exact H.
    - destruct H as (Hw & r & Hr & Hb). split; [exact Hw|]. exists r. rewrite E2. split; [|exact Hb]. rewrite E4, nth_error_app1; [exact Hr|].
      apply nth_error_Some. congruence.
    - now rewrite E3.
  Qed.
  Lemma over_clock xs l q d k x now : walk p xs l (Ask q d k) -> now <= start + W l + wait ->
    exists xs' l', walk p xs' l' (heard k x) /\ now <= start + W l'.
  Proof.
    intros Hw Hn. exists (xs ++ [x]), (l ++ [DRequest q d]). split; [now apply walk_ask|]. rewrite weigh_app. cbn [weigh fold_right]. lia.
  Qed.
  Lemma on_clock_step c last now h : shape c -> clock c last -> last <= now -> on_time slack c now -> crowd (calls_step c now h) <= w ->
    nth_call (calls_step c now h) i <> Some CGone -> on_clock c -> on_clock (calls_step c now h).
  Proof.
    intros S C L T Cw Ng H. pose proof (K_pos n_retries) as KP. pose proof once_long as OL.
    pose proof (clock_step c last now h S C L) as C'. pose proof (shape_step c now h S) as S'. pose proof (crowd_line _ S') as CL.
    pose proof (step_does c now h) as D. set (c2 := calls_step c now h) in *. clearbody c2.
    destruct D as [|j q d k since sl n E Hs R c' Esl|j q d k since n E Hs R|j m p' since E Hs|j p' until E Hs|j id q d k g b E Es|j s g id q d k io O Es E r|e P r
      |j y E Ny Hy|j id q d k g b E Es|j id q d k s E Es Ni|j id q d k g b E Es|j k E].
    - exact H.
    - (* joins the line *)
      assert (Ln : line c' = line c ++ [j]) by (subst sl; now apply line_join; apply S).
      assert (U : nth_call c' i = if Nat.eqb j i then Some (CQueued (tcs_counter c) q d k) else nth_call c i) by now apply (nth_call_update c j _ _ _ _ _ _ E).
      destruct (Nat.eqb_spec j i) as [->|Nji].
      + destruct H as (xs & l & H). rewrite E in H. destruct H as (Hw & Hb). exists xs, l. rewrite U. split; [exact Hw|].
        exists (length (line c)). split; [rewrite Ln, nth_error_app2, Nat.sub_diag by lia; reflexivity|].
        pose proof (due_ask slack c now T i q d k since E) as Du.
        rewrite Ln, app_length in CL. cbn [length] in CL.
        assert (R' : runs (tcs_timed c') = true) by exact R. destruct (hd_most c' now C' R') as [B1 B2].
        assert (Bc : busy c' = busy c) by reflexivity. destruct (busy c') as [|[|?]] eqn:Bz.
        * destruct (tcs_slot c) as [s0|] eqn:Es.
          -- assert (1 <= N.of_nat (length (line c))) by (unfold line; rewrite Es; cbn [length]; lia). nia.
          -- nia.
        * specialize (B2 ltac:(discriminate)). nia.
        * unfold busy in Bz. destruct (l_out _); [destruct (runs _)|]; discriminate.
      + destruct (tcs_slot c) as [s0|] eqn:Es.
        * revert H. apply on_clock_same; [exact U| |reflexivity|now exists [j]]. unfold hd. cbn [c' tcs_slot]. now rewrite Es, Esl.
        * destruct H as (xs & l & H). exists xs, l. rewrite U. destruct (nth_call c i) as [[p' s'|p' u'|id' q' d' k'|k'|]|] eqn:Ei; try exact H.
          destruct H as (_ & r & Hr & _). unfold line in Hr. rewrite Es in Hr. destruct r; discriminate.
    - (* the loop has ended *)
      set (c' := mkTimedCalls _ _ _ _ _ _). assert (U : nth_call c' i = if Nat.eqb j i then Some (CReady (Ret Panic) now) else nth_call c i)
        by now apply (nth_call_update c j _ _ _ _ _ _ E).
      destruct (Nat.eqb_spec j i) as [->|Nji].
      + destruct H as (xs & l & H). rewrite E in H. destruct H as (Hw & Hb). pose proof (due_ask slack c now T i q d k since E) as Du.
        destruct (over_clock xs l q d k Panic now Hw) as (xs' & l' & Hw' & Hb'); [lia|]. exists xs', l'. rewrite U. now split.
      + revert H. apply on_clock_same; [exact U|reflexivity..|]. exists []. now rewrite app_nil_r.
    - set (c' := mkTimedCalls _ _ _ _ _ _). assert (U : nth_call c' i = if Nat.eqb j i then Some (CAsleep p' (now + m)) else nth_call c i)
        by now apply (nth_call_update c j _ _ _ _ _ _ E).
      destruct (Nat.eqb_spec j i) as [->|Nji].
      + destruct H as (xs & l & H). rewrite E in H. destruct H as (Hw & Hb). pose proof (due_nap slack c now T i m p' since E) as Du.
        exists xs, (l ++ [DSleep m]). rewrite U. split; [now apply walk_nap|]. rewrite weigh_app. cbn [weigh fold_right]. lia.
      + revert H. apply on_clock_same; [exact U|reflexivity..|]. exists []. now rewrite app_nil_r.
    - set (c' := mkTimedCalls _ _ _ _ _ _). assert (U : nth_call c' i = if Nat.eqb j i then Some (CReady p' now) else nth_call c i)
        by now apply (nth_call_update c j _ _ _ _ _ _ E).
      destruct (Nat.eqb_spec j i) as [->|Nji].
      + destruct H as (xs & l & H). rewrite E in H. destruct H as (Hw & Hb). pose proof (due_asleep slack c now T i p' until E) as Du.
        exists xs, l. rewrite U. split; [exact Hw|]. lia.
      + revert H. apply on_clock_same; [exact U|reflexivity..|]. exists []. now rewrite app_nil_r.
    - (* puts its request into the channel *)
      set (c' := mkTimedCalls _ _ _ _ _ _). pose proof (due_push slack c now T j g b id q d k Es E) as Du.
      assert (U : nth_call c' i = nth_call c i).
      { unfold c'. rewrite (nth_call_update c j _ _ _ _ _ _ E). destruct (Nat.eqb_spec j i) as [<-|]; [now rewrite E|reflexivity]. }
      destruct H as (xs & l & H). exists xs, l. rewrite U. destruct (nth_call c i) as [[p' s'|p' u'|id' q' d' k'|k'|]|]; try exact H.
      destruct H as (Hw & r & Hr & Hb). split; [exact Hw|]. exists r. split; [unfold line in *; rewrite Es in Hr; exact Hr|].
      assert (hd c' <= hd c); [|lia]. unfold hd, c'. cbn [tcs_slot sl_since sl_sent]. rewrite Es. cbn [sl_since sl_sent].
      change (fin (mkTimedCalls (tcs_timed c) (tcs_free c) (tcs_counter c) (Some (mkSlot j true now false)) (tcs_waiters c) (update j (CQueued id q d k) (tcs_calls c))))
        with (fin c). lia.
    - (* the loop takes a request *)
      assert (R : l_status (tm_loop (tcs_timed c)) = Running).
      { destruct (runs (tcs_timed c)) eqn:R; [now apply runs_true|]. apply runs_false in R. pose proof (sh_stop c S R). congruence. }
      pose proof (take_does (tcs_timed c) now (N.of_nat j) (host_request id q d) io g R O) as D. fold r in D.
      pose proof (hd_now c now _ T S Es) as Hn.
      set (c' := then_calls _ _ _ _ _ _ _) in *.
      assert (U : nth_call c' i = option_map (hears_one (fst r) now (snd r) i) (if Nat.eqb j i then Some (CPending k) else nth_call c i)).
      { unfold c'. rewrite then_nth, nth_update. unfold nth_call in E. now rewrite E. }
      assert (F : runs (fst r) = true -> fin c' <= now + once).
      { intro Rr. pose proof (fin_most c' now C' ltac:(unfold c'; now thens)) as F. pose proof (busy_one c'). assert (N.of_nat (busy c') <= 1) by lia. nia. }
      assert (Lc : line c = j :: tcs_waiters c) by (unfold line; now rewrite Es).
      destruct H as (xs & l & H). destruct (Nat.eqb_spec j i) as [->|Nji].
      + rewrite E in H. destruct H as (Hw & r0 & Hr & Hb).
        assert (r0 = 0%nat) as ->.
        { pose proof (sh_nodup c S) as Nd. rewrite NoDup_nth_error in Nd. apply Nd; [apply nth_error_Some; congruence|]. rewrite Hr, Lc. reflexivity. }
        cbn [option_map hears_one] in U. destruct (answer_for (N.of_nat i) (snd r)) as [x|].
        * destruct (over_clock xs l q d k x now Hw) as (xs' & l' & Hw' & Hb'); [lia|]. exists xs', l'. rewrite U. now split.
        * destruct (runs (fst r)) eqn:Rr.
          -- exists xs, l. rewrite U. exists q, d. split; [exact Hw|]. specialize (F eq_refl). lia.
          -- destruct (over_clock xs l q d k Panic now Hw) as (xs' & l' & Hw' & Hb'); [lia|]. exists xs', l'. rewrite U. now split.
      + destruct (nth_call c i) as [[p' s'|p' u'|id' q' d' k'|k'|]|] eqn:Ei; cbn [option_map hears_one] in U; [exists xs, l; rewrite U; exact H..| | |destruct H|destruct H].
        * destruct H as (Hw & r0 & Hr & Hb). destruct r0 as [|r0]; [rewrite Lc in Hr; injection Hr as ->; congruence|].
          rewrite Lc in Hr. cbn [nth_error] in Hr. destruct (runs (fst r)) eqn:Rr.
          -- exists xs, l. rewrite U. split; [exact Hw|]. exists r0.
             assert (Lc' : line c' = tcs_waiters c).
             { unfold line, c', next_slot. thens. rewrite Rr. now destruct (tcs_waiters c). }
             split; [now rewrite Lc'|]. assert (B : hd c' <= now + W1).
             { specialize (F eq_refl). unfold hd. unfold c' at 1. thens. rewrite Rr. unfold next_slot. destruct (tcs_waiters c) as [|j0 ws]; cbn [sl_since sl_sent]; lia. }
             nia.
          -- destruct (over_clock xs l q' d' k' Panic now Hw) as (xs' & l' & Hw' & Hb'); [nia|]. exists xs', l'. rewrite U. now split.
        * destruct (sh_pending c S i k' Ei) as (o & [_ Ho] & _). congruence.
    - (* the loop does something else *)
      set (c' := then_calls _ _ _ _ _ _ _) in *. pose proof (fin_loop c last now e C T P _ (tcs_counter c) (tcs_slot c) (tcs_waiters c) (tcs_calls c) eq_refl) as F.
      fold r in F. fold c' in F.
      assert (U : nth_call c' i = option_map (hears_one (fst r) now (snd r) i) (nth_call c i)) by (unfold c'; now thens).
      destruct H as (xs & l & H). destruct (nth_call c i) as [[p' s'|p' u'|id' q' d' k'|k'|]|] eqn:Ei; cbn [option_map hears_one] in U; [exists xs, l; rewrite U; exact H..| | |destruct H|destruct H].
      + destruct H as (Hw & r0 & Hr & Hb).
        assert (exists s0, tcs_slot c = Some s0) as (s0 & Es) by (unfold line in Hr; destruct (tcs_slot c) as [s0|]; [now exists s0|destruct r0; discriminate]).
        pose proof (hd_now c now _ T S Es) as Hn. destruct (runs (fst r)) eqn:Rr.
        * exists xs, l. rewrite U. split; [exact Hw|]. exists r0. specialize (F eq_refl). split.
          -- unfold line, c' in *. thens. now rewrite Rr.
          -- assert (hd c' <= hd c); [|lia]. unfold hd. unfold c' at 1. thens. rewrite Rr, Es. lia.
        * destruct (over_clock xs l q' d' k' Panic now Hw) as (xs' & l' & Hw' & Hb'); [nia|]. exists xs', l'. rewrite U. now split.
      + destruct H as (q & d & Hw & Hb). destruct (sh_pending c S i k' Ei) as (o & Ho & Ht).
        pose proof (due_tick slack c now T o Ho) as Du. assert (Hn : now <= fin c) by (unfold fin; rewrite (proj2 Ho); nia).
        destruct (answer_for (N.of_nat i) (snd r)) as [x|].
        * destruct (over_clock xs l q d k' x now Hw) as (xs' & l' & Hw' & Hb'); [lia|]. exists xs', l'. rewrite U. now split.
        * destruct (runs (fst r)) eqn:Rr.
          -- exists xs, l. rewrite U. exists q, d. split; [exact Hw|]. specialize (F eq_refl). lia.
          -- destruct (over_clock xs l q d k' Panic now Hw) as (xs' & l' & Hw' & Hb'); [lia|]. exists xs', l'. rewrite U. now split.
    - set (c' := mkTimedCalls _ _ _ _ _ _) in *. assert (U : nth_call c' i = if Nat.eqb j i then Some CGone else nth_call c i)
        by now apply (nth_call_update c j _ _ _ _ _ _ E).
      destruct (Nat.eqb_spec j i) as [->|Nji]; [contradiction|].
      revert H. apply on_clock_same; [exact U|reflexivity..|]. exists []. now rewrite app_nil_r.
    - (* gives the place back *)
      set (c' := mkTimedCalls _ _ _ _ _ _) in *. pose proof (due_push slack c now T j g b id q d k Es E) as Du.
      assert (U : nth_call c' i = if Nat.eqb j i then Some CGone else nth_call c i) by now apply (nth_call_update c j _ _ _ _ _ _ E).
      destruct (Nat.eqb_spec j i) as [->|Nji]; [contradiction|].
      destruct H as (xs & l & H). exists xs, l. rewrite U. destruct (nth_call c i) as [[p' s'|p' u'|id' q' d' k'|k'|]|]; try exact H.
      destruct H as (Hw & r & Hr & Hb). split; [exact Hw|].
      assert (Lc : line c = j :: tcs_waiters c) by (unfold line; now rewrite Es). rewrite Lc in Hr. destruct r as [|r]; [injection Hr as ->; contradiction|].
      exists r. split.
      + unfold line, c', next_slot. cbn [tcs_slot tcs_waiters]. cbn [nth_error] in Hr. now destruct (tcs_waiters c).
      + assert (hd c' <= hd c + slack); [|nia]. unfold hd. rewrite Es. unfold c' at 1. cbn [tcs_slot]. change (fin c') with (fin c). cbn [sl_since sl_sent].
        unfold next_slot. destruct (tcs_waiters c); cbn [sl_since sl_sent]; lia.
    - (* leaves the line *)
      set (c' := mkTimedCalls _ _ _ _ _ _) in *.
      assert (U : nth_call c' i = if Nat.eqb j i then Some CGone else nth_call c i) by now apply (nth_call_update c j _ _ _ _ _ _ E).
      destruct (Nat.eqb_spec j i) as [->|Nji]; [contradiction|].
      destruct H as (xs & l & H). exists xs, l. rewrite U. destruct (nth_call c i) as [[p' s'|p' u'|id' q' d' k'|k'|]|]; try exact H.
      destruct H as (Hw & r & Hr & Hb). split; [exact Hw|].
      assert (Lc : line c' = filter (fun x => negb (Nat.eqb j x)) (line c)).
      { unfold line, c'. cbn [tcs_slot tcs_waiters]. rewrite Es. cbn [filter]. destruct (Nat.eqb_spec j (sl_call s)); [contradiction|reflexivity]. }
      destruct (nth_filter (fun x => negb (Nat.eqb j x)) (line c) r i Hr) as (r' & Hr' & Hl).
      { destruct (Nat.eqb_spec j i); [contradiction|reflexivity]. }
      exists r'. rewrite Lc. split; [exact Hr'|].
      assert (hd c' = hd c) as -> by (unfold hd; cbn [c' tcs_slot]; now rewrite Es). nia.
    - revert H. apply on_clock_same; [reflexivity| |reflexivity|].
      + unfold hd. cbn [tcs_slot]. now rewrite Es.
      + exists []. rewrite app_nil_r. unfold line. cbn [tcs_slot tcs_waiters sl_call]. now rewrite Es.
    - destruct (sh_pending c S j k E) as (o & Ho & Ht). destruct (gone_does (tcs_timed c) now o Ho) as (G1 & G2 & G3 & G4).
      set (c' := mkTimedCalls _ _ _ _ _ _) in *.
      assert (F : fin c' = fin c).
      { unfold fin, c'. cbn [tcs_timed]. rewrite (proj2 Ho), (proj2 G1), G2. reflexivity. }
      revert H. apply on_clock_same; [reflexivity| |exact F|].
      + unfold hd. cbn [c' tcs_slot]. now rewrite F.
      + exists []. now rewrite app_nil_r.
  Qed.
End Clock.

(** ** Runs *)
Lemma calls_snoc {A} (c0 : timed_calls A) hs now h : calls_run c0 (hs ++ [(now, h)]) = calls_step (calls_run c0 hs) now h.
Proof. unfold calls_run. now rewrite fold_left_app. Qed.
Lemma shape_run {A} (c : timed_calls A) hs : shape c -> shape (calls_run c hs).
Proof. revert c. induction hs as [|[now h] hs IH]; intros c S; [exact S|]. apply IH. now apply shape_step. Qed.
Definition latest (hs : list (N * occurrence)) : N := match rev hs with [] => 0 | (now, _) :: _ => now end.
Lemma latest_snoc hs x : latest (hs ++ [x]) = fst x.
Proof. unfold latest. rewrite rev_app_distr. destruct x. reflexivity. Qed.
Lemma sorted_split {A} (R : A -> A -> Prop) a b : StronglySorted R (a ++ b) -> StronglySorted R a /\ StronglySorted R b /\ Forall (fun x => Forall (R x) b) a.
Proof.
  induction a as [|x a IH]; cbn [app]; intro H; [split; [constructor|]; now split|].
  inversion H as [|y l H1 H2]; subst. destruct (IH H1) as (I1 & I2 & I3). apply Forall_app in H2.
  split; [now constructor|]. split; [exact I2|]. now constructor.
Qed.
Lemma forward_snoc hs x : goes_forward (hs ++ [x]) -> goes_forward hs /\ latest hs <= fst x.
Proof.
  unfold goes_forward. rewrite map_app. intro H. destruct (sorted_split _ _ _ H) as (H1 & _ & H2). split; [exact H1|].
  destruct hs as [|y hs _] using rev_ind; [unfold latest; cbn; lia|]. rewrite latest_snoc. rewrite map_app in H2. apply Forall_app in H2.
  destruct H2 as [_ H2]. inversion H2 as [|? ? H3 _]. inversion H3. assumption.
Qed.
Lemma all_prefix {A} slack (c0 : timed_calls A) hs x : all_punctual slack c0 (hs ++ [x]) -> all_punctual slack c0 hs /\ on_time slack (calls_run c0 hs) (fst x).
Proof.
  intro H. split.
  - intros hs1 now h hs2 ->. apply (H hs1 now h (hs2 ++ [x])). now rewrite <- app_assoc.
  - destruct x as [now h]. exact (H hs now h [] eq_refl).
Qed.
Lemma crowd_prefix {A} w (c0 : timed_calls A) hs x : crowd_most w c0 (hs ++ [x]) -> crowd_most w c0 hs /\ crowd (calls_run c0 (hs ++ [x])) <= w.
Proof.
  intro H. split.
  - intros hs1 hs2 ->. apply (H hs1 (hs2 ++ [x])). now rewrite <- app_assoc.
  - apply (H (hs ++ [x]) []). now rewrite app_nil_r.
Qed.
Lemma clock_new {A} n_retries interval t id (ps : list (prog A * N)) : idle_timed n_retries interval t -> clock n_retries interval (calls_new t id ps) 0.
Proof.
  intros (s & t0 & es & H & -> & Ho). destruct (new_facts _ _ _ _ H) as [Fp Fl]. destruct (TimeProofs.inv_run _ _ _ _ 0 es H) as [Ip Il _ _].
  split; cbn [calls_new tcs_timed tcs_free tcs_slot]; [congruence|congruence|lia|discriminate|]. intros o [_ X]. congruence.
Qed.
Lemma idle_out n_retries interval t : idle_timed n_retries interval t -> l_out (tm_loop t) = None.
Proof. now intros (s & t0 & es & H & -> & Ho). Qed.
Lemma clock_run {A} n_retries interval t id (ps : list (prog A * N)) hs : idle_timed n_retries interval t -> goes_forward hs ->
  clock n_retries interval (calls_run (calls_new t id ps) hs) (latest hs).
Proof.
  intros I. induction hs as [|[now h] hs IH] using rev_ind; intro F; [now apply clock_new|].
  destruct (forward_snoc _ _ F) as [F1 F2]. rewrite calls_snoc, latest_snoc. apply (clock_step _ _ _ (latest hs)); [|now apply IH|exact F2].
  apply shape_run, shape_new. now apply (idle_out n_retries interval).
Qed.
Lemma hears_gone {A} t now out i (c : cstage A) : hears_one t now out i c = CGone -> c = CGone.
Proof.
  destruct c; cbn [hears_one]; try discriminate; try reflexivity.
  - destruct (runs t); discriminate.
  - destruct (answer_for _ out); [discriminate|]. destruct (runs t); discriminate.
Qed.
Lemma gone_step {A} (c : timed_calls A) now h i : nth_call (calls_step c now h) i = Some CGone -> nth_call c i = Some CGone \/ h = OcDrop i.
Proof.
  assert (U : forall j x (l : list (cstage A)), nth_error (update j x l) i = Some CGone -> x <> CGone \/ j <> i -> nth_error l i = Some CGone).
  { intros j x l X N. rewrite nth_update in X. destruct (Nat.eqb_spec j i) as [->|]; [|exact X]. destruct (nth_error l i); [|discriminate]. destruct N; congruence. }
  unfold calls_step, calls_does. destruct h as [j|io|e|j].
  - destruct (nth_error (tcs_calls c) j) as [[[x|q d k|m p] since|p until|id q d k|k|]|] eqn:E; cbn [fst snd]; try (now left).
    + destruct (now <? since); cbn [fst]; [now left|]. destruct (runs _); cbn [fst]; [destruct (tcs_slot c); cbn [fst]|];
        unfold nth_call; cbn [tcs_calls]; intro X; apply U in X; auto; left; discriminate.
    + destruct (now <? since); cbn [fst]; [now left|]. unfold nth_call; cbn [tcs_calls]; intro X; apply U in X; auto; left; discriminate.
    + destruct (until <=? now); cbn [fst]; [|now left]. unfold nth_call; cbn [tcs_calls]; intro X; apply U in X; auto; left; discriminate.
    + destruct (tcs_slot c) as [[j' [] g b]|]; cbn [fst]; try (now left). destruct (Nat.eqb j j'); cbn [fst]; [|now left].
      unfold nth_call; cbn [tcs_calls]; intro X; apply U in X; auto; left; discriminate.
  - destruct (l_out _); cbn [fst]; [now left|]. destruct (tcs_slot c) as [[j [] g b]|]; cbn [fst]; try (now left).
    destruct (nth_error (tcs_calls c) j) as [[ | |id q d k| |]|] eqn:E; cbn [fst]; try (now left).
    rewrite then_nth. intro X. apply some_map in X. destruct X as (y & X & Y). apply hears_gone in Y. subst y. apply U in X; auto. left. discriminate.
  - destruct e; cbn [fst]; try (now left); rewrite then_nth; intro X; apply some_map in X; destruct X as (y & X & Y); apply hears_gone in Y; subst y; now left.
  - destruct (Nat.eq_dec j i) as [->|N]; [now right|].
    destruct (nth_error (tcs_calls c) j) as [[[x|q d k|m p] since|p until|id q d k|k|]|] eqn:E; cbn [fst snd]; try (now left);
      try (unfold nth_call; cbn [tcs_calls]; intro X; apply U in X; auto).
    destruct (tcs_slot c) as [[j' b g b']|]; cbn [fst]; [|now left]. destruct (Nat.eqb j j'); [destruct b|]; cbn [fst]; try (now left);
      unfold nth_call; cbn [tcs_calls]; intro X; apply U in X; auto.
Qed.
Lemma gone_run {A} t id (ps : list (prog A * N)) i hs : nth_call (calls_run (calls_new t id ps) hs) i = Some CGone -> given_up i hs.
Proof.
  induction hs as [|[now h] hs IH] using rev_ind; intro X.
  - unfold nth_call in X. cbn in X. rewrite nth_error_map in X. destruct (nth_error ps i); discriminate.
  - rewrite calls_snoc in X. unfold given_up in *. rewrite map_app, in_app_iff. destruct (gone_step _ _ _ _ X) as [Y| ->]; [left; auto|right; now left].
Qed.
Lemma given_snoc i hs x : ~ given_up i (hs ++ [x]) -> ~ given_up i hs.
Proof. unfold given_up. rewrite map_app, in_app_iff. tauto. Qed.
Lemma on_clock_run {A} n_retries interval slack w t id (ps : list (prog A * N)) i p start hs : idle_timed n_retries interval t ->
  nth_error ps i = Some (p, start) -> goes_forward hs -> all_punctual slack (calls_new t id ps) hs -> ~ given_up i hs ->
  crowd_most w (calls_new t id ps) hs -> on_clock n_retries interval slack w p start i (calls_run (calls_new t id ps) hs).
Proof.
  intros I E. induction hs as [|[now h] hs IH] using rev_ind; intros F P G C.
  - exists [], []. unfold nth_call. cbn [calls_run fold_left calls_new tcs_calls]. rewrite nth_error_map, E. cbn [option_map fst snd]. split; [constructor|cbn; lia].
  - destruct (forward_snoc _ _ F) as [F1 F2]. destruct (all_prefix _ _ _ _ P) as [P1 P2]. destruct (crowd_prefix _ _ _ _ C) as [C1 C2].
    pose proof (given_snoc _ _ _ G) as G1.
    assert (G2 : nth_call (calls_run (calls_new t id ps) (hs ++ [(now, h)])) i <> Some CGone) by (intro X; apply G; now apply (gone_run t id ps)).
    rewrite calls_snoc in *.
    apply (on_clock_step n_retries interval slack w p start i _ (latest hs)); auto.
    + apply shape_run, shape_new. now apply (idle_out n_retries interval).
    + now apply clock_run.
Qed.
Lemma on_clock_late {A} n_retries interval slack w (p : prog A) start i c now : shape c -> on_time slack c now ->
  on_clock n_retries interval slack w p start i c -> ~ ended_call i c ->
  exists xs, now <= start + weigh (2 * slack) (2 * slack + w * (slack + attempts n_retries * (interval + slack))) (deeds (alone p script) (mkWorld xs 0 [])).
Proof.
  intros S T (xs & l & H) E. exists xs. pose proof (K_pos n_retries) as KP. set (wt := 2 * slack + _) in *.
  destruct (nth_call c i) as [[p' since|p' until|id q d k|k|]|] eqn:Ei; [| | | |destruct H|destruct H].
  - destruct H as (Hw & Hs). destruct (walk_deeds p xs l p' 0 Hw) as (rest & ->). rewrite !weigh_app.
    destruct p' as [x|q d k|m p']; cbn [next_deed weigh fold_right].
    + exfalso. apply E. now exists x, since.
    + pose proof (due_ask slack c now T i q d k since Ei). lia.
    + pose proof (due_nap slack c now T i m p' since Ei). lia.
  - destruct H as (Hw & Hs). destruct (walk_deeds p xs l p' 0 Hw) as (rest & ->). rewrite !weigh_app.
    pose proof (due_asleep slack c now T i p' until Ei). lia.
  - destruct H as (Hw & r & Hr & Hb). destruct (walk_deeds p xs l _ 0 Hw) as (rest & ->). rewrite !weigh_app. cbn [next_deed weigh fold_right].
    assert (exists s0, tcs_slot c = Some s0) as (s0 & Es) by (unfold line in Hr; destruct (tcs_slot c) as [s0|]; [now exists s0|destruct r; discriminate]).
    pose proof (hd_now n_retries interval slack c now _ T S Es). nia.
  - destruct H as (q & d & Hw & Hb). destruct (walk_deeds p xs l _ 0 Hw) as (rest & ->). rewrite !weigh_app. cbn [next_deed weigh fold_right].
    destruct (sh_pending c S i k Ei) as (o & Ho & Ht). pose proof (due_tick slack c now T o Ho) as Du.
    assert (Hn : now <= fin n_retries interval slack c) by (unfold fin; rewrite (proj2 Ho); nia). lia.
Qed.
Lemma ended_call_dec {A} i (c : timed_calls A) : ended_call i c \/ ~ ended_call i c.
Proof.
  unfold ended_call. destruct (nth_error (tcs_calls c) i) as [[[x|q d k|m p] since|p u|id q d k|k|]|]; [left; now exists x, since|right; intros (x & y & H); discriminate..].
Qed.
Lemma ends_in_time_among {st A} (c : forall St, (St -> Rpc -> St * reply) -> ctl (St := St) A) n pause k :
  denoted_as st c -> (forall St sp s, cost sp (s0 := s) (c St sp) n (pause + k * s)) -> in_time_among c n pause k.
Proof.
  intros [p0 D0] H. split; [now exists p0|]. intros p n_retries interval t id ps i start slack w hs now h D I E F P G C L.
  destruct (ended_call_dec i (calls_run (calls_new t id ps) hs)) as [En|En]; [exact En|]. exfalso.
  destruct (forward_snoc _ _ F) as [F1 F2]. destruct (all_prefix _ _ _ _ P) as [P1 P2].
  pose proof (on_clock_run n_retries interval slack w t id ps i p start hs I E F1 P1 G C) as O.
  assert (S : shape (calls_run (calls_new t id ps) hs)) by (apply shape_run, shape_new; now apply (idle_out n_retries interval)).
  destruct (on_clock_late _ _ _ _ p start i _ now S P2 O En) as (xs & B).
  assert (Ed : deeds (alone p script) (mkWorld xs 0 []) = deeds (c (list reply) script) (mkWorld xs 0 []))
    by (unfold deeds; now rewrite D).
  rewrite Ed, weigh_split in B. set (wt := 2 * slack + _) in *.
  pose proof (costs_from script (c _ script) n pause k (H _ script) wt (mkWorld xs 0 [])) as Hc.
  pose proof (pauses_from script (c _ script) n pause k (H _ script) (mkWorld xs 0 [])) as Hn. nia.
Qed.
Lemma query_in_time_among {P} reads (parse : Identifier -> list (list N) -> outcome DecodeError P) m n :
  In reads [vendor_reads; memory_reads; power_reads; monitor_reads; datapath_reads] -> n = 1 + total (reading reads) kinds ->
  in_time_among (fun St sp => parse_modules_by_identifier sp reads parse m) n 0 0.
Proof.
  intros H ->. apply (@ends_in_time_among true); [apply den_query|]. intros St sp s. apply cost_parse. pose proof short_all as S.
  rewrite Forall_forall in S. now apply S.
Qed.
Lemma calls_in_time_among m :
  in_time_among (fun St sp => leds sp m) 1 0 0 /\ in_time_among (fun St sp => ctl_status sp m) 1 0 0 /\
  in_time_among (fun St sp => extended_status sp m) 1 0 0 /\ in_time_among (fun St sp => mac_addrs sp) 1 0 0 /\
  (forall q, in_time_among (fun St sp => no_payload_request sp q) 1 0 0) /\ in_time_among (fun St sp => identifier sp m) 1 0 0 /\
  (forall rd, rd_len rd <= 255 -> in_time_among (fun St sp => ctl_read sp m rd) (1 + rounds (rd_len rd)) 0 0) /\
  (forall wr data, in_time_among (fun St sp => ctl_write sp m wr data) 2 0 0) /\
  in_time_among (fun St sp => reset sp m) 2 2000010 2 /\ in_time_among (fun St sp => power sp m) 6 0 0 /\
  in_time_among (fun St sp => set_power sp m PowerOff) 3 0 0 /\ (forall st, in_time_among (fun St sp => set_power sp m st) 20 2000010 2) /\
  in_time_among (fun St sp => vendor_info sp m) 27 0 0 /\ in_time_among (fun St sp => memory_model sp m) 9 0 0 /\
  in_time_among (fun St sp => monitors sp m) 33 0 0 /\ in_time_among (fun St sp => datapath sp m) 41 0 0.
Proof.
  pose proof (@ends_in_time_among true) as X.
  split; [apply X; [apply den_leds|intros; apply cost_leds]|].
  split; [apply X; [apply den_status|intros; apply cost_status]|].
  split; [apply X; [apply den_ext_status|intros; apply cost_ext]|].
  split; [apply X; [apply den_macs|intros; apply cost_macs]|].
  split; [intro; apply X; [apply den_ack|intros; apply cost_npr]|].
  split; [apply X; [apply den_identifier|intros; apply cost_identifier]|].
  split; [intros; apply X; [apply den_read|intros; now apply cost_read]|].
  split; [intros; apply X; [apply den_write|intros; apply cost_write]|].
  split; [apply X; [apply den_reset|intros; apply cost_reset]|].
  split; [apply X; [apply den_power|intros; apply cost_power]|].
  split; [apply X; [apply den_set_power|intros; apply cost_off]|].
  split; [intro; apply X; [apply den_set_power|intros; apply cost_set_power]|].
  split; [apply (query_in_time_among vendor_reads); [now left|vm_compute; reflexivity]|].
  split; [apply (query_in_time_among memory_reads); [right; now left|vm_compute; reflexivity]|].
  split; [apply (query_in_time_among monitor_reads); [do 3 right; now left|vm_compute; reflexivity]|].
  apply (query_in_time_among datapath_reads); [do 4 right; now left|vm_compute; reflexivity].
Qed.
