(** Calls made at the same time: what they return, and that they can always end (C92). *)
From Coq Require Import Lia Sorted.
From Verif Require Export SpecCrowd.
From Verif Require Import Tac TimeProofs CostProofs ProgProofs DeadlineProofs ConcProofs CrowdProofs.
Import ListNotations.
Open Scope N_scope.

(** ** What they return *)
Lemma replies_to_app i a b : replies_to i (a ++ b) = replies_to i a ++ replies_to i b.
Proof. unfold replies_to. apply flat_map_app. Qed.
Lemma none_to out i : replies_of out = [] -> replies_to i out = [].
Proof.
  induction out as [|o out IH]; [reflexivity|]. unfold replies_of, replies_to in *. cbn [flat_map]. intro H.
  apply app_eq_nil in H. destruct H as [H1 H2]. rewrite (IH H2). destruct o; try reflexivity. discriminate.
Qed.
Lemma one_to out x g : replies_of out = [x] -> answer_for g out = Some x -> forall i,
  replies_to i out = (if g =? N.of_nat i then [x] else []) /\ answer_for (N.of_nat i) out = (if g =? N.of_nat i then Some x else None).
Proof.
  intros H1 H2 i. induction out as [|o out IH]; [discriminate|]. unfold replies_of, replies_to in *. cbn [flat_map answer_for] in *.
  destruct o as [| |tag y| | | |]; cbn [app] in *; try (now apply IH).
  injection H1 as -> H1. fold (replies_of out) in H1. destruct (N.eqb_spec tag g) as [->|].
  - fold (replies_to i out). rewrite (none_to out i H1). rewrite (unheard out (N.of_nat i) H1). now destruct (g =? N.of_nat i).
  - rewrite (unheard out g H1) in H2. discriminate.
Qed.
Section Told.
  Context {A : Type} (p : prog A) (i : nat).
  Definition told_so (c : timed_calls A) (R : list reply) : Prop :=
    match nth_call c i with
    | Some (CReady p' _) => exists xs l, walk p xs l p' /\ (xs = R \/ (xs = R ++ [Panic] /\ p' = Ret Panic))
    | Some (CAsleep p' _) => exists l, walk p R l p'
    | Some (CQueued _ q d k) => exists l, walk p R l (Ask q d k)
    | Some (CPending k) => exists q d l, walk p R l (Ask q d k)
    | Some CGone => True
    | None => False
    end.
  Lemma told_same c c' R : nth_call c' i = nth_call c i -> told_so c R -> told_so c' R.
  Proof. unfold told_so. now intros ->. Qed.
  Lemma told_panic R l q d k : walk p R l (Ask q d k) -> exists xs l, walk p xs l (Ret Panic) /\ (xs = R \/ (xs = R ++ [Panic] /\ @Ret A Panic = Ret Panic)).
  Proof. intro Hw. exists (R ++ [Panic]), (l ++ [DRequest q d]). split; [exact (walk_ask p R l q d k Panic Hw)|now right]. Qed.
  Lemma told_heard R l q d k x : walk p R l (Ask q d k) ->
    exists xs l', walk p xs l' (heard k x) /\ (xs = R ++ [x] \/ (xs = (R ++ [x]) ++ [Panic] /\ heard k x = Ret Panic)).
  Proof. intro Hw. exists (R ++ [x]), (l ++ [DRequest q d]). split; [now apply walk_ask|now left]. Qed.
  Lemma told_step c now h R : shape c -> told_so c R -> told_so (calls_step c now h) (R ++ replies_to i (snd (calls_does c now h))).
  Proof.
    intros S H. pose proof (step_does c now h) as D. set (c2 := calls_step c now h) in *. clearbody c2.
    set (out := snd (calls_does c now h)) in *. clearbody out.
    destruct D as [|j q d k since sl n E Hs R1 c' Esl|j q d k since n E Hs R1|j m p' since E Hs|j p' until E Hs|j id q d k g b E Es|j s g id q d k io O Es E r|e P r
      |j y E Ny Hy|j id q d k g b E Es|j id q d k s E Es Ni|j id q d k g b E Es|j k E].
    all: try (change (replies_to i []) with (@nil reply); rewrite app_nil_r).
    - exact H.
    - assert (U : nth_call c' i = if Nat.eqb j i then Some (CQueued (tcs_counter c) q d k) else nth_call c i) by now apply (nth_call_update c j _ _ _ _ _ _ E).
      destruct (Nat.eqb_spec j i) as [->|]; [|now apply (told_same c)]. unfold told_so in *. rewrite U. rewrite E in H.
      destruct H as (xs & l & Hw & [->|[_ X]]); [now exists l|discriminate].
    - set (c' := mkTimedCalls _ _ _ _ _ _). assert (U : nth_call c' i = if Nat.eqb j i then Some (CReady (Ret Panic) now) else nth_call c i)
        by now apply (nth_call_update c j _ _ _ _ _ _ E).
      destruct (Nat.eqb_spec j i) as [->|]; [|now apply (told_same c)]. unfold told_so in *. rewrite U. rewrite E in H.
      destruct H as (xs & l & Hw & [->|[_ X]]); [now apply (told_panic R l q d k)|discriminate].
    - set (c' := mkTimedCalls _ _ _ _ _ _). assert (U : nth_call c' i = if Nat.eqb j i then Some (CAsleep p' (now + m)) else nth_call c i)
        by now apply (nth_call_update c j _ _ _ _ _ _ E).
      destruct (Nat.eqb_spec j i) as [->|]; [|now apply (told_same c)]. unfold told_so in *. rewrite U. rewrite E in H.
      destruct H as (xs & l & Hw & [->|[_ X]]); [|discriminate]. exists (l ++ [DSleep m]). now apply walk_nap.
    - set (c' := mkTimedCalls _ _ _ _ _ _). assert (U : nth_call c' i = if Nat.eqb j i then Some (CReady p' now) else nth_call c i)
        by now apply (nth_call_update c j _ _ _ _ _ _ E).
      destruct (Nat.eqb_spec j i) as [->|]; [|now apply (told_same c)]. unfold told_so in *. rewrite U. rewrite E in H.
      destruct H as (l & Hw). exists R, l. split; [exact Hw|now left].
    - apply (told_same c); [|exact H]. rewrite (nth_call_update c j _ _ _ _ _ _ E). destruct (Nat.eqb_spec j i) as [<-|]; [now rewrite E|reflexivity].
    - assert (R1 : l_status (tm_loop (tcs_timed c)) = Running).
      { destruct (runs (tcs_timed c)) eqn:R1; [now apply runs_true|]. apply runs_false in R1. pose proof (sh_stop c S R1). congruence. }
      pose proof (take_does (tcs_timed c) now (N.of_nat j) (host_request id q d) io g R1 O) as D. fold r in D.
      set (c' := then_calls _ _ _ _ _ _ _) in *.
      assert (U : nth_call c' i = option_map (hears_one (fst r) now (snd r) i) (if Nat.eqb j i then Some (CPending k) else nth_call c i)).
      { unfold c'. rewrite then_nth, nth_update. unfold nth_call in E. now rewrite E. }
      assert (V : (replies_to i (snd r) = [] /\ answer_for (N.of_nat i) (snd r) = None) \/
                  exists x, j = i /\ replies_to i (snd r) = [x] /\ answer_for (N.of_nat i) (snd r) = Some x).
      { destruct D as [g' D1 D2 D3|x D1 D2 D3|D1 D2].
        - left. split; [now apply none_to|now apply unheard].
        - destruct (one_to _ _ _ D3 D2 i) as [V1 V2]. destruct (N.eqb_spec (N.of_nat j) (N.of_nat i)); [|now left].
          right. exists x. split; [lia|now split].
        - left. split; [now apply none_to|now apply unheard]. }
      unfold told_so in *. rewrite U. destruct (Nat.eqb_spec j i) as [->|Nji].
      + rewrite E in H. destruct H as (l & Hw). cbn [option_map hears_one].
        destruct V as [[V1 V2]|(x & _ & V1 & V2)]; rewrite V1, V2.
        * rewrite app_nil_r. destruct (runs (fst r)); [now exists q, d, l|now apply (told_panic R l q d k)].
        * now apply (told_heard R l q d k x).
      + destruct V as [[V1 V2]|(x & V0 & _)]; [|contradiction]. rewrite V1, app_nil_r.
        destruct (nth_call c i) as [[p' s'|p' u'|id' q' d' k'|k'|]|] eqn:Ei; cbn [option_map hears_one]; try exact H.
        * destruct H as (l & Hw). destruct (runs (fst r)); [now exists l|now apply (told_panic R l q' d' k')].
        * destruct (sh_pending c S i k' Ei) as (o & [_ Ho] & _). congruence.
    - pose proof (loop_does (tcs_timed c) now e P) as D. fold r in D. set (c' := then_calls _ _ _ _ _ _ _) in *.
      assert (U : nth_call c' i = option_map (hears_one (fst r) now (snd r) i) (nth_call c i)) by (unfold c'; now thens).
      assert (V : (replies_to i (snd r) = [] /\ answer_for (N.of_nat i) (snd r) = None) \/
                  exists x k, nth_call c i = Some (CPending k) /\ replies_to i (snd r) = [x] /\ answer_for (N.of_nat i) (snd r) = Some x).
      { destruct D as [o o' D1 D2 D3 D4 D5|o x D1 D2 D3 D4|D1 D2|D1 D2 D3 D4].
        - left. split; [now apply none_to|now apply unheard].
        - destruct (one_to _ _ _ D4 D3 i) as [V1 V2]. destruct (N.eqb_spec (o_tag o) (N.of_nat i)) as [Ht|]; [|now left].
          right. destruct (sh_out c S o D1) as (j & k & X & Y). assert (j = i) as -> by lia. exists x, k. now split.
        - left. split; [now apply none_to|now apply unheard].
        - left. split; [now apply none_to|now apply unheard]. }
      unfold told_so in *. rewrite U. destruct V as [[V1 V2]|(x & k & V0 & V1 & V2)].
      + rewrite V1, app_nil_r. destruct (nth_call c i) as [[p' s'|p' u'|id' q' d' k'|k'|]|] eqn:Ei; cbn [option_map hears_one]; try exact H.
        * destruct H as (l & Hw). destruct (runs (fst r)); [now exists l|now apply (told_panic R l q' d' k')].
        * destruct H as (q & d & l & Hw). rewrite V2. destruct (runs (fst r)); [now exists q, d, l|now apply (told_panic R l q d k')].
      + rewrite V0 in *. cbn [option_map hears_one]. rewrite V1, V2. destruct H as (q & d & l & Hw). now apply (told_heard R l q d k x).
    - unfold told_so. rewrite (nth_call_update c j _ _ _ _ _ _ E). destruct (Nat.eqb_spec j i); [exact I|exact H].
    - unfold told_so. rewrite (nth_call_update c j _ _ _ _ _ _ E). destruct (Nat.eqb_spec j i); [exact I|exact H].
    - unfold told_so. rewrite (nth_call_update c j _ _ _ _ _ _ E). destruct (Nat.eqb_spec j i); [exact I|exact H].
    - exact H.
    - exact H.
  Qed.
  Lemma told_run hs : forall c R, shape c -> told_so c R -> told_so (calls_run c hs) (R ++ replies_to i (calls_outputs c hs)).
  Proof.
    induction hs as [|[now h] hs IH]; intros c R S T; cbn [calls_outputs calls_run fold_left fst snd].
    - cbn. rewrite app_nil_r. exact T.
    - rewrite replies_to_app, app_assoc. apply IH; [now apply shape_step|now apply told_step].
  Qed.
End Told.
Lemma returns_own {A} n_retries interval t id (ps : list (prog A * N)) i p start hs x at_ : idle_timed n_retries interval t ->
  nth_error ps i = Some (p, start) -> nth_error (tcs_calls (calls_run (calls_new t id ps) hs)) i = Some (CReady (Ret x) at_) ->
  forall n log, snd (alone p script (mkWorld (replies_to i (calls_outputs (calls_new t id ps) hs)) n log)) = x.
Proof.
  intros I Ep E n log.
  assert (S : shape (calls_new t id ps)) by (apply shape_new; now apply (idle_out n_retries interval)).
  assert (T : told_so p i (calls_new t id ps) []).
  { unfold told_so, nth_call. cbn [calls_new tcs_calls]. rewrite nth_error_map, Ep. exists [], []. split; [constructor|now left]. }
  apply (told_run p i hs _ _ S) in T. cbn [app] in T. unfold told_so, nth_call in T. rewrite E in T.
  destruct T as (xs & l & Hw & Hx). set (R := replies_to _ _) in *.
  destruct (walk_alone p xs l _ Hw [] n log) as (n' & log' & Q & _). rewrite app_nil_r in Q.
  transitivity (snd (alone p script (mkWorld xs n log))); [|now rewrite Q].
  destruct Hx as [-> |[-> _]]; [reflexivity|]. symmetry. apply script_end.
Qed.

(** ** What is due *)
Inductive is_due {A} (c : timed_calls A) : N -> Prop :=
| DueAsk i q d k since : nth_call c i = Some (CReady (Ask q d k) since) -> is_due c since
| DueNap i m p since : nth_call c i = Some (CReady (Nap m p) since) -> is_due c since
| DueWake i p until : nth_call c i = Some (CAsleep p until) -> is_due c until
| DuePush i g b id q d k : nth_call c i = Some (CQueued id q d k) -> tcs_slot c = Some (mkSlot i false g b) -> is_due c g
| DueTick o : waiting (tm_loop (tcs_timed c)) o -> is_due c (tm_deadline (tcs_timed c))
| DueTake i s b : l_status (tm_loop (tcs_timed c)) = Running -> l_out (tm_loop (tcs_timed c)) = None -> tcs_slot c = Some (mkSlot i true s b) ->
    is_due c (N.max s (tcs_free c)).
Lemma due_is {A} (c : timed_calls A) d : In d (all_due c) <-> is_due c d.
Proof.
  split.
  - unfold all_due. rewrite in_app_iff, in_flat_map. intros [(i & _ & H)|H].
    + unfold call_due in H. destruct (nth_error (tcs_calls c) i) as [[[x|q dt k|m p] since|p until|id q dt k|k|]|] eqn:E; try (now destruct H).
      * destruct H as [<-|[]]. now apply (DueAsk c i q dt k).
      * destruct H as [<-|[]]. now apply (DueNap c i m p).
      * destruct H as [<-|[]]. now apply (DueWake c i p).
      * destruct (tcs_slot c) as [[j [] g b]|] eqn:Es; cbn [sl_call sl_sent sl_since negb] in H; rewrite ?andb_false_r in H; try (now destruct H).
        destruct (Nat.eqb_spec j i) as [->|]; [|destruct H]. destruct H as [<-|[]]. now apply (DuePush c i g b id q dt k).
    + unfold loop_due in H. destruct (l_status (tm_loop (tcs_timed c))) eqn:R; try (now destruct H).
      destruct (l_out (tm_loop (tcs_timed c))) as [o|] eqn:O.
      * destruct H as [<-|[]]. now apply (DueTick c o).
      * destruct (tcs_slot c) as [[j [] g b]|] eqn:Es; try (now destruct H). destruct H as [<-|[]]. now apply (DueTake c j g b).
  - assert (L : forall i x, nth_call c i = Some x -> In i (seq 0 (length (tcs_calls c)))).
    { intros i x E. apply in_seq. split; [lia|]. cbn. apply nth_error_Some. unfold nth_call in E. congruence. }
    unfold all_due. rewrite in_app_iff, in_flat_map.
    intros [i q dt k since E|i m p since E|i p until E|i g b id q dt k E Es|o [R O]|i s b R O Es].
    1-4: left; exists i; split; [exact (L i _ E)|]; unfold nth_call in E; unfold call_due; rewrite E; try (now left).
    + rewrite Es. cbn. rewrite Nat.eqb_refl. now left.
    + right. unfold loop_due. rewrite R, O. now left.
    + right. unfold loop_due. rewrite R, O, Es. now left.
Qed.
Lemma on_time_is {A} slack (c : timed_calls A) now : on_time slack c now <-> forall d, is_due c d -> now <= d + slack.
Proof.
  unfold on_time. rewrite Forall_forall. split; intros H d Hd; apply H; now apply due_is.
Qed.
(** After a step in time everything is in time. *)
Lemma on_time_step {A} slack (c : timed_calls A) now h : shape c -> on_time slack c now -> on_time slack (calls_step c now h) now.
Proof.
  rewrite !on_time_is. intros S H. pose proof (step_does c now h) as D. set (c2 := calls_step c now h) in *. clearbody c2.
  assert (U0 : forall j x y n sl ws, nth_call c j = Some y -> forall i, nth_call (mkTimedCalls (tcs_timed c) (tcs_free c) n sl ws (update j x (tcs_calls c))) i =
    if Nat.eqb j i then Some x else nth_call c i) by (intros; now apply (nth_call_update c j x n _ sl ws y)).
  (* all that is due after is due before or since now *)
  enough (G : forall d, is_due c2 d -> is_due c d \/ now <= d).
  { intros d Hd. destruct (G d Hd) as [X|X]; [now apply H|lia]. }
  clear H. intros dd Hd.
  destruct D as [|j q d k since sl n E Hs R1 c' Esl|j q d k since n E Hs R1|j m p' since E Hs|j p' until E Hs|j id q d k g b E Es|j s g id q d k io O Es E r|e P r
      |j y E Ny Hy|j id q d k g b E Es|j id q d k s E Es Ni|j id q d k g b E Es|j k E].
  - now left.
  - specialize (U0 j (CQueued (tcs_counter c) q d k) _ n (Some sl) (match tcs_slot c with None => tcs_waiters c | Some _ => tcs_waiters c ++ [j] end) E). fold c' in U0.
    destruct Hd as [i q' d' k' since' X|i m' p' since' X|i p' until' X|i g b' id' q' d' k' X Y|o X|i s' b' X Y Z]; try rewrite U0 in X.
    + destruct (Nat.eqb j i); [discriminate|]. left. now apply (DueAsk c i q' d' k').
    + destruct (Nat.eqb j i); [discriminate|]. left. now apply (DueNap c i m' p').
    + destruct (Nat.eqb j i); [discriminate|]. left. now apply (DueWake c i p').
    + cbn [c' tcs_slot] in Y. injection Y as Y. subst sl. destruct (tcs_slot c) as [s0|] eqn:Es; [|discriminate].
      destruct (Nat.eqb_spec j i) as [->|].
      * destruct (sh_in c S i) as (? & ? & ? & ? & Z); [unfold line; rewrite Es; subst s0; now left|]. congruence.
      * left. apply (DuePush c i g b' id' q' d' k' X). congruence.
    + left. now apply (DueTick c o).
    + cbn [c' tcs_slot] in Z. injection Z as Z. subst sl. destruct (tcs_slot c) as [s0|] eqn:Es.
      * left. apply (DueTake c i s' b'); [exact X|exact Y|congruence].
      * right. injection Z as _ <- _. lia.
  - specialize (U0 j (CReady (Ret Panic) now) _ n (tcs_slot c) (tcs_waiters c) E).
    destruct Hd as [i q' d' k' since' X|i m' p' since' X|i p' until' X|i g b' id' q' d' k' X Y|o X|i s' b' X Y Z]; try (rewrite U0 in X; destruct (Nat.eqb j i); [discriminate|]); left.
    + now apply (DueAsk c i q' d' k').
    + now apply (DueNap c i m' p').
    + now apply (DueWake c i p').
    + now apply (DuePush c i g b' id' q' d' k').
    + now apply (DueTick c o).
    + now apply (DueTake c i s' b').
  - specialize (U0 j (CAsleep p' (now + m)) _ (tcs_counter c) (tcs_slot c) (tcs_waiters c) E).
    destruct Hd as [i q' d' k' since' X|i m' p0 since' X|i p0 until' X|i g b' id' q' d' k' X Y|o X|i s' b' X Y Z]; try (rewrite U0 in X; destruct (Nat.eqb j i)); try discriminate X.
    + left. now apply (DueAsk c i q' d' k').
    + left. now apply (DueNap c i m' p0).
    + right. injection X as _ <-. lia.
    + left. now apply (DueWake c i p0).
    + left. now apply (DuePush c i g b' id' q' d' k').
    + left. now apply (DueTick c o).
    + left. now apply (DueTake c i s' b').
  - specialize (U0 j (CReady p' now) _ (tcs_counter c) (tcs_slot c) (tcs_waiters c) E).
    destruct Hd as [i q' d' k' since' X|i m' p0 since' X|i p0 until' X|i g b' id' q' d' k' X Y|o X|i s' b' X Y Z]; try (rewrite U0 in X; destruct (Nat.eqb j i)); try discriminate X.
    + right. injection X as _ <-. lia.
    + left. now apply (DueAsk c i q' d' k').
    + right. injection X as _ <-. lia.
    + left. now apply (DueNap c i m' p0).
    + left. now apply (DueWake c i p0).
    + left. now apply (DuePush c i g b' id' q' d' k').
    + left. now apply (DueTick c o).
    + left. now apply (DueTake c i s' b').
  - specialize (U0 j (CQueued id q d k) _ (tcs_counter c) (Some (mkSlot j true now false)) (tcs_waiters c) E).
    destruct Hd as [i q' d' k' since' X|i m' p0 since' X|i p0 until' X|i g' b' id' q' d' k' X Y|o X|i s' b' X Y Z]; try (rewrite U0 in X; destruct (Nat.eqb j i)); try discriminate X.
    + left. now apply (DueAsk c i q' d' k').
    + left. now apply (DueNap c i m' p0).
    + left. now apply (DueWake c i p0).
    + discriminate Y.
    + discriminate Y.
    + left. now apply (DueTick c o).
    + right. cbn [tcs_slot] in Z. injection Z as _ <- _. lia.
  - assert (R : l_status (tm_loop (tcs_timed c)) = Running).
    { destruct (runs (tcs_timed c)) eqn:R1; [now apply runs_true|]. apply runs_false in R1. pose proof (sh_stop c S R1). congruence. }
    pose proof (take_does (tcs_timed c) now (N.of_nat j) (host_request id q d) io g R O) as D. fold r in D.
    assert (U : forall i, nth_error (update j (CPending k) (tcs_calls c)) i = if Nat.eqb j i then Some (CPending k) else nth_call c i).
    { intro i. rewrite nth_update. unfold nth_call in E. now rewrite E. }
    assert (V : forall i y, option_map (hears_one (fst r) now (snd r) i) (nth_error (update j (CPending k) (tcs_calls c)) i) = Some y ->
      (exists p0, y = CReady p0 now) \/ (nth_call c i = Some y) \/ y = CPending k).
    { intros i y. rewrite U. destruct (Nat.eqb j i).
      - cbn [option_map hears_one]. intros [= <-]. destruct (answer_for _ _) as [x|]; [left; now eexists|]. destruct (runs (fst r)); [now right; right|left; now eexists].
      - intro X. apply some_map in X. destruct X as (z & -> & <-). destruct z; cbn [hears_one]; auto; [destruct (runs (fst r)); [auto|left; now eexists]|].
        destruct (answer_for _ _) as [x|]; [left; now eexists|]. destruct (runs (fst r)); [now right; left|left; now eexists]. }
    destruct Hd as [i q' d' k' since' X|i m' p0 since' X|i p0 until' X|i g' b' id' q' d' k' X Y|o X|i s' b' X Y Z]; thens.
    + apply V in X. destruct X as [(p0 & X)|[X|X]]; [right; injection X as _ ->; lia|left; now apply (DueAsk c i q' d' k')|discriminate].
    + apply V in X. destruct X as [(p1 & X)|[X|X]]; [right; injection X as _ ->; lia|left; now apply (DueNap c i m' p0)|discriminate].
    + apply V in X. destruct X as [(p1 & X)|[X|X]]; [discriminate|left; now apply (DueWake c i p0)|discriminate].
    + right. destruct (runs (fst r)); [|discriminate]. unfold next_slot in Y. destruct (tcs_waiters c); [discriminate|]. injection Y as _ <- _. lia.
    + destruct D as [g' D1 D2 D3|x D1 D2 D3|D1 D2]; [right; rewrite D2; lia|destruct X; congruence|destruct X; contradiction].
    + destruct (runs (fst r)); [|discriminate]. unfold next_slot in Z. destruct (tcs_waiters c); discriminate.
  - pose proof (loop_does (tcs_timed c) now e P) as D. fold r in D.
    assert (V : forall i y, option_map (hears_one (fst r) now (snd r) i) (nth_error (tcs_calls c) i) = Some y -> (exists p0, y = CReady p0 now) \/ nth_call c i = Some y).
    { intros i y X. apply some_map in X. unfold nth_call. destruct X as (z & -> & <-). destruct z; cbn [hears_one]; auto; [destruct (runs (fst r)); [auto|left; now eexists]|].
      destruct (answer_for _ _) as [x|]; [left; now eexists|]. destruct (runs (fst r)); [now right|left; now eexists]. }
    destruct Hd as [i q' d' k' since' X|i m' p0 since' X|i p0 until' X|i g' b' id' q' d' k' X Y|o X|i s' b' X Y Z]; thens.
    + apply V in X. destruct X as [(p0 & X)|X]; [right; injection X as _ ->; lia|left; now apply (DueAsk c i q' d' k')].
    + apply V in X. destruct X as [(p1 & X)|X]; [right; injection X as _ ->; lia|left; now apply (DueNap c i m' p0)].
    + apply V in X. destruct X as [(p1 & X)|X]; [discriminate|left; now apply (DueWake c i p0)].
    + apply V in X. destruct X as [(p1 & X)|X]; [discriminate|]. left. destruct (runs (fst r)); [|discriminate]. now apply (DuePush c i g' b' id' q' d' k').
    + destruct D as [o1 o2 D1 D2 D3 D4 D5|o1 x D1 D2 D3 D4|D1 D2|D1 D2 D3 D4]; [|destruct X; congruence|destruct X; contradiction|destruct X; congruence].
      destruct D5 as [[_ ->]|(_ & _ & ->)]; [left; now apply (DueTick c o1)|right; lia].
    + destruct D as [o1 o2 D1 D2 D3 D4 D5|o1 x D1 D2 D3 D4|D1 D2|D1 D2 D3 D4].
      * destruct D2. congruence.
      * right. destruct D1 as [_ ->]. rewrite D2. lia.
      * contradiction.
      * left. rewrite D2. destruct (runs (fst r)); [|discriminate]. now apply (DueTake c i s' b').
  - specialize (U0 j CGone _ (tcs_counter c) (tcs_slot c) (tcs_waiters c) E).
    destruct Hd as [i q' d' k' since' X|i m' p0 since' X|i p0 until' X|i g' b' id' q' d' k' X Y|o X|i s' b' X Y Z]; try (rewrite U0 in X; destruct (Nat.eqb j i); [discriminate|]).
    + left. now apply (DueAsk c i q' d' k').
    + left. now apply (DueNap c i m' p0).
    + left. now apply (DueWake c i p0).
    + left. now apply (DuePush c i g' b' id' q' d' k').
    + left. now apply (DueTick c o).
    + left. now apply (DueTake c i s' b').
  - specialize (U0 j CGone _ (tcs_counter c) (next_slot now (tcs_waiters c)) (tl (tcs_waiters c)) E).
    destruct Hd as [i q' d' k' since' X|i m' p0 since' X|i p0 until' X|i g' b' id' q' d' k' X Y|o X|i s' b' X Y Z]; try (rewrite U0 in X; destruct (Nat.eqb j i); [discriminate|]).
    + left. now apply (DueAsk c i q' d' k').
    + left. now apply (DueNap c i m' p0).
    + left. now apply (DueWake c i p0).
    + right. cbn [tcs_slot] in Y. unfold next_slot in Y. destruct (tcs_waiters c); [discriminate|]. injection Y as _ <- _. lia.
    + left. now apply (DueTick c o).
    + cbn [tcs_slot] in Z. unfold next_slot in Z. destruct (tcs_waiters c); discriminate.
  - specialize (U0 j CGone _ (tcs_counter c) (Some s) (filter (fun j0 => negb (Nat.eqb j j0)) (tcs_waiters c)) E).
    destruct Hd as [i q' d' k' since' X|i m' p0 since' X|i p0 until' X|i g' b' id' q' d' k' X Y|o X|i s' b' X Y Z]; try (rewrite U0 in X; destruct (Nat.eqb j i); [discriminate|]).
    + left. now apply (DueAsk c i q' d' k').
    + left. now apply (DueNap c i m' p0).
    + left. now apply (DueWake c i p0).
    + left. cbn [tcs_slot] in Y. rewrite <- Es in Y. now apply (DuePush c i g' b' id' q' d' k').
    + left. now apply (DueTick c o).
    + left. cbn [tcs_slot] in Z. rewrite <- Es in Z. now apply (DueTake c i s' b').
  - destruct Hd as [i q' d' k' since' X|i m' p0 since' X|i p0 until' X|i g' b' id' q' d' k' X Y|o X|i s' b' X Y Z].
    + left. now apply (DueAsk c i q' d' k').
    + left. now apply (DueNap c i m' p0).
    + left. now apply (DueWake c i p0).
    + discriminate Y.
    + left. now apply (DueTick c o).
    + left. cbn [tcs_slot] in Z. injection Z as _ <- _. now apply (DueTake c j g b).
  - destruct (sh_pending c S j k E) as (o & Ho & Ht). destruct (gone_does (tcs_timed c) now o Ho) as (G1 & G2 & G3 & G4).
    destruct Hd as [i q' d' k' since' X|i m' p0 since' X|i p0 until' X|i g' b' id' q' d' k' X Y|o' X|i s' b' X Y Z].
    + left. now apply (DueAsk c i q' d' k').
    + left. now apply (DueNap c i m' p0).
    + left. now apply (DueWake c i p0).
    + left. now apply (DuePush c i g' b' id' q' d' k').
    + left. cbn [tcs_timed]. rewrite G2. now apply (DueTick c o).
    + cbn [tcs_timed] in Y. destruct G1. congruence.
Qed.
