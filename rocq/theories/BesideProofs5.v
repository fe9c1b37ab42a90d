(** Calls beside a handler: the loop and the handler do what they do in C90 (C95). *)
From Coq Require Import Lia.
From Verif Require Export BesideProofs2.
From Verif Require Import Tac TimeProofs ConcProofs DuplexProofs DeadlineProofs CrowdProofs.
Import ListNotations.
Open Scope N_scope.

Definition nobody_left {A} (c : timed_calls A) : Prop := match tcs_slot c with Some s => sl_left s = false | None => True end.
Lemma left_next now ws : match next_slot now ws with Some s => sl_left s = false | None => True end.
Proof. destruct ws; [exact I|reflexivity]. Qed.
Lemma left_then {A} now free n r sl ws (l : list (cstage A)) : match sl with Some s => sl_left s = false | None => True end ->
  nobody_left (then_calls now free n r sl ws l) /\ tcs_timed (then_calls now free n r sl ws l) = fst r.
Proof. intro H. unfold nobody_left, then_calls. destruct r as [t out]. destruct (TimedCalls.runs t); cbn; [now split|now split]. Qed.

Lemma calls_as_loop {A} (c : timed_calls A) now o : nobody_left c -> (forall i, o <> OcDrop i) -> let c' := calls_step c now o in let out := snd (calls_does c now o) in
  nobody_left c' /\
  (tm_loop (tcs_timed c') = tm_loop (tcs_timed c) /\ out = [] /\ (forall x io, o <> OcLoop (EvHandler x io)) \/
   exists e, (o = OcLoop e \/ outside e = true /\ exists io, o = OcTake io) /\
     tm_loop (tcs_timed c') = fst (step (tm_loop (tcs_timed c)) e) /\ out = snd (step (tm_loop (tcs_timed c)) e)).
Proof.
  intros L D. unfold calls_step. destruct o as [i|io|e|i]; cbn [calls_does]; [..|now destruct (D i)].
  - assert (K : nobody_left c /\ (tm_loop (tcs_timed c) = tm_loop (tcs_timed c) /\ @nil output = [] /\ (forall x io, OcCall i <> OcLoop (EvHandler x io)) \/
      exists e, (OcCall i = OcLoop e \/ outside e = true /\ exists io, OcCall i = OcTake io) /\
     tm_loop (tcs_timed c) = fst (step (tm_loop (tcs_timed c)) e) /\ [] = snd (step (tm_loop (tcs_timed c)) e)))
      by (split; [exact L|left; repeat split; discriminate]).
    unfold nobody_left in *.
    destruct (nth_error (tcs_calls c) i) as [[[x|q d k|m p] since|p until|id q d k|k|]|]; try exact K.
    + destruct (now <? since); [exact K|]. destruct (TimedCalls.runs _); [destruct (tcs_slot c) as [s|]|]; cbn; (split; [try exact L; reflexivity|left; repeat split; discriminate]).
    + destruct (now <? since); [exact K|]. cbn. split; [exact L|left; repeat split; discriminate].
    + destruct (until <=? now); [|exact K]. cbn. split; [exact L|left; repeat split; discriminate].
    + destruct (tcs_slot c) as [[j [] g b]|] eqn:Es; try (cbn [fst snd]; rewrite Es; exact K). destruct (Nat.eqb i j); [|cbn [fst snd]; rewrite Es; exact K]. cbn. split; [reflexivity|left; repeat split; discriminate].
  - assert (K : nobody_left c /\ (tm_loop (tcs_timed c) = tm_loop (tcs_timed c) /\ @nil output = [] /\ (forall x io', OcTake io <> OcLoop (EvHandler x io')) \/
      exists e, (OcTake io = OcLoop e \/ outside e = true /\ exists io', OcTake io = OcTake io') /\
     tm_loop (tcs_timed c) = fst (step (tm_loop (tcs_timed c)) e) /\ [] = snd (step (tm_loop (tcs_timed c)) e)))
      by (split; [exact L|left; repeat split; discriminate]).
    destruct (l_out (tm_loop (tcs_timed c))); [exact K|]. destruct (tcs_slot c) as [[j [] g b]|] eqn:Es; try exact K.
    destruct (nth_error (tcs_calls c) j) as [[|? ?|id q d k| |]|]; try exact K. unfold nobody_left in L. rewrite Es in L. cbn in L. subst b. cbn [fst snd].
    destruct (left_then now now (tcs_counter c) (timed_step (tcs_timed c) now (EvRequest (N.of_nat j) (host_request id q d) io)) (next_slot now (tcs_waiters c))
      (tl (tcs_waiters c)) (update j (CPending k) (tcs_calls c)) (left_next _ _)) as [X Y]. split; [exact X|]. right. rewrite Y.
    exists (EvRequest (N.of_nat j) (host_request id q d) io). split; [right; split; [reflexivity|now exists io]|].
    unfold timed_step. destruct (step _ _). now split.
  - assert (K : nobody_left c /\ (tm_loop (tcs_timed c) = tm_loop (tcs_timed c) /\ @nil output = [] /\ ~ (exists x io, e = EvHandler x io)) ->
      nobody_left c /\ (tm_loop (tcs_timed c) = tm_loop (tcs_timed c) /\ @nil output = [] /\ (forall x io, OcLoop e <> OcLoop (EvHandler x io)) \/
      exists e', (OcLoop e = OcLoop e' \/ outside e' = true /\ exists io, OcLoop e = OcTake io) /\
     tm_loop (tcs_timed c) = fst (step (tm_loop (tcs_timed c)) e') /\ [] = snd (step (tm_loop (tcs_timed c)) e'))).
    { intros (H1 & _ & _ & H2). split; [exact H1|left]. repeat split. intros x io [= E]. apply H2. now exists x, io. }
    assert (P : (exists tag r io, e = EvRequest tag r io) \/ e = EvClosed \/ e = EvCallerGone \/
      match e with EvRequest _ _ _ | EvClosed | EvCallerGone => False | _ => True end) by (destruct e; eauto 6).
    destruct P as [(tag & r & io & ->)|[->|[->|P]]]; try (apply K; (split; [exact L|]); repeat split; intros (? & ? & ?); discriminate). clear K.
    assert (G : calls_does c now (OcLoop e) = (let r := timed_step (tcs_timed c) now e in
      (then_calls now (match l_out (tm_loop (tcs_timed c)), l_out (tm_loop (fst r)) with Some _, None => now | _, _ => tcs_free c end) (tcs_counter c) r (tcs_slot c) (tcs_waiters c) (tcs_calls c), snd r)))
      by (destruct e; try contradiction; reflexivity). cbv zeta in G. cbn [calls_does] in G. rewrite G. cbn [fst snd].
    destruct (left_then now (match l_out (tm_loop (tcs_timed c)), l_out (tm_loop (fst (timed_step (tcs_timed c) now e))) with Some _, None => now | _, _ => tcs_free c end)
      (tcs_counter c) (timed_step (tcs_timed c) now e) (tcs_slot c) (tcs_waiters c) (tcs_calls c) L) as [X Y]. split; [exact X|]. rewrite Y.
    assert (Z : tm_loop (fst (timed_step (tcs_timed c) now e)) = fst (step (tm_loop (tcs_timed c)) e) /\ snd (timed_step (tcs_timed c) now e) = snd (step (tm_loop (tcs_timed c)) e) \/
      (exists io, e = EvTick io) /\ timed_step (tcs_timed c) now e = (tcs_timed c, [])).
    { unfold timed_step. destruct e; try (left; destruct (step _ _); now split).
      destruct (l_out (tm_loop (tcs_timed c))); [destruct (now <? _)|]; try (right; split; [now eexists|reflexivity]). left. destruct (step _ _); now split. }
    destruct Z as [[Z1 Z2]|[[io ->] Z]]; [right; exists e; split; [now left|now split]|left]. rewrite Z. repeat split. discriminate.
Qed.

Lemma as_moves {A} hd (b : beside A) now h : nobody_left (bs_calls b) -> (forall i, h <> HpCalls (OcDrop i)) ->
  nobody_left (bs_calls (beside_step hd b now h)) /\ exists ms, duplex_run hd (as_duplex b) ms = (as_duplex (beside_step hd b now h), snd (beside_does hd b now h)).
Proof.
  intros L D. unfold beside_step.
  assert (Stay : nobody_left (bs_calls b) /\ exists ms, duplex_run hd (as_duplex b) ms = (as_duplex b, [])) by (split; [exact L|now exists []]).
  assert (One : forall m d os, duplex_step hd (as_duplex b) m = (d, os) -> duplex_run hd (as_duplex b) [m] = (d, os)) by (intros m d os E; cbn; rewrite E; now rewrite app_nil_r).
  assert (It : forall o out, bs_wait b = None -> (forall i, o <> OcDrop i) -> (forall e, o = OcLoop e -> outside e = true /\ out = bs_out b \/ exists x io, e = EvHandler x io /\ bs_out b = x :: out) ->
    ((forall e, o <> OcLoop e) -> out = bs_out b) ->
    nobody_left (bs_calls (fst (beside_iterate hd b now o out))) /\ exists ms, duplex_run hd (as_duplex b) ms = (as_duplex (fst (beside_iterate hd b now o out)), snd (beside_iterate hd b now o out))).
  { intros o out W Do He Ho. destruct (calls_as_loop (bs_calls b) now o L Do) as [L' C]. unfold calls_step in L', C. unfold beside_iterate.
    destruct (calls_does (bs_calls b) now o) as [cs os]. cbn [fst snd] in L', C.
    assert (Lq : nobody_left (bs_calls (fst (match dispatch_of os with
      | Some r => if room (hd_in hd) (bs_in b) then (mkBeside cs (bs_in b ++ [r]) (bs_wait b) (bs_reply b) out (bs_last b) (bs_freed b), os)
        else (mkBeside cs (bs_in b) (Some r) (bs_reply b) out now (bs_freed b), os)
      | None => (mkBeside cs (bs_in b) (bs_wait b) (bs_reply b) out (bs_last b) (bs_freed b), os) end)))) by (destruct (dispatch_of os); [destruct (room _ _)|]; exact L').
    split; [exact Lq|]. destruct C as [(C1 & C2 & C3)|(e & Ce & C1 & C2)].
    - subst os. exists []. assert (Q : out = bs_out b).
      { destruct o as [i|io|e|i]; try (apply Ho; discriminate). destruct (He e eq_refl) as [[_ X]|(x & io & X & _)]; [exact X|]. subst e. now destruct (C3 x io). }
      subst out. unfold as_duplex. cbn. now rewrite C1.
    - assert (Q : outside e = true /\ out = bs_out b \/ exists x io, e = EvHandler x io /\ bs_out b = x :: out).
      { destruct Ce as [->|[X [io ->]]]; [now apply He|]. left. split; [exact X|]. apply Ho. discriminate. }
      destruct Q as [[Q ->]|(x & io & -> & Q)].
      + exists [MvLoop e]. apply One. cbn [duplex_step as_duplex dx_wait dx_out]. rewrite W, Q. unfold iterate. cbn [dx_loop dx_in dx_reply as_duplex].
        destruct (step (tm_loop (tcs_timed (bs_calls b))) e) as [s o1]. cbn [fst snd] in C1, C2. subst o1 s.
        destruct (dispatch_of os); [destruct (room _ _)|]; cbn; unfold as_duplex; cbn; now rewrite ?W.
      + exists [MvReply io]. apply One. cbn [duplex_step as_duplex dx_wait dx_out]. rewrite W, Q. unfold iterate. cbn [dx_loop dx_in dx_reply as_duplex].
        destruct (step (tm_loop (tcs_timed (bs_calls b))) (EvHandler x io)) as [s o1]. cbn [fst snd] in C1, C2. subst o1 s.
        destruct (dispatch_of os); [destruct (room _ _)|]; cbn; unfold as_duplex; cbn; now rewrite ?W. }
  destruct h as [o|io| | |]; cbn [beside_does].
  - assert (Do : forall i, o <> OcDrop i) by (intros i ->; now apply (D i)). destruct (bs_wait b) as [r|] eqn:W.
    + destruct o as [i|io|e|i]; cbn [by_loop]; try exact Stay; [|now destruct (Do i)].
      destruct (calls_as_loop (bs_calls b) now (OcCall i) L Do) as [L' C]. unfold calls_step in L', C. unfold beside_iterate.
      destruct (calls_does (bs_calls b) now (OcCall i)) as [cs os]. cbn [fst snd] in L', C.
      destruct C as [(C1 & -> & _)|(e & [Ce|[_ [io Ce]]] & _)]; try discriminate. cbn. split; [exact L'|]. exists []. unfold as_duplex. cbn. now rewrite C1, W.
    + destruct (not_handler o) eqn:Nh; [|exact Stay]. apply It; [reflexivity|exact Do| |reflexivity]. intros e ->. now left.
  - destruct (bs_wait b) as [r|] eqn:W; [exact Stay|]. destruct (bs_out b) as [|x rest] eqn:O; [exact Stay|]. apply It; [reflexivity|discriminate| |].
    + intros e [= <-]. right. now exists x, io.
    + intro X. now destruct (X (EvHandler x io)).
  - destruct (bs_wait b) as [r|] eqn:W; [|exact Stay]. destruct (room _ _) eqn:R; [|exact Stay]. split; [exact L|]. exists [MvPut]. apply One.
    cbn [duplex_step as_duplex dx_wait dx_in]. now rewrite W, R.
  - destruct (bs_reply b) as [x|] eqn:R; [exact Stay|]. destruct (bs_in b) as [|r rest] eqn:I; [exact Stay|]. split; [exact L|]. exists [MvTake]. apply One.
    cbn [duplex_step as_duplex dx_reply dx_in]. now rewrite R, I.
  - destruct (bs_reply b) as [x|] eqn:R; [|exact Stay].
    destruct (TimedCalls.runs (tcs_timed (bs_calls b))) eqn:Rn; [destruct (room (hd_out hd) (bs_out b)) eqn:Ro; [|exact Stay]|];
      (split; [exact L|]); exists [MvGive]; apply One; cbn [duplex_step as_duplex dx_reply dx_loop dx_out]; rewrite R; unfold TimedCalls.runs in Rn; destruct (l_status _); try discriminate Rn; now rewrite ?Ro.
Qed.
Lemma duplex_app hd a : forall d b, duplex_run hd d (a ++ b) =
  (fst (duplex_run hd (fst (duplex_run hd d a)) b), snd (duplex_run hd d a) ++ snd (duplex_run hd (fst (duplex_run hd d a)) b)).
Proof.
  induction a as [|m a IH]; intros d b; cbn; [now destruct (duplex_run hd d b)|]. destruct (duplex_step hd d m) as [d1 o1]. rewrite IH.
  destruct (duplex_run hd d1 a) as [d2 o2]. cbn. now rewrite app_assoc.
Qed.
Lemma beside_is_duplex {A} hd t id (ps : list (prog A * N)) ins busy outs hs : let b := beside_new t id ps ins busy outs in
  (forall i, ~ dropped i hs) -> exists ms, duplex_run hd (as_duplex b) ms = (as_duplex (beside_run hd b hs), beside_outputs hd b hs).
Proof.
  intro b. assert (L : nobody_left (bs_calls b)) by exact I. clearbody b. revert b L.
  induction hs as [|[now h] hs IH]; intros b L D; [now exists []|].
  destruct (as_moves hd b now h L) as [L1 [ms1 E1]]; [intros i ->; apply (D i); now left|].
  destruct (IH (beside_step hd b now h) L1) as [ms2 E2]; [intros i X; apply (D i); now right|].
  exists (ms1 ++ ms2). rewrite duplex_app, E1. cbn [fst snd]. rewrite E2. reflexivity.
Qed.
Lemma beside_in_order {A} hd n_retries interval start t id (ps : list (prog A * N)) hs : timed_new n_retries interval start = Ok t ->
  (forall i, ~ dropped i hs) -> let b := beside_new t id ps [] None [] in let b' := beside_run hd b hs in let os := beside_outputs hd b hs in
  exists es taken, run (loop_new n_retries) es = (tm_loop (tcs_timed (bs_calls b')), os) /\ dispatched os = taken ++ bs_in b' ++ one (bs_wait b') /\
    (TimedCalls.runs (tcs_timed (bs_calls b')) = true -> map (hd_reply hd) taken = served es ++ bs_out b' ++ one (bs_reply b')).
Proof.
  intros T D. cbv zeta. destruct (beside_is_duplex hd t id ps [] None [] hs D) as [ms E]. unfold timed_new in T. destruct (interval =? 0); [discriminate|]. injection T as <-.
  destruct (same_in_order hd n_retries ms _ _ E) as (es & taken & H1 & H2 & H3). exists es, taken. split; [exact H1|]. split; [exact H2|]. intro R. apply H3.
  cbn [as_duplex dx_loop]. unfold TimedCalls.runs in R. now destruct (l_status _).
Qed.
