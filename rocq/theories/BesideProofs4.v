(** Calls beside a handler can always end in time (C95). *)
From Coq Require Import Lia Sorted.
From Verif Require Export BesideProofs2.
From Verif Require Import Tac TimeProofs ConcProofs DuplexProofs DeadlineProofs CrowdProofs CrowdProofs2 CrowdProofs3.
Import ListNotations.
Open Scope N_scope.

(** ** What a call has to do is due no earlier than before *)
Definition cdue {A} (st : option (cstage A)) (sl : option slot) (i : nat) : list N :=
  match st with
  | Some (CReady (Ret _) _) => []
  | Some (CReady _ since) => [since]
  | Some (CAsleep _ until) => [until]
  | Some (CQueued _ _ _ _) => match sl with Some s => if Nat.eqb (sl_call s) i && negb (sl_sent s) then [sl_since s] else [] | None => [] end
  | _ => []
  end.
Lemma cdue_is {A} (c : timed_calls A) i : call_due c i = cdue (nth_call c i) (tcs_slot c) i.
Proof. reflexivity. Qed.
Definition newer (now : N) (a b : list N) : Prop := forall d, In d b -> now <= d \/ In d a.
Lemma newer_same now a : newer now a a.
Proof. intros d H. now right. Qed.
Lemma newer_hears {A} t now out i (st : option (cstage A)) sl : newer now (cdue st sl i) (cdue (option_map (hears_one t now out i) st) sl i).
Proof.
  destruct st as [[p since|p u|id q d k|k|]|]; cbn [option_map hears_one]; try apply newer_same.
  - destruct (runs t); [apply newer_same|]. intros d' [].
  - destruct (answer_for (N.of_nat i) out) as [x|].
    + intros d' H. left. destruct (heard k x); cbn in H; [contradiction|destruct H as [<-|[]]; lia..].
    + destruct (runs t); intros d' [].
Qed.
Lemma newer_trans now a b c : newer now a b -> newer now b c -> newer now a c.
Proof. intros H K d Hd. destruct (K d Hd) as [X|X]; [now left|now apply H]. Qed.
Lemma newer_next {A} now (st : option (cstage A)) sl ws i : newer now (cdue st sl i) (cdue st (next_slot now ws) i).
Proof.
  destruct st as [[p since|p u|id q d k|k|]|]; try apply newer_same. cbn. destruct ws as [|j ws]; cbn; [intros d' []|].
  destruct (Nat.eqb j i); cbn; intros d' H; [left; destruct H as [<-|[]]; lia|destruct H].
Qed.
Lemma newer_update {A} now i x (l : list (cstage A)) sl j : (nth_error l i <> None -> newer now (cdue (nth_error l i) sl i) (cdue (Some x) sl i)) ->
  newer now (cdue (nth_error l j) sl j) (cdue (nth_error (update i x l) j) sl j).
Proof.
  intro H. rewrite nth_update. destruct (Nat.eqb_spec i j) as [<-|]; [|apply newer_same].
  destruct (nth_error l i); [now apply H|apply newer_same].
Qed.
Lemma newer_then {A} now free n r sl ws (l : list (cstage A)) j a : newer now a (cdue (nth_error l j) sl j) ->
  newer now a (call_due (then_calls now free n r sl ws l) j).
Proof.
  intro H. rewrite cdue_is, then_nth. destruct r as [t out]. unfold then_calls. destruct (runs t) eqn:R; cbn [tcs_slot fst snd].
  - eapply newer_trans; [exact H|apply newer_hears].
  - eapply newer_trans; [eapply newer_trans; [exact H|apply (newer_hears t now out)]|].
    destruct (nth_error l j) as [[p since|p u|id q d k|k|]|]; cbn [option_map hears_one fst snd]; try apply newer_same.
    + rewrite R. apply newer_same.
    + destruct (answer_for _ _) as [x|]; [apply newer_same|rewrite R; apply newer_same].
Qed.
Lemma call_due_grows {A} (c : timed_calls A) now h i : shape c -> newer now (call_due c i) (call_due (calls_step c now h) i).
Proof.
  intro S. pose proof (step_does c now h) as D. set (c2 := calls_step c now h) in *. clearbody c2. rewrite (cdue_is c).
  assert (Q : forall j s, tcs_slot c = Some s -> sl_call s = j -> exists id q d k, nth_error (tcs_calls c) j = Some (CQueued id q d k)).
  { intros j s Es <-. apply (sh_in c S). unfold line. rewrite Es. now left. }
  destruct D as [|j q d k since sl n E L R c' Es|j q d k since n E L R|j m p since E L|j p u E L|j id q d k g b E Es|j s g id q d k io O Es E r|e P r|j y E W Y
                |j id q d k g b E Es|j id q d k s E Es Nj|j id q d k g b E Es|j k E]; unfold nth_call in *;
    try (apply newer_then); try (rewrite cdue_is; unfold nth_call; cbn [tcs_calls tcs_slot]); try apply newer_same.
  - subst c'. cbn [tcs_calls tcs_slot]. subst sl. rewrite nth_update. destruct (Nat.eqb_spec j i) as [<-|Nji].
    + rewrite E. destruct (tcs_slot c) as [s|] eqn:Es; cbn.
      * destruct (Nat.eqb_spec (sl_call s) j) as [Ej|]; [|intros d' []]. destruct (Q j s eq_refl Ej) as (? & ? & ? & ? & X). congruence.
      * rewrite Nat.eqb_refl. intros d' [].
    + destruct (tcs_slot c) as [s|] eqn:Es; [apply newer_same|]. destruct (nth_error (tcs_calls c) i) as [[| | | |]|]; try apply newer_same.
      cbn. destruct (Nat.eqb_spec j i); [contradiction|]. intros d' [].
  - apply newer_update. intros _ d' [].
  - apply newer_update. intros _ d' [<-|[]]. left. lia.
  - apply newer_update. intros _ d' H. left. destruct p; cbn in H; [contradiction|destruct H as [<-|[]]; lia..].
  - rewrite nth_update. destruct (Nat.eqb_spec j i) as [<-|Nji].
    + rewrite E. cbn. rewrite Nat.eqb_refl. intros d' [].
    + rewrite Es. destruct (nth_error (tcs_calls c) i) as [[| | | |]|]; try apply newer_same. cbn. destruct (Nat.eqb j i); intros d' [].
  - eapply newer_trans; [apply (newer_update now j (CPending k)); intros _ d' []|apply newer_next].
  - apply newer_update. intros _ d' [].
  - eapply newer_trans; [apply (newer_update now j CGone); intros _ d' []|apply newer_next].
  - rewrite Es. apply newer_update. intros _ d' [].
  - rewrite Es. destruct (nth_error (tcs_calls c) i) as [[| | | |]|]; try apply newer_same.
Qed.

(** ** In time so far *)
Definition served_yet {A} (slack lag : N) (hd : handler) (b : beside A) (now : N) : Prop :=
  (forall i d, In d (call_due (bs_calls b) i) -> now <= d + slack) /\
  (bs_wait b = None -> forall d, In d (loop_due (bs_calls b)) -> now <= N.max d (bs_freed b) + slack) /\
  (bs_wait b <> None -> now <= bs_last b + lag).
Lemma yet_iterate {A} slack lag hd (b : beside A) now o out : shape (bs_calls b) -> served_yet slack lag hd b now ->
  served_yet slack lag hd (fst (beside_iterate hd b now o out)) now.
Proof.
  intros S (H1 & H2 & H3). unfold beside_iterate. pose proof (fun i => call_due_grows (bs_calls b) now o i S) as C. pose proof (due_grows (bs_calls b) now o) as D.
  unfold calls_step in C, D. destruct (calls_does (bs_calls b) now o) as [cs os]. cbn [fst] in C, D.
  assert (Hc : forall i d, In d (call_due cs i) -> now <= d + slack).
  { intros i d Hd. destruct (C i d Hd) as [X|X]; [lia|now apply (H1 i)]. }
  assert (Hl : bs_wait b = None -> forall d, In d (loop_due cs) -> now <= N.max d (bs_freed b) + slack).
  { intros W d Hd. destruct (D d Hd) as [X|(d0 & X1 & X2)]; [lia|]. specialize (H2 W d0 X1). lia. }
  destruct (dispatch_of os); [destruct (room _ _)|]; unfold served_yet; cbn; (split; [exact Hc|]); split; auto; try discriminate. intros _. lia.
Qed.
Lemma yet_step {A} slack lag hd (b : beside A) now h : shape (bs_calls b) -> served_yet slack lag hd b now -> served_yet slack lag hd (beside_step hd b now h) now.
Proof.
  intros S H. pose proof H as (H1 & H2 & H3). unfold beside_step. destruct h as [o|io| | |]; cbn [beside_does].
  - destruct (bs_wait b); [destruct (by_loop o)|destruct (not_handler o)]; try exact H; now apply yet_iterate.
  - destruct (bs_wait b); [exact H|]. destruct (bs_out b); [exact H|]. now apply yet_iterate.
  - destruct (bs_wait b) as [r|] eqn:W; [|exact H]. destruct (room _ _); [|exact H]. split; [exact H1|]. split; cbn; [|congruence]. intros _ d _. lia.
  - destruct (bs_reply b); [exact H|]. destruct (bs_in b) eqn:I; [exact H|]. split; [exact H1|]. split; [exact H2|]. cbn. intro W. specialize (H3 W).
    unfold stamp. destruct (room _ _); lia.
  - destruct (bs_reply b); [|exact H].
    assert (X : forall out, served_yet slack lag hd (mkBeside (bs_calls b) (bs_in b) (bs_wait b) None out (stamp hd b now) (bs_freed b)) now).
    { intro out. split; [exact H1|]. split; [exact H2|]. cbn. intro W. specialize (H3 W). unfold stamp. destruct (room _ _); lia. }
    destruct (runs _); [|apply X]. destruct (room _ _); [apply X|exact H].
Qed.
Lemma served_is {A} slack lag hd (b : beside A) now h : ~ is_gram h -> ~ jammed hd b -> served_yet slack lag hd b now -> served_by slack lag hd b now h.
Proof. intros G J (H1 & H2 & H3). split; [exact H1|]. split; [intros W d Hd; split; [now apply H2|contradiction]|intros W _; now apply H3]. Qed.
Lemma is_served {A} slack lag hd (b : beside A) now h : ~ jammed hd b -> served_by slack lag hd b now h -> served_yet slack lag hd b now.
Proof. intros J (H1 & H2 & H3). split; [exact H1|]. split; [intros W d Hd; exact (proj1 (H2 W d Hd))|intro W; now apply H3]. Qed.

(** A way on from [b] at [last] to where [G] holds. *)
Definition way_on {A} (slack lag : N) (hd : handler) (b : beside A) (last : N) (G : beside A -> Prop) : Prop :=
  exists hs, StronglySorted N.le (last :: map fst hs) /\ all_served slack lag hd b hs /\ never_jammed hd b hs /\ (forall i, ~ dropped i hs) /\ G (beside_run hd b hs).
Lemma way_here {A} slack lag hd (b : beside A) last (G : beside A -> Prop) : ~ jammed hd b -> G b -> way_on slack lag hd b last G.
Proof.
  intros J H. exists []. split; [repeat constructor|]. split; [intros [|? ?] ? ? ? E; discriminate|].
  split; [intros [|? ?] hs2 E; [exact J|discriminate]|]. split; [intros i []|exact H].
Qed.
Lemma way_step {A} slack lag hd (b : beside A) last now h (G : beside A -> Prop) : last <= now -> ~ jammed hd b -> served_by slack lag hd b now h ->
  (forall i, h <> HpCalls (OcDrop i)) -> way_on slack lag hd (beside_step hd b now h) now G -> way_on slack lag hd b last G.
Proof.
  intros L J S N (hs & H1 & H2 & H3 & H4 & H5). exists ((now, h) :: hs). split; [|split; [|split; [|split; [|exact H5]]]].
  - cbn [map fst]. constructor; [exact H1|]. constructor; [exact L|]. inversion H1 as [|? ? _ X]. revert X. apply Forall_impl. intros; lia.
  - intros [|x hs1] n1 h1 hs2 Q; [injection Q as <- <- _; exact S|]. injection Q as <- Q. exact (H2 hs1 n1 h1 hs2 Q).
  - intros [|x hs1] hs2 Q; [exact J|]. injection Q as <- Q. exact (H3 hs1 hs2 Q).
  - intros i [X|X]; [now apply (N i)|now apply (H4 i)].
Qed.

Lemma unwaiting_unjammed {A} hd (b : beside A) : bs_wait b = None -> ~ jammed hd b.
Proof. intros W (J & _). now apply J. Qed.
Lemma calls_put {A} hd (b : beside A) r now : bs_wait b = Some r -> room (hd_in hd) (bs_in b) = true ->
  beside_step hd b now HpPut = mkBeside (bs_calls b) (bs_in b ++ [r]) None (bs_reply b) (bs_out b) now now.
Proof. intros W R. unfold beside_step. cbn [beside_does]. now rewrite W, R. Qed.
Lemma inner_served {A} slack lag hd (b : beside A) now h : (h = HpPut \/ h = HpTake \/ h = HpGive) -> ~ jammed hd b -> served_yet slack lag hd b now ->
  served_by slack lag hd b now h /\ forall i, h <> HpCalls (OcDrop i).
Proof.
  intros Hh J S. split; [apply served_is; try assumption; intros (p & d & io & E); destruct Hh as [->|[->| ->]]; discriminate|].
  intros i E. destruct Hh as [->|[->| ->]]; discriminate.
Qed.
(** The loop comes back. *)
Lemma way_back {A} slack lag hd (b : beside A) last (G : beside A -> Prop) : (1 <= hd_in hd)%nat -> (length (bs_in b) <= hd_in hd)%nat -> shape (bs_calls b) ->
  ~ jammed hd b -> served_yet slack lag hd b last ->
  (forall b', bs_wait b' = None -> bs_calls b' = bs_calls b -> served_yet slack lag hd b' last -> way_on slack lag hd b' last G) -> way_on slack lag hd b last G.
Proof.
  intros H1 Li Sh J S K. destruct (bs_wait b) as [r|] eqn:W; [|now apply K].
  assert (P : forall b', bs_wait b' = Some r -> bs_calls b' = bs_calls b -> room (hd_in hd) (bs_in b') = true -> served_yet slack lag hd b' last -> way_on slack lag hd b' last G).
  { intros b' W' C' R' S'. assert (J' : ~ jammed hd b') by (intros (_ & _ & X & _); apply Nat.ltb_lt in R'; lia).
    destruct (inner_served slack lag hd b' last HpPut (or_introl eq_refl) J' S') as [X Y].
    apply (way_step slack lag hd b' last last HpPut G (N.le_refl _) J' X Y). apply K.
    - now rewrite (calls_put hd b' r last W' R').
    - now rewrite (calls_put hd b' r last W' R').
    - apply yet_step; [now rewrite C'|exact S']. }
  assert (T : forall b', bs_wait b' = Some r -> bs_calls b' = bs_calls b -> (length (bs_in b') <= hd_in hd)%nat -> bs_reply b' = None -> served_yet slack lag hd b' last -> way_on slack lag hd b' last G).
  { intros b' W' C' L' R' S'. destruct (room (hd_in hd) (bs_in b')) eqn:Rm; [now apply P|].
    assert (J' : ~ jammed hd b') by (intros (_ & X & _); congruence).
    destruct (inner_served slack lag hd b' last HpTake (or_intror (or_introl eq_refl)) J' S') as [X Y].
    apply (way_step slack lag hd b' last last HpTake G (N.le_refl _) J' X Y).
    pose proof (yet_step slack lag hd b' last HpTake ltac:(now rewrite C') S') as S2.
    destruct (bs_in b') as [|x rest] eqn:I; [apply Nat.ltb_ge in Rm; cbn in Rm; lia|].
    assert (E : beside_step hd b' last HpTake = mkBeside (bs_calls b') rest (bs_wait b') (Some (hd_reply hd x)) (bs_out b') (stamp hd b' last) (bs_freed b')).
    { unfold beside_step. cbn [beside_does]. now rewrite R', I. }
    apply P; [now rewrite E|now rewrite E| |exact S2]. rewrite E. cbn. apply Nat.ltb_lt. cbn in L'. lia. }
  destruct (room (hd_in hd) (bs_in b)) eqn:Rm; [now apply P|]. destruct (bs_reply b) as [x|] eqn:R; [|now apply T].
  destruct (inner_served slack lag hd b last HpGive (or_intror (or_intror eq_refl)) J S) as [X Y].
  apply (way_step slack lag hd b last last HpGive G (N.le_refl _) J X Y).
  pose proof (yet_step slack lag hd b last HpGive Sh S) as S2.
  assert (E : exists out, beside_step hd b last HpGive = mkBeside (bs_calls b) (bs_in b) (bs_wait b) None out (stamp hd b last) (bs_freed b)).
  { unfold beside_step. cbn [beside_does]. rewrite R. destruct (runs _); [|eexists; reflexivity].
    destruct (room (hd_out hd) (bs_out b)) eqn:Ro; [eexists; reflexivity|]. exfalso. apply J. apply Nat.ltb_ge in Rm, Ro.
    split; [congruence|]. split; [congruence|]. now split. }
  destruct E as [out E]. apply T; [now rewrite E|now rewrite E|now rewrite E|now rewrite E|exact S2].
Qed.
(** Then everything due is done when it is due. *)
Lemma way_end {A} slack lag hd n : forall (b : beside A) last, (far (bs_calls b) < n)%nat -> shape (bs_calls b) -> bs_wait b = None ->
  served_yet slack lag hd b last -> way_on slack lag hd b last (fun b => all_ended (bs_calls b) /\ bs_wait b = None).
Proof.
  induction n as [|n IH]; intros b last B S W Y; [lia|]. pose proof (unwaiting_unjammed hd b W) as J.
  destruct (due_or_ended (bs_calls b) S) as [E|(d0 & D0)]; [now apply way_here|].
  destruct (least_due (bs_calls b) d0 D0) as (d & D & Min). set (now := N.max last d).
  destruct (nearer (bs_calls b) d now S D ltac:(lia)) as (h & Hf & Hs).
  assert (Y1 : served_yet slack lag hd b now).
  { destruct Y as (Y1 & Y2 & Y3).
    assert (M1 : forall i d', In d' (call_due (bs_calls b) i) -> d <= d').
    { intros i d' H. apply Min, due_is. unfold all_due. apply in_app_iff. left. apply in_flat_map. exists i. split; [|exact H].
      apply in_seq. split; [lia|]. cbn. unfold call_due in H. destruct (nth_error (tcs_calls (bs_calls b)) i) eqn:E; [|destruct H].
      apply nth_error_Some. congruence. }
    assert (M2 : forall d', In d' (loop_due (bs_calls b)) -> d <= d') by (intros d' H; apply Min, due_is; unfold all_due; apply in_app_iff; now right).
    split; [intros i d' H; specialize (Y1 i d' H); specialize (M1 i d' H); lia|]. split; [|congruence].
    intros _ d' H. specialize (Y2 W d' H). specialize (M2 d' H). lia. }
  assert (E : beside_step hd b now (HpCalls h) = mkBeside (calls_step (bs_calls b) now h) (bs_in b) None (bs_reply b) (bs_out b) (bs_last b) (bs_freed b)).
  { unfold beside_step. cbn [beside_does]. rewrite W.
    assert (Q : dispatched (snd (calls_does (bs_calls b) now h)) = []) by (apply quiet_calls; intros p dg io ->; exact Hs).
    apply none_dispatch in Q. replace (not_handler h) with true by (destruct h as [| |[]|]; try reflexivity; destruct Hs).
    unfold beside_iterate, calls_step. destruct (calls_does (bs_calls b) now h) as [cs os]. cbn [snd] in Q. rewrite Q, W. reflexivity. }
  apply (way_step slack lag hd b last now (HpCalls h)); [lia|exact J| | |].
  - apply served_is; try assumption. intros (p & dg & io & X). injection X as ->. exact Hs.
  - intros i X. injection X as ->. exact Hs.
  - pose proof (yet_step slack lag hd b now (HpCalls h) S Y1) as Y2. apply IH; [rewrite E; cbn; lia|rewrite E; now apply shape_step|now rewrite E|exact Y2].
Qed.

Lemma beside_length {A} hd (b : beside A) hs : length (tcs_calls (bs_calls (beside_run hd b hs))) = length (tcs_calls (bs_calls b)).
Proof.
  induction hs as [|[now h] hs IH] using rev_ind; [reflexivity|]. rewrite beside_run_snoc.
  destruct (followed hd (beside_run hd b hs) now h) as [[E _]|(o & E & _)]; rewrite E; [exact IH|]. now rewrite calls_length.
Qed.
Lemma beside_shape {A} hd (b : beside A) hs : shape (bs_calls b) -> shape (bs_calls (beside_run hd b hs)).
Proof.
  intro S. induction hs as [|[now h] hs IH] using rev_ind; [exact S|]. rewrite beside_run_snoc.
  destruct (followed hd (beside_run hd b hs) now h) as [[E _]|(o & E & _)]; rewrite E; [exact IH|]. now apply shape_step.
Qed.
Lemma beside_in {A} hd (b : beside A) hs : (length (bs_in b) <= hd_in hd)%nat -> (length (bs_in (beside_run hd b hs)) <= hd_in hd)%nat.
Proof.
  intro L. induction hs as [|[now h] hs IH] using rev_ind; [exact L|]. rewrite beside_run_snoc. set (b1 := beside_run hd b hs) in *. clearbody b1.
  assert (X : forall o out, (length (bs_in (fst (beside_iterate hd b1 now o out))) <= hd_in hd)%nat).
  { intros o out. unfold beside_iterate. destruct (calls_does (bs_calls b1) now o). destruct (dispatch_of _); [destruct (room _ _) eqn:R|]; cbn; try exact IH.
    rewrite app_length. cbn. apply Nat.ltb_lt in R. lia. }
  unfold beside_step. destruct h as [o|io| | |]; cbn [beside_does].
  - destruct (bs_wait b1); [destruct (by_loop o)|destruct (not_handler o)]; try exact IH; apply X.
  - destruct (bs_wait b1); [exact IH|]. destruct (bs_out b1); [exact IH|]. apply X.
  - destruct (bs_wait b1); [|exact IH]. destruct (room _ _) eqn:R; [|exact IH]. cbn. rewrite app_length. cbn. apply Nat.ltb_lt in R. lia.
  - destruct (bs_reply b1); [exact IH|]. destruct (bs_in b1) eqn:I; [cbn; now rewrite I|]. cbn in *. lia.
  - destruct (bs_reply b1); [|exact IH]. destruct (runs _); [destruct (room _ _)|]; exact IH.
Qed.
Lemma beside_gone {A} hd t id (ps : list (prog A * N)) ins busy outs i hs :
  nth_call (bs_calls (beside_run hd (beside_new t id ps ins busy outs) hs)) i = Some CGone -> dropped i hs.
Proof.
  induction hs as [|[now h] hs IH] using rev_ind; intro X.
  - unfold nth_call in X. cbn in X. rewrite nth_error_map in X. destruct (nth_error ps i); discriminate.
  - rewrite beside_run_snoc in X. unfold dropped in *. rewrite map_app, in_app_iff.
    destruct (followed hd (beside_run hd (beside_new t id ps ins busy outs) hs) now h) as [[E _]|(o & E & _ & D)]; rewrite E in X; [left; auto|].
    destruct (gone_step _ _ _ _ X) as [Y|Y]; [left; auto|]. right. left. now apply D.
Qed.
Lemma beside_can_end {A} n_retries interval slack lag hd t id (ps : list (prog A * N)) ins busy outs hs : let b := beside_new t id ps ins busy outs in
  idle_timed n_retries interval t -> (1 <= hd_in hd)%nat -> (length ins <= hd_in hd)%nat -> forward hs -> all_served slack lag hd b hs -> never_jammed hd b hs ->
  exists hs', forward (hs ++ hs') /\ all_served slack lag hd b (hs ++ hs') /\ never_jammed hd b (hs ++ hs') /\
    forall i, (i < length ps)%nat -> ended_call i (bs_calls (beside_run hd b (hs ++ hs'))) \/ dropped i hs.
Proof.
  intros b I H1 Li F S J.
  assert (Sh : shape (bs_calls (beside_run hd b hs))) by (apply beside_shape, shape_new; now apply (idle_out n_retries interval)).
  assert (Jn : ~ jammed hd (beside_run hd b hs)) by (apply (J hs []); now rewrite app_nil_r).
  assert (Y : exists last, served_yet slack lag hd (beside_run hd b hs) last /\ Forall (fun x => x <= last) (map fst hs)).
  { destruct hs as [|[now h] hs _] using rev_ind.
    - exists 0. split; [|constructor]. split; [intros; lia|]. split; intros; lia.
    - exists now. destruct (fwd_snoc _ _ _ F) as [F1 F2]. destruct (served_snoc _ _ _ _ _ _ _ S) as [S1 S2]. destruct (unjammed_snoc _ _ _ _ J) as [J1 J2].
      split; [|rewrite map_app; apply Forall_app; split; [exact F2|repeat constructor; cbn; lia]]. rewrite beside_run_snoc. apply yet_step.
      + apply beside_shape, shape_new. now apply (idle_out n_retries interval).
      + exact (is_served _ _ _ _ _ _ J2 S2). }
  destruct Y as (last & Y & Fl).
  destruct (way_back slack lag hd (beside_run hd b hs) last (fun b => all_ended (bs_calls b) /\ bs_wait b = None) H1 (beside_in hd b hs Li) Sh Jn Y) as (hs' & K1 & K2 & K3 & K4 & K5 & _).
  { intros b' W' C' Y'. apply (way_end slack lag hd (Datatypes.S (far (bs_calls b')))); [lia|now rewrite C'|exact W'|exact Y']. }
  assert (R : forall l, beside_run hd b (hs ++ l) = beside_run hd (beside_run hd b hs) l) by (intro l; unfold beside_run; now rewrite fold_left_app).
  exists hs'. split; [|split; [|split]].
  - unfold forward in *. rewrite map_app. inversion K1 as [|? ? G1 G2]; subst. clear - F Fl G1 G2. induction F as [|x l F IH Fx]; [exact G1|]. inversion Fl; subst.
    cbn [app]. constructor; [now apply IH|]. apply Forall_app. split; [exact Fx|]. revert G2. apply Forall_impl. intros; lia.
  - intros hs1 now h hs2 E. apply app_eq_app in E. destruct E as (l & [[E1 E2]|[E1 E2]]).
    + destruct l as [|x l]; cbn in E2.
      * rewrite app_nil_r in E1. subst hs1. specialize (K2 [] now h hs2 (eq_sym E2)). exact K2.
      * injection E2 as <- ->. apply (S hs1 now h l). now rewrite E1.
    + subst hs1. rewrite R. now apply (K2 l now h hs2).
  - intros hs1 hs2 E. apply app_eq_app in E. destruct E as (l & [[E1 E2]|[E1 E2]]).
    + now apply (J hs1 l).
    + subst hs1. rewrite R. now apply (K3 l hs2).
  - intros i Hi. destruct (K5 i) as [X|X]; [rewrite !beside_length; cbn; now rewrite map_length|left; now rewrite R|right].
    rewrite <- R in X. apply beside_gone in X. unfold dropped in X. rewrite map_app, in_app_iff in X. destruct X as [X|X]; [exact X|destruct (K4 i X)].
Qed.
