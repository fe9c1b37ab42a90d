From Coq Require Import Lia Sorted.
From Verif Require Export BesideProofs.
From Verif Require Import Tac TimeProofs DuplexProofs DeadlineProofs CrowdProofs.
Import ListNotations.
Open Scope N_scope.

(** ** The loop comes back in time *)
(** How many steps are left until it does. *)
Definition left_to_do {A} (hd : handler) (b : beside A) : N :=
  if room (hd_in hd) (bs_in b) then 1 else match bs_reply b with None => 2 | Some _ => 3 end.
Lemma left_bounds {A} hd (b : beside A) : 1 <= left_to_do hd b <= 3.
Proof. unfold left_to_do. destruct (room _ _); [lia|]. destruct (bs_reply b); lia. Qed.
Definition kept {A} (slack lag : N) (hd : handler) (b : beside A) (last : N) : Prop :=
  (length (bs_in b) <= hd_in hd)%nat /\ bs_last b <= last /\ bs_freed b <= last /\
  (bs_wait b = None -> forall d, In d (loop_due (bs_calls b)) -> bs_freed b <= d + slack + 3 * lag) /\
  (bs_wait b <> None -> forall d, In d (loop_due (bs_calls b)) -> bs_last b + left_to_do hd b * lag <= d + slack + 3 * lag).

Lemma kept_iterate {A} slack lag hd (b : beside A) last now o out : kept slack lag hd b last -> last <= now ->
  (forall p d io, o = OcLoop (EvDatagram p d io) -> bs_wait b = None /\ forall d, In d (loop_due (bs_calls b)) -> now <= d + slack) ->
  kept slack lag hd (fst (beside_iterate hd b now o out)) now.
Proof.
  intros (K1 & K2 & K3 & K4 & K5) L G. unfold beside_iterate. pose proof (due_grows (bs_calls b) now o) as D. unfold calls_step in D.
  destruct (calls_does (bs_calls b) now o) as [cs os] eqn:E. cbn [fst] in D.
  pose proof (left_bounds hd b) as Lb.
  destruct (dispatch_of os) as [r|] eqn:Dp.
  - assert (Hg : exists p d io, o = OcLoop (EvDatagram p d io)).
    { destruct o as [i|io|[tag r' io| |io|hr io| |peer dg io| |]|i]; try (do 3 eexists; reflexivity); exfalso;
        (rewrite none_dispatch in Dp; [discriminate|]); replace os with (snd (cs, os)) by reflexivity; rewrite <- E; apply quiet_calls; discriminate. }
    destruct Hg as (p & dg & io & Hg). destruct (G p dg io Hg) as [Gw Gd].
    destruct (room (hd_in hd) (bs_in b)) eqn:R; unfold kept; cbn [fst bs_in bs_last bs_freed bs_wait bs_calls].
    + split; [rewrite app_length; cbn; apply Nat.ltb_lt in R; lia|]. split; [lia|]. split; [lia|]. split; [|congruence].
      intros _ d Hd. destruct (D d Hd) as [H|(d0 & H0 & H1)]; [lia|]. specialize (K4 Gw d0 H0). lia.
    + split; [exact K1|]. split; [lia|]. split; [lia|]. split; [discriminate|]. intros _ d Hd.
      set (b' := mkBeside _ _ _ _ _ _ _). pose proof (left_bounds hd b') as Lb'. destruct (D d Hd) as [H|(d0 & H0 & H1)]; [nia|].
      specialize (Gd d0 H0). nia.
  - unfold kept, left_to_do in *; cbn [fst bs_in bs_last bs_freed bs_wait bs_calls bs_reply]. split; [exact K1|]. split; [lia|]. split; [lia|]. split.
    + intros W d Hd. destruct (D d Hd) as [H|(d0 & H0 & H1)]; [lia|]. specialize (K4 W d0 H0). lia.
    + intros W d Hd. destruct (D d Hd) as [H|(d0 & H0 & H1)]; [nia|]. specialize (K5 W d0 H0). lia.
Qed.
Lemma kept_step {A} slack lag hd (b : beside A) last now h : kept slack lag hd b last -> last <= now ->
  served_by slack lag hd b now h -> ~ jammed hd b -> kept slack lag hd (beside_step hd b now h) now.
Proof.
  intros K L (S1 & S2 & S3) J. pose proof K as (K1 & K2 & K3 & K4 & K5).
  assert (St : kept slack lag hd b now) by (split; [exact K1|]; split; [lia|]; split; [lia|]; now split).
  unfold beside_step. destruct h as [o|io| | |]; cbn [beside_does].
  - destruct (bs_wait b) as [r|] eqn:W.
    + destruct (by_loop o) eqn:B; [exact St|]. apply (kept_iterate _ _ _ _ last); [exact K|exact L|]. intros p d io ->. discriminate B.
    + destruct (not_handler o); [|exact St]. apply (kept_iterate _ _ _ _ last); [exact K|exact L|]. intros p d io E. split; [exact W|].
      intros d0 H. apply (S2 eq_refl d0 H). exists p, d, io. now rewrite E.
  - destruct (bs_wait b) as [r|] eqn:W; [exact St|]. destruct (bs_out b) as [|x rest]; [exact St|].
    apply (kept_iterate _ _ _ _ last); [exact K|exact L|]. intros p d io0 E. discriminate E.
  - destruct (bs_wait b) as [r|] eqn:W; [|exact St]. destruct (room (hd_in hd) (bs_in b)) eqn:R; [|exact St].
    assert (N : now <= bs_last b + lag) by (apply S3; [discriminate|exact J]).
    unfold kept. cbn [fst bs_in bs_last bs_freed bs_wait bs_calls]. split; [rewrite app_length; cbn; apply Nat.ltb_lt in R; lia|].
    split; [lia|]. split; [lia|]. split; [|congruence]. intros _ d Hd. specialize (K5 ltac:(discriminate) d Hd).
    unfold left_to_do in K5. rewrite R in K5. lia.
  - destruct (bs_reply b) as [x|] eqn:Rp; [exact St|]. destruct (bs_in b) as [|r rest] eqn:I; [exact St|].
    unfold kept, stamp. cbn [fst bs_in bs_last bs_freed bs_wait bs_calls]. cbn [length] in K1. rewrite I. split; [lia|].
    split; [destruct (room _ _); lia|]. split; [lia|]. split; [exact K4|]. intros W d Hd. specialize (K5 W d Hd). specialize (S3 W J).
    unfold left_to_do in *. cbn [bs_in bs_reply]. rewrite I, Rp in K5.
    assert (R' : room (hd_in hd) rest = true) by (apply Nat.ltb_lt; lia). rewrite R'. destruct (room (hd_in hd) (r :: rest)); lia.
  - destruct (bs_reply b) as [x|] eqn:Rp; [|exact St].
    assert (X : forall out, kept slack lag hd (mkBeside (bs_calls b) (bs_in b) (bs_wait b) None out (stamp hd b now) (bs_freed b)) now).
    { intro out. unfold kept, stamp. cbn [bs_in bs_last bs_freed bs_wait bs_calls]. split; [exact K1|]. split; [destruct (room _ _); lia|]. split; [lia|].
      split; [exact K4|]. intros W d Hd. specialize (K5 W d Hd). specialize (S3 W J). unfold left_to_do in *. cbn [bs_in bs_reply].
      rewrite Rp in K5. destruct (room _ _); lia. }
    destruct (runs _); [|apply X]. destruct (room (hd_out hd) (bs_out b)); [apply X|exact St].
Qed.
Lemma kept_on_time {A} slack lag hd (b : beside A) last now h : kept slack lag hd b last ->
  served_by slack lag hd b now h -> ~ jammed hd b -> on_time (2 * slack + 3 * lag) (bs_calls b) now.
Proof.
  intros (K1 & K2 & K3 & K4 & K5) (S1 & S2 & S3) J. unfold on_time, all_due. rewrite Forall_forall. intros d Hd.
  apply in_app_iff in Hd. destruct Hd as [Hd|Hd].
  - apply in_flat_map in Hd. destruct Hd as (i & _ & Hd). specialize (S1 i d Hd). lia.
  - destruct (bs_wait b) as [r|].
    + specialize (S3 ltac:(discriminate) J). specialize (K5 ltac:(discriminate) d Hd). pose proof (left_bounds hd b). nia.
    + destruct (S2 eq_refl d Hd) as [H _]. specialize (K4 eq_refl d Hd). lia.
Qed.

(** ** The same without the handler *)
Lemma calls_run_snoc {A} (c : timed_calls A) hs now h : calls_run c (hs ++ [(now, h)]) = calls_step (calls_run c hs) now h.
Proof. unfold calls_run. now rewrite fold_left_app. Qed.
Lemma calls_outputs_snoc {A} hs : forall (c : timed_calls A) now h,
  calls_outputs c (hs ++ [(now, h)]) = calls_outputs c hs ++ snd (calls_does (calls_run c hs) now h).
Proof.
  induction hs as [|[n0 h0] hs IH]; intros c now h; [apply app_nil_r|]. cbn [app calls_outputs]. rewrite IH, app_assoc. reflexivity.
Qed.
Lemma beside_run_snoc {A} hd (b : beside A) hs now h : beside_run hd b (hs ++ [(now, h)]) = beside_step hd (beside_run hd b hs) now h.
Proof. unfold beside_run. now rewrite fold_left_app. Qed.
Lemma beside_outputs_snoc {A} hd hs : forall (b : beside A) now h,
  beside_outputs hd b (hs ++ [(now, h)]) = beside_outputs hd b hs ++ snd (beside_does hd (beside_run hd b hs) now h).
Proof.
  induction hs as [|[n0 h0] hs IH]; intros b now h; [apply app_nil_r|]. cbn [app beside_outputs]. rewrite IH, app_assoc. reflexivity.
Qed.
Lemma iterate_calls {A} hd (b : beside A) now o out :
  bs_calls (fst (beside_iterate hd b now o out)) = calls_step (bs_calls b) now o /\ snd (beside_iterate hd b now o out) = snd (calls_does (bs_calls b) now o).
Proof.
  unfold beside_iterate, calls_step. destruct (calls_does (bs_calls b) now o) as [cs os]. destruct (dispatch_of os); [destruct (room _ _)|]; now split.
Qed.
Lemma followed {A} hd (b : beside A) now h :
  bs_calls (beside_step hd b now h) = bs_calls b /\ snd (beside_does hd b now h) = [] \/
  exists o, bs_calls (beside_step hd b now h) = calls_step (bs_calls b) now o /\ snd (beside_does hd b now h) = snd (calls_does (bs_calls b) now o) /\
    forall i, o = OcDrop i -> h = HpCalls (OcDrop i).
Proof.
  unfold beside_step. destruct h as [o|io| | |]; cbn [beside_does].
  - assert (X : exists o', bs_calls (fst (beside_iterate hd b now o (bs_out b))) = calls_step (bs_calls b) now o' /\
      snd (beside_iterate hd b now o (bs_out b)) = snd (calls_does (bs_calls b) now o') /\ forall i, o' = OcDrop i -> HpCalls o = HpCalls (OcDrop i)).
    { exists o. destruct (iterate_calls hd b now o (bs_out b)) as [X Y]. repeat split; try assumption. congruence. }
    destruct (bs_wait b); [destruct (by_loop o)|destruct (not_handler o)]; first [now right|now left].
  - destruct (bs_wait b); [now left|]. destruct (bs_out b) as [|x rest]; [now left|]. right. exists (OcLoop (EvHandler x io)).
    destruct (iterate_calls hd b now (OcLoop (EvHandler x io)) rest) as [X Y]. repeat split; try assumption. discriminate.
  - left. destruct (bs_wait b); [|now split]. destruct (room _ _); now split.
  - left. destruct (bs_reply b); [now split|]. destruct (bs_in b); now split.
  - left. destruct (bs_reply b); [|now split]. destruct (runs _); [|now split]. destruct (room _ _); now split.
Qed.

Lemma fwd_snoc hs now h : forward (hs ++ [(now, h)]) -> forward hs /\ Forall (fun x => x <= now) (map fst hs).
Proof.
  unfold forward. rewrite map_app. intro H. destruct (sorted_split _ _ _ H) as (H1 & _ & H2). split; [exact H1|].
  revert H2. apply Forall_impl. intros a Ha. now inversion Ha.
Qed.
Lemma sorted_snoc l (x : N) : StronglySorted N.le l -> Forall (fun y => y <= x) l -> StronglySorted N.le (l ++ [x]).
Proof.
  induction 1 as [|a l S IH F]; intro H; [repeat constructor|]. inversion H; subst. cbn [app]. constructor; [now apply IH|].
  apply Forall_app. split; [exact F|]. now repeat constructor.
Qed.
Lemma served_snoc {A} slack lag hd (b : beside A) hs now h : all_served slack lag hd b (hs ++ [(now, h)]) ->
  all_served slack lag hd b hs /\ served_by slack lag hd (beside_run hd b hs) now h.
Proof.
  intro H. split.
  - intros hs1 n1 h1 hs2 E. apply (H hs1 n1 h1 (hs2 ++ [(now, h)])). now rewrite E, <- app_assoc.
  - now apply (H hs now h []).
Qed.
Lemma unjammed_snoc {A} hd (b : beside A) hs x : never_jammed hd b (hs ++ [x]) -> never_jammed hd b hs /\ ~ jammed hd (beside_run hd b hs).
Proof.
  intro H. split.
  - intros hs1 hs2 E. apply (H hs1 (hs2 ++ [x])). now rewrite E, <- app_assoc.
  - now apply (H hs [x]).
Qed.
Lemma exists_last_or {X} (l : list X) : l = [] \/ exists l' x, l = l' ++ [x].
Proof. destruct l as [|a l]; [now left|]. right. destruct (@exists_last _ (a :: l)) as (l' & x & E); [discriminate|]. now exists l', x. Qed.
Lemma punctual_snoc {A} slack (c : timed_calls A) hs now h : all_punctual slack c hs -> on_time slack (calls_run c hs) now -> all_punctual slack c (hs ++ [(now, h)]).
Proof.
  intros H K hs1 n1 h1 hs2 E. destruct (exists_last_or hs2) as [->|(l & x & ->)].
  - apply app_inj_tail in E. destruct E as [<- [= <- <-]]. exact K.
  - change (hs1 ++ (n1, h1) :: l ++ [x]) with (hs1 ++ ((n1, h1) :: l) ++ [x]) in E. rewrite app_assoc in E. apply app_inj_tail in E.
    destruct E as [-> _]. now apply (H hs1 n1 h1 l).
Qed.

Lemma without {A} slack lag hd t id (ps : list (prog A * N)) ins busy outs hs : let b := beside_new t id ps ins busy outs in
  (length ins <= hd_in hd)%nat -> forward hs -> all_served slack lag hd b hs -> never_jammed hd b hs -> exists hs' last,
  goes_forward hs' /\ Forall (fun x => In x (map fst hs)) (map fst hs') /\
  calls_run (calls_new t id ps) hs' = bs_calls (beside_run hd b hs) /\ calls_outputs (calls_new t id ps) hs' = beside_outputs hd b hs /\
  all_punctual (2 * slack + 3 * lag) (calls_new t id ps) hs' /\ (forall i, given_up i hs' -> dropped i hs) /\
  (forall w, most_wait w hd b hs -> crowd_most w (calls_new t id ps) hs') /\
  (last = 0 \/ In last (map fst hs)) /\ kept slack lag hd (beside_run hd b hs) last.
Proof.
  intros b Hi. induction hs as [|[now h] hs IH] using rev_ind; intros F S J.
  - exists [], 0. split; [constructor|]. split; [constructor|]. split; [reflexivity|]. split; [reflexivity|].
    split; [intros [|? ?] ? ? ? E; discriminate|]. split; [intros i []|]. split.
    { intros w H [|? ?] hs2 E; [|discriminate]. apply (H [] []). reflexivity. }
    split; [now left|]. unfold kept, b, beside_new. cbn. split; [exact Hi|]. repeat split; try lia. congruence.
  - destruct (fwd_snoc _ _ _ F) as [F1 F2]. destruct (served_snoc _ _ _ _ _ _ _ S) as [S1 S2]. destruct (unjammed_snoc _ _ _ _ J) as [J1 J2].
    destruct (IH F1 S1 J1) as (hs' & last & G & T & R & O & P & D & C & La & K). rewrite Forall_forall in F2.
    assert (Ln : last <= now) by (destruct La as [->|La]; [lia|now apply F2]).
    pose proof (kept_step _ _ _ _ _ _ _ K Ln S2 J2) as K'. pose proof (kept_on_time _ _ _ _ _ _ _ K S2 J2) as Ot.
    rewrite <- beside_run_snoc in K'.
    assert (Lw : forall w, most_wait w hd b (hs ++ [(now, h)]) -> most_wait w hd b hs /\ crowd (bs_calls (beside_run hd b (hs ++ [(now, h)]))) <= w).
    { intros w H. split; [|apply (H _ []); now rewrite app_nil_r]. intros hs1 hs2 E. apply (H hs1 (hs2 ++ [(now, h)])). now rewrite E, <- app_assoc. }
    assert (Fn : (now = 0 \/ In now (map fst (hs ++ [(now, h)]))) /\ forall x, In x (map fst hs) -> In x (map fst (hs ++ [(now, h)]))).
    { split; [right|intros x Hx]; rewrite map_app; apply in_app_iff; [right; now left|now left]. }
    destruct Fn as [Fn Fi]. rewrite beside_outputs_snoc.
    destruct (followed hd (beside_run hd b hs) now h) as [[E1 E2]|(o & E1 & E2 & E3)]; rewrite <- beside_run_snoc in E1; rewrite E2.
    + exists hs', now. split; [exact G|]. split; [revert T; apply Forall_impl; exact Fi|]. rewrite app_nil_r. split; [congruence|]. split; [exact O|]. split; [exact P|].
      split; [intros i Hg; unfold dropped; rewrite map_app; apply in_app_iff; left; now apply D|]. split; [intros w H; apply C, (proj1 (Lw w H))|]. now split.
    + exists (hs' ++ [(now, o)]), now. split.
      { unfold goes_forward. rewrite map_app. cbn [map fst]. apply sorted_snoc; [exact G|]. revert T. apply Forall_impl. exact F2. }
      split; [rewrite (map_app fst hs'); apply Forall_app; split; [revert T; apply Forall_impl; exact Fi|repeat constructor; rewrite map_app; apply in_app_iff; right; now left]|].
      rewrite calls_run_snoc, calls_outputs_snoc, R, O. split; [now rewrite E1|]. split; [reflexivity|].
      split; [apply punctual_snoc; [exact P|now rewrite R]|].
      split.
      { intros i Hg. unfold given_up, dropped in *. rewrite map_app in *. apply in_app_iff in Hg. apply in_app_iff.
        destruct Hg as [Hg|[Hg|[]]]; [left; now apply D|right; left]. cbn in *. now rewrite (E3 i Hg). }
      split; [|now split]. intros w H. destruct (Lw w H) as [H1 H2]. intros hs1 hs2 E.
      destruct (exists_last_or hs2) as [->|(l & x & ->)].
      * rewrite app_nil_r in E. subst hs1. now rewrite calls_run_snoc, R, <- E1.
      * rewrite app_assoc in E. apply app_inj_tail in E. destruct E as [E _]. now apply (C w H1 hs1 l).
Qed.

Lemma beside_from_among {A} (c : forall St, (St -> Rpc -> St * reply) -> ctl (St := St) A) n pause k :
  in_time_among c n pause k -> in_time_beside c n pause k.
Proof.
  intros [E H]. split; [exact E|]. intros p n_retries interval t id ps i start slack lag w hd ins busy outs hs now h Sp I Ei Li F b S J Dr W late L.
  destruct (fwd_snoc _ _ _ F) as [F1 F2]. destruct (served_snoc _ _ _ _ _ _ _ S) as [S1 S2].
  assert (J2 : ~ jammed hd (beside_run hd b hs)) by (apply (J hs []); now rewrite app_nil_r).
  destruct (without slack lag hd t id ps ins busy outs hs Li F1 S1 J) as (hs' & last & G & T & R & O & P & D & C & La & K).
  fold b in R, O, D, C, K. rewrite <- R. apply (H p n_retries interval t id ps i start late w hs' now (OcLoop EvRecvError)); try assumption.
  - unfold goes_forward. rewrite map_app. cbn [map fst]. apply sorted_snoc; [exact G|]. revert T. apply Forall_impl. rewrite Forall_forall in F2. exact F2.
  - apply punctual_snoc; [exact P|]. rewrite R. exact (kept_on_time _ _ _ _ _ _ _ K S2 J2).
  - intro X. now apply Dr, D.
  - now apply C.
Qed.
