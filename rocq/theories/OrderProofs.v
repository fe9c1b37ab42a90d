(** Proofs for C35 and C40: which module is given which error. *)
From Verif Require Import Spec ModuleIdProps SpecIo SpecResults SpecController ControllerProofs9.
From Verif Require Import Tac.

Lemma met_asym mem i j : met_before mem i j -> met_before mem j i -> False.
Proof.
  unfold met_before. destruct (ident_told mem i) as [x|], (ident_told mem j) as [y|]; try tauto; [|lia].
  intros [A|[-> A]] [B|[E B]]; try lia.
  - pose proof (benum_ltb_trans _ _ _ A B) as T. rewrite benum_ltb_irrefl in T. discriminate.
  - subst. rewrite benum_ltb_irrefl in A. discriminate.
  - rewrite benum_ltb_irrefl in B. discriminate.
Qed.
Lemma sorted_pair (R : N -> N -> Prop) l i j : StronglySorted N.lt l -> StronglySorted R l -> In i l -> In j l -> i < j -> R i j.
Proof.
  intros S T. revert S. induction T as [|x l T IH F]; intros S; [intros []|]. inversion S as [|? ? S' G]; subst.
  rewrite Forall_forall in F, G. intros [->|Hi] [->|Hj] Hlt; try lia; auto.
  specialize (G i Hi). lia.
Qed.

Section Handed.
  Context {P : Type} (mem : N -> MemoryRead -> verdict) (m : N) (Hm : mask_ok m = true).
  Context (f g : N -> P + TransceiverError) (H : handed_out mem m f g).
  Let fails_here i := match f i with inl _ => false | inr _ => true end.

  Lemma ports_in i : In i (filter fails_here (to_indices m)) <-> member i m /\ exists e, f i = inr e.
  Proof.
    rewrite filter_In, in_to_indices_ok, member_testbit by exact Hm. unfold fails_here.
    destruct (f i) as [x|e]; split; intros [A B]; (split; [exact A|]); try discriminate; eauto.
    destruct B. discriminate.
  Qed.
  Lemma ports_sorted : StronglySorted N.lt (filter fails_here (to_indices m)).
  Proof. apply filter_ports_sorted. Qed.

  Lemma handed_right : met_in_order mem m f -> forall i, member i m -> g i = f i.
  Proof.
    destruct H as (S & order & Os & Oi & Of). intros Hf.
    assert (Lt : StronglySorted N.lt order).
    { assert (Oi' : forall i, In i order -> member i m /\ exists e, f i = inr e) by (intros; now apply Oi).
      clear Of Oi. induction Os as [|x l Os IH F]; constructor.
      - apply IH. intros i Hi. apply Oi'. now right.
      - rewrite Forall_forall in *. intros y Hy. destruct (Oi' x (or_introl eq_refl)) as [Mx [ex Ex]].
        destruct (Oi' y (or_intror Hy)) as [My [ey Ey]]. specialize (F y Hy).
        destruct (N.lt_trichotomy x y) as [|[->|L]]; [assumption|destruct (met_asym _ _ _ F F)|].
        exfalso. exact (met_asym _ _ _ F (Hf y x ey ex L My Mx Ey Ex)). }
    assert (E : order = filter fails_here (to_indices m)).
    { apply sorted_lt_ext; [exact Lt|apply ports_sorted|]. intros i. now rewrite Oi, ports_in. }
    subst order. intros i Hi. destruct (f i) as [x|e] eqn:Ei; [now apply S|].
    assert (In i (filter fails_here (to_indices m))) as Hin by (apply ports_in; eauto).
    fold fails_here in Of. revert Hin Of. clear -Ei. induction (filter fails_here (to_indices m)) as [|x l IH]; [intros []|].
    intros [->|Hin] Of; inversion Of as [|? ? ? ? (e' & A & B) Of']; subst; [congruence|auto].
  Qed.
  Lemma handed_wrong : (forall i e, member i m -> f i = inr e -> exists b, e = hw_fault i b) ->
    (forall i, member i m -> g i = f i) -> met_in_order mem m f.
  Proof.
    destruct H as (S & order & Os & Oi & Of). intros Hw Hg. fold fails_here in Of.
    assert (E : filter fails_here (to_indices m) = order).
    { assert (Pi : forall i, In i (filter fails_here (to_indices m)) -> member i m) by (intros i Hi; now apply ports_in in Hi).
      assert (Oi' : forall i, In i order -> member i m) by (intros i Hi; now apply Oi in Hi).
      revert Pi Oi'. clear -Of Hw Hg. induction Of as [|i o l ls (e & A & B) _ IH]; intros Pi Oi'; [reflexivity|]. f_equal.
      - rewrite Hg in A by (apply Pi; now left). destruct (Hw i e) as [b Eb]; [apply Pi; now left|exact A|].
        destruct (Hw o e) as [b' Eb']; [apply Oi'; now left|exact B|]. subst e. unfold hw_fault in Eb'. congruence.
      - apply IH; intros j Hj; [apply Pi|apply Oi']; now right. }
    intros i j x y Hlt Mi Mj Hi Hj. apply (sorted_pair _ order); [rewrite <- E; apply ports_sorted|exact Os| | |exact Hlt]; apply Oi; eauto.
  Qed.
  Lemma reports_same r : reports m g r -> (reports m f r <-> forall i, member i m -> g i = f i).
  Proof.
    intros (W & Sg & Fg). split.
    - intros (_ & Sf & Ff) i Hi. destruct (g i) as [x|e] eqn:E.
      + destruct (proj1 (Sf i x)) as [_ X]; [now apply Sg|]. now rewrite X.
      + destruct (proj1 (Ff i e)) as [_ X]; [now apply Fg|]. now rewrite X.
    - intros E. split; [exact W|]. split; intros i x; [rewrite Sg|rewrite Fg]; split; intros [A B]; (split; [exact A|]); now rewrite E in * by exact A.
  Qed.
End Handed.

Lemma query_errors St (a : honest St) : honest_ok a ->
  forall P reads (parse : Identifier -> list (list N) -> outcome DecodeError P) mem (w : world St) m,
  m < 2 ^ 64 -> reads_as a (w_sp w) mem -> queryable reads parse mem m ->
  exists r g, snd (parse_modules_by_identifier (honest_sp a) reads parse m w) = Ok r /\
    handed_out mem m (says reads parse mem) g /\ reports m g r /\
    (met_in_order mem m (says reads parse mem) -> reports m (says reads parse mem) r) /\
    ((forall i e, member i m -> says reads parse mem i = inr e -> exists b, e = hw_fault i b) ->
     (reports m (says reads parse mem) r <-> met_in_order mem m (says reads parse mem))).
Proof.
  intros Hok P reads parse mem w m Hm Hr Hq. apply mask_ok_lt in Hm.
  destruct (query_rrep a Hok reads parse mem w m Hm Hr Hq) as (r & w' & g & E & _ & _ & R & _ & _ & Ho).
  exists r, g. rewrite E. split; [reflexivity|]. split; [exact Ho|]. apply rrep_reports in R. split; [exact R|].
  pose proof (reports_same m (says reads parse mem) g r R) as Same. split.
  - intros Hi. apply Same. exact (handed_right mem m Hm _ _ Ho Hi).
  - intros Hw. rewrite Same. split; [exact (handed_wrong mem m Hm _ _ Ho Hw)|exact (handed_right mem m Hm _ _ Ho)].
Qed.

Lemma power_errors St (a : honest St) : honest_ok a ->
  forall (w : world St) m mem, let st := hs_verdict a (w_sp w) (HStatus m) None in
  m < 2 ^ 64 -> reads_as a (hs_next a (w_sp w) (HStatus m) None) mem ->
  (forall i id, member i m -> readable st i = true -> ident_told mem i = inl id -> supported_kind id = true) ->
  exists r g, snd (power (honest_sp a) m w) = Ok r /\
    handed_out mem (readable_mask m st) (control_says mem) g /\ reports m (power_says st g) r /\
    (reports m (power_says st (control_says mem)) r <-> met_in_order mem (readable_mask m st) (control_says mem)).
Proof.
  intros Hok w m mem st Hm Hr Hs. apply mask_ok_lt in Hm.
  destruct (power_rrep a Hok w m mem Hm Hr) as (r & w' & g & ds & E & _ & _ & _ & R & _ & _ & Ho).
  { intros i id Hi. apply Hs. now apply member_testbit. }
  fold st in R, Ho. exists r, g. rewrite E. split; [reflexivity|]. split; [exact Ho|]. apply rrep_reports in R. split; [exact R|].
  assert (Rm : mask_ok (readable_mask m st) = true).
  { apply mask_ok_testbit. intros i. unfold readable_mask. rewrite port_mask_spec, existsb_eqb_in, filter_In, in_to_indices_ok by exact Hm.
    intros [Hi _]. now apply (proj1 (mask_ok_testbit m) Hm). }
  assert (Ri : forall i, member i (readable_mask m st) <-> member i m /\ readable st i = true).
  { intros i. rewrite !member_testbit. unfold readable_mask. now rewrite port_mask_spec, existsb_eqb_in, filter_In, in_to_indices_ok by exact Hm. }
  assert (Same : (forall i, member i m -> power_says st g i = power_says st (control_says mem) i) <->
                 (forall i, member i (readable_mask m st) -> g i = control_says mem i)).
  { split.
    - intros X i Hi. pose proof (fun x => proj1 Ho i x Hi) as K. apply Ri in Hi. destruct Hi as [Mi Hi]. specialize (X i Mi).
      destruct (g i) as [c|e] eqn:Eg; [symmetry; now apply K|].
      destruct (control_says mem i) as [c|e'] eqn:Ec; [now apply K|].
      unfold power_says, readable in *. destruct (st i) as [d|]; [|discriminate].
      destruct (supplied (hd 0 d)), (held_in_reset (hd 0 d)); try discriminate. cbn [negb orb] in X. rewrite Eg, Ec in X. congruence.
    - intros X i Mi. destruct (readable st i) eqn:Er.
      + unfold power_says. now rewrite (X i) by (apply Ri; auto).
      + unfold power_says. unfold readable in Er. destruct (st i) as [d|]; [|reflexivity].
        destruct (supplied (hd 0 d)), (held_in_reset (hd 0 d)); try discriminate; reflexivity. }
  rewrite (reports_same m (power_says st (control_says mem)) (power_says st g) r R), Same. split.
  - apply (handed_wrong mem _ Rm _ _ Ho). intros i e _. unfold control_says, ident_told, told.
    destruct (mem i ident_read) as [d|b]; [|intros [= <-]; eauto]. destruct (sff_kind _); destruct (mem i _) as [d'|b]; try discriminate; intros [= <-]; eauto.
  - exact (handed_right mem _ Rm _ _ Ho).
Qed.
