From Coq Require Import Lia.
From Verif Require Import SpecDuplex.

Lemma duplex_run_app : forall h ms1 ms2 d,
  duplex_run h d (ms1 ++ ms2) =
  (let (d1, o1) := duplex_run h d ms1 in let (d2, o2) := duplex_run h d1 ms2 in (d2, o1 ++ o2)).
Proof.
  induction ms1 as [|m ms1 IH]; intros ms2 d; cbn [app duplex_run].
  - destruct (duplex_run h d ms2); reflexivity.
  - destruct (duplex_step h d m) as [d1 o1]; rewrite IH.
    destruct (duplex_run h d1 ms1) as [d2 o2]; destruct (duplex_run h d2 ms2) as [d3 o3].
    rewrite app_assoc; reflexivity.
Qed.

Lemma run_snoc : forall es e s,
  run s (es ++ [e]) =
  (let (s1, o1) := run s es in let (s2, o2) := step s1 e in (s2, o1 ++ o2)).
Proof.
  induction es as [|x es IH]; intros e s; cbn [app run].
  - destruct (step s e) as [s1 o1]; cbn; rewrite app_nil_r; reflexivity.
  - destruct (step s x) as [s1 o1]; rewrite IH.
    destruct (run s1 es) as [s2 o2]; destruct (step s2 e) as [s3 o3]; rewrite app_assoc; reflexivity.
Qed.

Lemma dispatched_app : forall a b, dispatched (a ++ b) = dispatched a ++ dispatched b.
Proof. intros; apply flat_map_app. Qed.
Lemma served_app : forall a b, served (a ++ b) = served a ++ served b.
Proof. intros; apply flat_map_app. Qed.

(** At most one request is handed over per iteration, and the loop keeps running when it does. *)
Lemma answer_silent : forall s o r s' os, answer s o r = (s', os) -> dispatched os = [].
Proof. intros s o r s' os H; unfold answer in H; destruct (o_gone o); inversion H; reflexivity. Qed.
Lemma fail_silent : forall s h e s' os, fail_matching s h e = (s', os) -> dispatched os = [].
Proof.
  intros s h e s' os H; unfold fail_matching in H.
  destruct (l_out s) as [o|]; [|inversion H; reflexivity].
  destruct (_ =? _); [eapply answer_silent; exact H|inversion H; reflexivity].
Qed.
Lemma send_silent : forall s o io s' os, send_outgoing_request s o io = (s', os) -> dispatched os = [].
Proof.
  intros s o io s' os H; unfold send_outgoing_request in H.
  destruct (request_packet (o_request o)); [|inversion H; reflexivity].
  destruct io; [inversion H; reflexivity|].
  destruct (answer s o (Err EIo)) as [s1 o1] eqn:E; inversion H; subst.
  cbn; eapply answer_silent; exact E.
Qed.
Lemma response_silent : forall s h rx s' os, handle_sp_response s h rx = (s', os) -> dispatched os = [].
Proof.
  intros s h rx s' os H; unfold handle_sp_response in H.
  destruct (l_out s) as [o|]; [|inversion H; reflexivity].
  destruct (dec_message rx) as [[m rest]|].
  - destruct (msg_body m); try (eapply fail_silent; exact H).
    destruct (_ =? _); [eapply answer_silent; exact H|inversion H; reflexivity].
  - destruct rx; [inversion H; reflexivity|]. eapply fail_silent; exact H.
Qed.
Lemma sp_error_silent : forall s h rx s' os, handle_sp_error s h rx = (s', os) -> dispatched os = [].
Proof.
  intros s h rx s' os H; unfold handle_sp_error in H.
  destruct (dec_message rx) as [[m rest]|]; [|eapply fail_silent; exact H].
  destruct (msg_body m); try (inversion H; reflexivity). eapply fail_silent; exact H.
Qed.

Lemma step_dispatch : forall s e s' os, step s e = (s', os) ->
  dispatched os = one (dispatch_of os) /\ (dispatch_of os <> None -> l_status s' = Running /\ l_status s = Running).
Proof.
  assert (Z : forall (s' : loop) os, dispatched os = [] ->
            dispatched os = one (dispatch_of os) /\
            (dispatch_of os <> None -> l_status s' = Running)).
  { intros s' os H. assert (K : dispatch_of os = None).
    { unfold dispatch_of. destruct (find _ os) as [o|] eqn:F; [|reflexivity].
      destruct (find_some _ _ F) as [I B]; destruct o; try discriminate B.
      assert (In r (dispatched os)) by (apply in_flat_map; exists (ODispatch r); split; [exact I|left; reflexivity]).
      rewrite H in *; contradiction. }
    rewrite K, H; split; [reflexivity|congruence]. }
  assert (ZZ : forall (s s' : loop) os, dispatched os = [] ->
            dispatched os = one (dispatch_of os) /\
            (dispatch_of os <> None -> l_status s' = Running /\ l_status s = Running)).
  { intros s s' os H. destruct (Z s' os H) as [A B]; destruct (Z s os H) as [_ C].
    split; [exact A|auto]. }
  intros s e s' os H; unfold step in H.
  assert (S : l_status s = Running \/ (l_status s <> Running /\ (s, []) = (s', os))).
  { destruct (l_status s); [left; reflexivity|right; split; [discriminate|exact H]..]. }
  destruct S as [S|[_ S]]; [rewrite S in H|inversion S; subst; apply ZZ; reflexivity].
  destruct e as [tag r io| |io|hr io| |peer dg io| |].
  - destruct (l_out s); [inversion H; subst; apply ZZ; reflexivity|].
    destruct (send_outgoing_request _ _ io) as [s1 o1] eqn:E; inversion H; subst.
    apply ZZ; cbn; eapply send_silent; exact E.
  - destruct (l_out s); inversion H; subst; apply ZZ; reflexivity.
  - apply ZZ. unfold handle_tick in H. destruct (l_out s) as [o|]; [|inversion H; reflexivity].
    destruct (_ && _); [eapply send_silent; exact H|].
    destruct (_ <=? _); eapply answer_silent; exact H.
  - apply ZZ. destruct hr; try (inversion H; reflexivity).
    unfold send_outgoing_response in H. destruct (Nat.leb _ _); inversion H; reflexivity.
  - inversion H; subst; apply ZZ; reflexivity.
  - unfold handle_datagram in H.
    destruct (dec_header _) as [[hd rx]|]; [|inversion H; subst; apply ZZ; reflexivity].
    destruct (h_kind hd).
    + apply ZZ; eapply sp_error_silent; exact H.
    + inversion H; subst; apply ZZ; reflexivity.
    + apply ZZ; eapply response_silent; exact H.
    + unfold handle_sp_request in H. destruct (dec_message rx) as [[m rest]|].
      * destruct (l_handler s); inversion H; subst; [|apply ZZ; reflexivity].
        split; [reflexivity|auto].
      * inversion H; subst; apply ZZ; reflexivity.
    + inversion H; subst; apply ZZ; reflexivity.
  - destruct (l_out s); inversion H; subst; apply ZZ; reflexivity.
  - inversion H; subst; apply ZZ; reflexivity.
Qed.

Lemma step_stopped : forall s e, l_status s <> Running -> step s e = (s, []).
Proof. intros s e H; unfold step; destruct (l_status s); congruence. Qed.

(** The invariant of a run from the start. *)
Definition tied (h : handler) (n : option N) (es : list event) (d : duplex) (os : list output) : Prop :=
  run (loop_new n) es = (dx_loop d, os) /\
  (dx_wait d <> None -> l_status (dx_loop d) = Running) /\
  (length (dx_in d) <= hd_in h)%nat /\ (length (dx_out d) <= hd_out h)%nat /\
  exists taken, dispatched os = taken ++ dx_in d ++ one (dx_wait d) /\
    (l_status (dx_loop d) = Running ->
     map (hd_reply h) taken = served es ++ dx_out d ++ one (dx_reply d)).

Lemma tied_iterate : forall h n es d os e out d' o',
  tied h n es d os -> dx_wait d = None -> iterate h d e out = (d', o') ->
  served [e] ++ out = dx_out d ->
  tied h n (es ++ [e]) d' (os ++ o').
Proof.
  intros h n es d os e out d' o' (R & W & Li & Lo & taken & D & T) Hw I So.
  unfold iterate in I. destruct (step (dx_loop d) e) as [s1 o1] eqn:St.
  destruct (step_dispatch _ _ _ _ St) as [Sd Sr].
  assert (Lout : (length out <= hd_out h)%nat).
  { assert (length out <= length (dx_out d))%nat by (rewrite <- So, app_length; lia). lia. }
  assert (Rn : run (loop_new n) (es ++ [e]) = (s1, os ++ o1)).
  { rewrite run_snoc, R, St; reflexivity. }
  assert (Run0 : l_status s1 = Running -> l_status (dx_loop d) = Running).
  { intro Q. destruct (l_status (dx_loop d)) eqn:E; [reflexivity| |];
      (rewrite step_stopped in St by congruence; inversion St; subst; congruence). }
  rewrite Hw in D; cbn [one] in D; rewrite app_nil_r in D.
  assert (T' : l_status s1 = Running ->
    map (hd_reply h) taken = served (es ++ [e]) ++ out ++ one (dx_reply d)).
  { intro Q. rewrite (T (Run0 Q)), served_app, <- So, <- !app_assoc; reflexivity. }
  destruct (dispatch_of o1) as [r|] eqn:Dp.
  - destruct Sr as [Sr _]; [congruence|].
    destruct (room (hd_in h) (dx_in d)) eqn:Rm; inversion I; subst d' o'.
    + apply Nat.ltb_lt in Rm.
      repeat split; cbn [dx_loop dx_wait dx_in dx_out dx_reply]; try assumption; try congruence.
      * rewrite app_length; cbn; lia.
      * exists taken. split; [|exact T'].
        rewrite dispatched_app, D, Sd; cbn [one]; rewrite app_nil_r, <- app_assoc; reflexivity.
    + repeat split; cbn [dx_loop dx_wait dx_in dx_out dx_reply]; try assumption; try (intros _; assumption).
      exists taken. split; [|exact T'].
      rewrite dispatched_app, D, Sd; cbn [one]; rewrite <- app_assoc; reflexivity.
  - inversion I; subst d' o'.
    repeat split; cbn [dx_loop dx_wait dx_in dx_out dx_reply]; try assumption; try congruence.
    exists taken. split; [|exact T'].
    rewrite dispatched_app, D, Sd; cbn [one]; rewrite !app_nil_r; reflexivity.
Qed.

Lemma tied_step : forall h n es d os m d' o',
  tied h n es d os -> duplex_step h d m = (d', o') ->
  exists es', tied h n es' d' (os ++ o').
Proof.
  intros h n es d os m d' o' I H. pose proof I as (R & W & Li & Lo & taken & D & T).
  assert (Same : d' = d -> o' = [] -> exists es', tied h n es' d' (os ++ o')).
  { intros -> ->; rewrite app_nil_r; exists es; exact I. }
  destruct m as [e|io| | |]; cbn [duplex_step] in H.
  - destruct (dx_wait d) as [w|] eqn:Hw; [inversion H; subst; apply Same; reflexivity|].
    destruct (outside e) eqn:Oe; [|inversion H; subst; apply Same; reflexivity].
    exists (es ++ [e]). eapply tied_iterate; [exact I|exact Hw|exact H|].
    destruct e; try discriminate Oe; reflexivity.
  - destruct (dx_wait d) as [w|] eqn:Hw; [inversion H; subst; apply Same; reflexivity|].
    destruct (dx_out d) as [|x rest] eqn:Ho; [inversion H; subst; apply Same; reflexivity|].
    exists (es ++ [EvHandler x io]). eapply tied_iterate; [exact I|exact Hw|exact H|].
    cbn; rewrite Ho; reflexivity.
  - destruct (dx_wait d) as [w|] eqn:Hw; [|inversion H; subst; apply Same; reflexivity].
    destruct (room _ _) eqn:Rm; [|inversion H; subst; apply Same; reflexivity].
    apply Nat.ltb_lt in Rm. inversion H; subst d' o'. exists es. rewrite app_nil_r.
    repeat split; cbn [dx_loop dx_wait dx_in dx_out dx_reply]; try assumption; try congruence.
    + rewrite app_length; cbn; lia.
    + exists taken. split; [|exact T]. rewrite D; cbn [one]; rewrite app_nil_r; reflexivity.
  - destruct (dx_reply d) as [x|] eqn:Hr; [inversion H; subst; apply Same; reflexivity|].
    destruct (dx_in d) as [|r rest] eqn:Hi; [inversion H; subst; apply Same; reflexivity|].
    inversion H; subst d' o'. exists es. rewrite app_nil_r.
    repeat split; cbn [dx_loop dx_wait dx_in dx_out dx_reply]; try assumption.
    + cbn in Li; lia.
    + exists (taken ++ [r]). split; [rewrite D; cbn [app]; rewrite <- app_assoc; reflexivity|].
      intro Q. rewrite map_app, (T Q); cbn [map one]; rewrite app_nil_r, <- app_assoc; reflexivity.
  - destruct (dx_reply d) as [x|] eqn:Hr; [|inversion H; subst; apply Same; reflexivity].
    destruct (l_status (dx_loop d)) eqn:Q.
    + destruct (room _ _) eqn:Rm; [|inversion H; subst; apply Same; reflexivity].
      apply Nat.ltb_lt in Rm. inversion H; subst d' o'. exists es. rewrite app_nil_r.
      repeat split; cbn [dx_loop dx_wait dx_in dx_out dx_reply]; try assumption.
      * intros _; exact Q.
      * rewrite app_length; cbn; lia.
      * exists taken. split; [exact D|]. intros _. rewrite (T eq_refl); cbn [one]; rewrite !app_nil_r; reflexivity.
    + inversion H; subst d' o'. exists es. rewrite app_nil_r.
      repeat split; cbn [dx_loop dx_wait dx_in dx_out dx_reply]; try assumption.
      * intro K; discriminate (W K).
      * exists taken. split; [exact D|]. congruence.
    + inversion H; subst d' o'. exists es. rewrite app_nil_r.
      repeat split; cbn [dx_loop dx_wait dx_in dx_out dx_reply]; try assumption.
      * intro K; discriminate (W K).
      * exists taken. split; [exact D|]. congruence.
Qed.

Lemma tied_run : forall h n ms es d os d' o',
  tied h n es d os -> duplex_run h d ms = (d', o') -> exists es', tied h n es' d' (os ++ o').
Proof.
  intros h n; induction ms as [|m ms IH]; intros es d os d' o' I H; cbn [duplex_run] in H.
  - inversion H; subst; rewrite app_nil_r; exists es; exact I.
  - destruct (duplex_step h d m) as [d1 o1] eqn:S; destruct (duplex_run h d1 ms) as [d2 o2] eqn:R.
    inversion H; subst. destruct (tied_step _ _ _ _ _ _ _ _ I S) as [es1 I1].
    rewrite app_assoc. eapply IH; eassumption.
Qed.

Lemma tied_new : forall h n, tied h n [] (duplex_new n) [].
Proof.
  intros h n. repeat split; cbn; try lia; try congruence.
  exists []. split; [reflexivity|reflexivity].
Qed.

Lemma tied_start : forall h n ms d os,
  duplex_run h (duplex_new n) ms = (d, os) -> exists es, tied h n es d os.
Proof. intros h n ms d os H. apply (tied_run h n ms [] (duplex_new n) [] d os (tied_new h n) H). Qed.

Lemma same_in_order : forall h n ms d os,
  duplex_run h (duplex_new n) ms = (d, os) ->
  exists es taken, run (loop_new n) es = (dx_loop d, os) /\
    dispatched os = taken ++ dx_in d ++ one (dx_wait d) /\
    (l_status (dx_loop d) = Running ->
     map (hd_reply h) taken = served es ++ dx_out d ++ one (dx_reply d)).
Proof.
  intros h n ms d os H. destruct (tied_start _ _ _ _ _ H) as (es & R & _ & _ & _ & taken & D & T).
  exists es, taken. auto.
Qed.

Lemma within_capacity : forall h n ms d os,
  duplex_run h (duplex_new n) ms = (d, os) ->
  (length (dx_in d) <= hd_in h)%nat /\ (length (dx_out d) <= hd_out h)%nat.
Proof. intros h n ms d os H. destruct (tied_start _ _ _ _ _ H) as (es & _ & _ & A & B & _). auto. Qed.

Lemma stuck_counts : forall h n ms d os,
  duplex_run h (duplex_new n) ms = (d, os) -> stuck h d ->
  exists es, run (loop_new n) es = (dx_loop d, os) /\
    length (dispatched os) = (length (served es) + hd_in h + hd_out h + 2)%nat.
Proof.
  intros h n ms d os H (Sw & Sr & Si & So).
  destruct (tied_start _ _ _ _ _ H) as (es & R & W & Li & Lo & taken & D & T).
  exists es. split; [exact R|].
  specialize (T (W Sw)). apply (f_equal (@length _)) in T, D.
  rewrite map_length in T. rewrite !app_length in T, D.
  destruct (dx_wait d); [|congruence]. destruct (dx_reply d); [|congruence].
  cbn [one length] in *. lia.
Qed.

Lemma few_not_stuck : forall h n ms d os,
  duplex_run h (duplex_new n) ms = (d, os) ->
  (length (dispatched os) <= hd_in h + hd_out h + 1)%nat -> ~ stuck h d.
Proof. intros h n ms d os H L S. destruct (stuck_counts _ _ _ _ _ H S) as (es & _ & C). lia. Qed.

Lemma room_false : forall {A} cap (l : list A), (cap <= length l)%nat -> room cap l = false.
Proof. intros A cap l H; unfold room; apply Nat.ltb_ge; exact H. Qed.
Lemma room_true : forall {A} cap (l : list A), (length l < cap)%nat -> room cap l = true.
Proof. intros A cap l H; unfold room; apply Nat.ltb_lt; exact H. Qed.

Lemma stuck_step : forall h n ms d os m,
  duplex_run h (duplex_new n) ms = (d, os) -> stuck h d -> duplex_step h d m = (d, []).
Proof.
  intros h n ms d os m H (Sw & Sr & Si & So).
  destruct (tied_start _ _ _ _ _ H) as (es & R & W & _).
  specialize (W Sw).
  destruct (dx_wait d) as [w|] eqn:Ew; [|congruence]. destruct (dx_reply d) as [x|] eqn:Er; [|congruence].
  destruct m; cbn [duplex_step]; rewrite ?Ew, ?Er, ?W, ?(room_false _ _ Si), ?(room_false _ _ So); reflexivity.
Qed.

Lemma stuck_forever : forall h n ms d os ms',
  duplex_run h (duplex_new n) ms = (d, os) -> stuck h d -> duplex_run h d ms' = (d, []).
Proof.
  intros h n ms d os ms' H S. induction ms' as [|m r IH]; [reflexivity|].
  cbn [duplex_run]. rewrite (stuck_step _ _ _ _ _ m H S), IH. reflexivity.
Qed.

Lemma comes_back : forall h n ms d os,
  (1 <= hd_in h)%nat ->
  duplex_run h (duplex_new n) ms = (d, os) ->
  stuck h d \/
  exists ms', (length ms' <= 3)%nat /\ Forall inner ms' /\
    snd (duplex_run h d ms') = [] /\ dx_loop (fst (duplex_run h d ms')) = dx_loop d /\
    dx_wait (fst (duplex_run h d ms')) = None.
Proof.
  intros h n ms d os C H.
  destruct (tied_start _ _ _ _ _ H) as (es & R & W & Li & Lo & _).
  destruct d as [s din wait rep dout]; cbn [dx_loop dx_in dx_wait dx_reply dx_out] in *.
  destruct wait as [w|]; [|right; exists []; repeat split; cbn; lia || constructor].
  assert (St : l_status s = Running) by (apply W; congruence). clear W.
  destruct (Nat.lt_ge_cases (length din) (hd_in h)) as [L|L].
  { right; exists [MvPut]. cbn [duplex_run duplex_step dx_wait dx_in]. rewrite (room_true _ _ L).
    repeat split; try (cbn; lia). constructor; [left; reflexivity|constructor]. }
  destruct din as [|r rest]; [cbn in L; lia|].
  assert (Lr : room (hd_in h) rest = true) by (apply room_true; cbn in Li; lia).
  destruct rep as [x|].
  - destruct (Nat.lt_ge_cases (length dout) (hd_out h)) as [Q|Q].
    + right; exists [MvGive; MvTake; MvPut].
      cbn [duplex_run duplex_step dx_wait dx_in dx_reply dx_loop dx_out]. rewrite St, (room_true _ _ Q).
      cbn [duplex_run duplex_step dx_wait dx_in dx_reply dx_loop dx_out]. rewrite Lr.
      repeat split; try (cbn; lia).
      constructor; [right; right; reflexivity|]. constructor; [right; left; reflexivity|].
      constructor; [left; reflexivity|constructor].
    + left. repeat split; cbn; try congruence; assumption.
  - right; exists [MvTake; MvPut].
    cbn [duplex_run duplex_step dx_wait dx_in dx_reply dx_loop dx_out]. rewrite Lr.
    repeat split; try (cbn; lia).
    constructor; [right; left; reflexivity|]. constructor; [left; reflexivity|constructor].
Qed.

(** Replies first. *)
Definition easy (h : handler) (d : duplex) : Prop :=
  (length (dx_in d) <= hd_in h)%nat /\
  (dx_wait d <> None -> (length (dx_in d) < hd_in h)%nat \/ dx_reply d = None \/ dx_out d = []).

Lemma easy_iterate : forall h d e out d' o',
  iterate h d e out = (d', o') -> (length (dx_in d) <= hd_in h)%nat ->
  (length (dispatched o') = 0%nat \/ out = []) -> easy h d'.
Proof.
  intros h d e out d' o' I L F. unfold iterate in I.
  destruct (step (dx_loop d) e) as [s1 o1] eqn:St.
  destruct (step_dispatch _ _ _ _ St) as [Sd _].
  destruct (dispatch_of o1) as [r|] eqn:Dp.
  - destruct (room _ _) eqn:Rm; inversion I; subst.
    + apply Nat.ltb_lt in Rm. split; cbn; [rewrite app_length; cbn; lia|congruence].
    + split; cbn; [exact L|]. intros _. right; right.
      destruct F as [F|F]; [rewrite Sd in F; discriminate F|exact F].
  - inversion I; subst. split; cbn; [exact L|congruence].
Qed.

Lemma easy_step : forall h d m,
  easy h d -> match m with MvLoop _ => dx_out d = [] | _ => True end ->
  easy h (fst (duplex_step h d m)).
Proof.
  intros h d m Ed P. pose proof Ed as [L E]. destruct m as [e|io| | |]; cbn [duplex_step].
  - destruct (dx_wait d) eqn:Ew; [exact Ed|].
    destruct (outside e); [|exact Ed].
    destruct (iterate h d e (dx_out d)) as [d' o'] eqn:I. cbn [fst].
    eapply easy_iterate; [exact I|exact L|right; exact P].
  - destruct (dx_wait d) eqn:Ew; [exact Ed|].
    destruct (dx_out d) as [|x rest] eqn:Eo; [exact Ed|].
    destruct (iterate h d (EvHandler x io) rest) as [d' o'] eqn:I. cbn [fst].
    eapply easy_iterate; [exact I|exact L|left].
    unfold iterate in I. destruct (step (dx_loop d) (EvHandler x io)) as [s1 o1] eqn:St.
    assert (Z : dispatched o1 = []).
    { unfold step in St. destruct (l_status (dx_loop d)); [|inversion St; reflexivity..].
      destruct x; try (inversion St; reflexivity).
      unfold send_outgoing_response in St. destruct (Nat.leb _ _); inversion St; reflexivity. }
    destruct (dispatch_of o1); [destruct (room _ _)|]; inversion I; subst; rewrite Z; reflexivity.
  - destruct (dx_wait d) as [w|] eqn:Ew; [|exact Ed].
    destruct (room _ _) eqn:Rm; [|exact Ed].
    apply Nat.ltb_lt in Rm. split; cbn; [rewrite app_length; cbn; lia|congruence].
  - destruct (dx_reply d) eqn:Er; [exact Ed|].
    destruct (dx_in d) as [|r rest] eqn:Ei; [exact Ed|].
    split; cbn in *; [lia|]. intros _; left; lia.
  - destruct (dx_reply d) eqn:Er; [|exact Ed].
    destruct (l_status (dx_loop d)).
    + destruct (room _ _); [|exact Ed].
      split; cbn; [assumption|]. intros _; right; left; reflexivity.
    + split; cbn; [assumption|]. intros _; right; left; reflexivity.
    + split; cbn; [assumption|]. intros _; right; left; reflexivity.
Qed.

Lemma easy_run : forall h ms d, easy h d -> polite h d ms -> easy h (fst (duplex_run h d ms)).
Proof.
  intros h; induction ms as [|m ms IH]; intros d E P; [exact E|].
  destruct P as [P1 P2]. cbn [duplex_run].
  destruct (duplex_step h d m) as [d1 o1] eqn:S; destruct (duplex_run h d1 ms) as [d2 o2] eqn:R.
  cbn [fst]. specialize (IH d1). rewrite R in IH; cbn [fst] in IH. apply IH.
  - replace d1 with (fst (duplex_step h d m)) by (rewrite S; reflexivity). apply easy_step; assumption.
  - exact P2.
Qed.

Lemma polite_not_stuck : forall h n ms d os,
  (1 <= hd_out h)%nat -> polite h (duplex_new n) ms ->
  duplex_run h (duplex_new n) ms = (d, os) -> ~ stuck h d.
Proof.
  intros h n ms d os C P H (Sw & Sr & Si & So).
  assert (E : easy h (duplex_new n)) by (split; cbn; [lia|congruence]).
  pose proof (easy_run h ms _ E P) as [_ K]. rewrite H in K; cbn [fst] in K.
  destruct (K Sw) as [K1|[K1|K1]]; [lia|congruence|]. rewrite K1 in So; cbn in So; lia.
Qed.

(** Getting stuck. *)
Definition fill (h : handler) (ms : list move) (k : nat) : list move := concat (repeat ms k).

Lemma sp_request_step : forall s peer dg io hd m,
  sp_request dg hd m -> l_status s = Running -> l_handler s = true ->
  step s (EvDatagram peer dg io) = (s, [ODispatch (mkRpc hd m None)]).
Proof.
  intros s peer dg io hd m (rest & rest' & A & B & C) St Hh.
  unfold step; rewrite St; unfold handle_datagram. rewrite A, B. unfold handle_sp_request. rewrite C, Hh.
  reflexivity.
Qed.

Lemma repeat_snoc' : forall {A} (x : A) k, repeat x k ++ [x] = repeat x (S k).
Proof. intros A x k; induction k as [|k IH]; [reflexivity|]. cbn [repeat app]; rewrite IH; reflexivity. Qed.

(** A request in, taken and its reply on the way back: [k] times. *)
Lemma fill_out : forall h peer dg io hd m s k j,
  sp_request dg hd m -> l_status s = Running -> l_handler s = true -> (1 <= hd_in h)%nat ->
  (j + k <= hd_out h)%nat ->
  let r := mkRpc hd m None in
  duplex_run h (mkDuplex s [] None None (repeat (hd_reply h r) j))
    (concat (repeat [MvLoop (EvDatagram peer dg io); MvTake; MvGive] k)) =
  (mkDuplex s [] None None (repeat (hd_reply h r) (j + k)), repeat (ODispatch r) k).
Proof.
  intros h peer dg io hd m s k; induction k as [|k IH]; intros j Q St Hh Ci Co r; subst r.
  - cbn. rewrite Nat.add_0_r; reflexivity.
  - cbn [repeat concat app].
    cbn [duplex_run duplex_step dx_wait outside dx_out]. unfold iterate; cbn [dx_loop].
    rewrite (sp_request_step s peer dg io hd m Q St Hh). cbn [dispatch_of find].
    cbn [dx_in dx_reply dx_out]. rewrite room_true by (cbn; lia).
    cbn [duplex_run duplex_step dx_wait dx_in dx_reply dx_loop dx_out app]. rewrite St.
    rewrite room_true by (rewrite repeat_length; lia).
    rewrite repeat_snoc'. cbn zeta.
    pose proof (IH (S j) Q St Hh Ci ltac:(lia)) as K. cbn zeta in K. rewrite K.
    rewrite Nat.add_succ_comm. reflexivity.
Qed.

(** Then requests only. *)
Lemma fill_in : forall h peer dg io hd m s k j x out,
  sp_request dg hd m -> l_status s = Running -> l_handler s = true ->
  (j + k <= hd_in h)%nat ->
  let r := mkRpc hd m None in
  duplex_run h (mkDuplex s (repeat r j) None (Some x) out)
    (repeat (MvLoop (EvDatagram peer dg io)) k) =
  (mkDuplex s (repeat r (j + k)) None (Some x) out, repeat (ODispatch r) k).
Proof.
  intros h peer dg io hd m s k; induction k as [|k IH]; intros j x out Q St Hh Ci r; subst r.
  - cbn. rewrite Nat.add_0_r; reflexivity.
  - cbn [repeat].
    cbn [duplex_run duplex_step dx_wait outside dx_out]. unfold iterate; cbn [dx_loop].
    rewrite (sp_request_step s peer dg io hd m Q St Hh). cbn [dispatch_of find].
    cbn [dx_in dx_reply dx_out]. rewrite room_true by (rewrite repeat_length; lia).
    rewrite repeat_snoc'. cbn zeta. pose proof (IH (S j) x out Q St Hh ltac:(lia)) as K. cbn zeta in K. rewrite K.
    rewrite Nat.add_succ_comm. reflexivity.
Qed.

(** Both channels filled, one reply and one request waiting. *)
Definition jam (h : handler) (peer : N) (dg : list N) : list move :=
  let g := MvLoop (EvDatagram peer dg true) in
  concat (repeat [g; MvTake; MvGive] (hd_out h)) ++ [g; MvTake] ++ repeat g (hd_in h) ++ [g].

Lemma jam_datagrams : forall h peer dg,
  length (filter is_datagram (jam h peer dg)) = (hd_in h + hd_out h + 2)%nat.
Proof.
  intros h peer dg. unfold jam. rewrite !filter_app, !app_length.
  assert (A : forall k, length (filter is_datagram
            (concat (repeat [MvLoop (EvDatagram peer dg true); MvTake; MvGive] k))) = k).
  { induction k as [|k IH]; [reflexivity|]. cbn [repeat concat app filter is_datagram length].
    rewrite IH; reflexivity. }
  assert (B : forall k, length (filter is_datagram (repeat (MvLoop (EvDatagram peer dg true)) k)) = k).
  { induction k as [|k IH]; [reflexivity|]. cbn [repeat filter is_datagram length]. rewrite IH; reflexivity. }
  rewrite A, B. cbn. lia.
Qed.

Lemma jam_stuck : forall h peer dg hd m s,
  sp_request dg hd m -> l_status s = Running -> l_handler s = true ->
  (1 <= hd_in h)%nat ->
  let r := mkRpc hd m None in
  duplex_run h (mkDuplex s [] None None []) (jam h peer dg) =
  (mkDuplex s (repeat r (hd_in h)) (Some r) (Some (hd_reply h r)) (repeat (hd_reply h r) (hd_out h)),
   repeat (ODispatch r) (hd_out h) ++ [ODispatch r] ++ repeat (ODispatch r) (hd_in h) ++ [ODispatch r]).
Proof.
  intros h peer dg hd m s Q St Hh Ci r. unfold jam.
  pose proof (fill_out h peer dg true hd m s (hd_out h) 0 Q St Hh Ci ltac:(lia)) as F.
  cbn zeta in F. fold r in F. cbn [repeat Nat.add] in F.
  rewrite duplex_run_app, F, duplex_run_app. clear F.
  cbn [duplex_run duplex_step dx_wait outside dx_out]. unfold iterate at 1; cbn [dx_loop].
  rewrite (sp_request_step s peer dg true hd m Q St Hh). fold r. cbn [dispatch_of find].
  cbn [dx_in dx_reply dx_out dx_wait dx_loop]. rewrite room_true by (cbn; lia).
  cbn [app dx_in dx_reply dx_out dx_wait dx_loop].
  pose proof (fill_in h peer dg true hd m s (hd_in h) 0 (hd_reply h r) (repeat (hd_reply h r) (hd_out h))
                Q St Hh ltac:(lia)) as F.
  cbn zeta in F. fold r in F. cbn [repeat Nat.add] in F.
  rewrite duplex_run_app, F. clear F.
  cbn [duplex_run duplex_step dx_wait outside dx_out]. unfold iterate; cbn [dx_loop].
  rewrite (sp_request_step s peer dg true hd m Q St Hh). fold r. cbn [dispatch_of find].
  cbn [dx_in dx_reply dx_out dx_wait dx_loop]. rewrite room_false by (rewrite repeat_length; lia).
  cbn [app]. reflexivity.
Qed.

Lemma can_get_stuck : forall h n tag r p (peer : N) dg hd m,
  (1 <= hd_in h)%nat -> request_packet r = Some p -> sp_request dg hd m ->
  exists ms d os, duplex_run h (duplex_new n) ms = (d, os) /\
    length (filter is_datagram ms) = (hd_in h + hd_out h + 2)%nat /\
    In (OAccept tag r) os /\ In (OTx tag p) os /\ (forall x, ~ In (OReply tag x) os) /\ stuck h d.
Proof.
  intros h n tag r p peer dg hd m Ci Hp Q.
  exists (MvLoop (EvRequest tag r true) :: jam h peer dg).
  set (s := mkLoop (match n with Some n => n | None => 2 ^ 64 - 1 end)
              (Some (mkOut tag r (0 + 1) 0 false)) true Running).
  pose proof (jam_stuck h peer dg hd m s Q eq_refl eq_refl Ci) as J. cbn zeta in J.
  assert (S1 : duplex_step h (duplex_new n) (MvLoop (EvRequest tag r true)) =
               (mkDuplex s [] None None [], [OAccept tag r; OTx tag p])).
  { cbn [duplex_step duplex_new dx_wait outside dx_out]. unfold iterate; cbn [dx_loop].
    unfold step. cbn [loop_new l_status l_out]. unfold send_outgoing_request. cbn [o_request].
    rewrite Hp. reflexivity. }
  do 2 eexists. split; [|split; [|split; [|split; [|split]]]].
  - cbn [duplex_run]. rewrite S1, J. reflexivity.
  - cbn [filter is_datagram]. apply jam_datagrams.
  - cbn; left; reflexivity.
  - cbn; right; left; reflexivity.
  - intros x I. cbn [app In] in I. destruct I as [I|[I|I]]; [discriminate I|discriminate I|].
    apply in_app_or in I. destruct I as [I|[I|I]]; [apply repeat_spec in I; discriminate I|discriminate I|].
    apply in_app_or in I. destruct I as [I|[I|[]]]; [apply repeat_spec in I; discriminate I|discriminate I].
  - repeat split; cbn [dx_wait dx_reply dx_in dx_out]; try congruence; rewrite repeat_length; lia.
Qed.

(** When it does not wait, the loop acts as before. *)
Lemma loop_acts : forall h d e,
  dx_wait d = None -> outside e = true ->
  dx_loop (fst (duplex_step h d (MvLoop e))) = fst (step (dx_loop d) e) /\
  snd (duplex_step h d (MvLoop e)) = snd (step (dx_loop d) e).
Proof.
  intros h d e W O. cbn [duplex_step]. rewrite W, O. unfold iterate.
  destruct (step (dx_loop d) e) as [s os]. destruct (dispatch_of os); [destruct (room _ _)|]; auto.
Qed.

Lemma handler_event_silent : forall s x io s' os, step s (EvHandler x io) = (s', os) -> dispatch_of os = None.
Proof.
  intros s x io s' os H. unfold step in H. destruct (l_status s); [|inversion H; reflexivity..].
  destruct x; try (inversion H; reflexivity).
  unfold send_outgoing_response in H. destruct (Nat.leb _ _); inversion H; reflexivity.
Qed.

Lemma loop_hears : forall h d x rest io,
  dx_wait d = None -> dx_out d = x :: rest ->
  dx_loop (fst (duplex_step h d (MvReply io))) = fst (step (dx_loop d) (EvHandler x io)) /\
  snd (duplex_step h d (MvReply io)) = snd (step (dx_loop d) (EvHandler x io)) /\
  dx_out (fst (duplex_step h d (MvReply io))) = rest.
Proof.
  intros h d x rest io W O. cbn [duplex_step]. rewrite W, O. unfold iterate.
  destruct (step (dx_loop d) (EvHandler x io)) as [s os] eqn:S.
  rewrite (handler_event_silent _ _ _ _ _ S). auto.
Qed.

(** Emptying everything. *)
Definition weight (d : duplex) : nat :=
  3 * length (dx_in d) + 4 * length (one (dx_wait d)) + 2 * length (one (dx_reply d)) + length (dx_out d).

Definition own (m : move) : Prop := inner m \/ exists io, m = MvReply io.

Lemma drain_step : forall h n es d os,
  (1 <= hd_in h)%nat -> (1 <= hd_out h)%nat -> modest h ->
  tied h n es d os -> l_status (dx_loop d) = Running -> ~ stuck h d -> ~ idle d ->
  exists m, own m /\ (weight (fst (duplex_step h d m)) < weight d)%nat /\
    ~ stuck h (fst (duplex_step h d m)) /\ dx_loop (fst (duplex_step h d m)) = dx_loop d.
Proof.
  intros h n es d os Ci Co Md (R & W & Li & Lo & taken & D & T) St NS NI.
  specialize (T St).
  destruct d as [s din wait rep dout]; cbn [dx_loop dx_in dx_wait dx_reply dx_out] in *.
  assert (Give : forall x, rep = Some x -> (length dout < hd_out h)%nat ->
    exists m, own m /\ (weight (fst (duplex_step h (mkDuplex s din wait rep dout) m)) <
                        weight (mkDuplex s din wait rep dout))%nat /\
      ~ stuck h (fst (duplex_step h (mkDuplex s din wait rep dout) m)) /\
      dx_loop (fst (duplex_step h (mkDuplex s din wait rep dout) m)) = s).
  { intros x -> L. exists MvGive. split; [left; right; right; reflexivity|].
    cbn [duplex_step dx_reply dx_loop dx_out dx_in dx_wait]. rewrite St, (room_true _ _ L). cbn [fst].
    split; [|split; [|reflexivity]].
    - unfold weight; cbn [dx_in dx_wait dx_reply dx_out]. rewrite app_length; cbn [one length]. lia.
    - intros (_ & K & _). apply K; reflexivity. }
  destruct wait as [w|].
  - destruct (Nat.lt_ge_cases (length din) (hd_in h)) as [L|L].
    + exists MvPut. split; [left; left; reflexivity|].
      cbn [duplex_step dx_reply dx_loop dx_out dx_in dx_wait]. rewrite (room_true _ _ L). cbn [fst].
      split; [|split; [|reflexivity]].
      * unfold weight; cbn [dx_in dx_wait dx_reply dx_out]. rewrite app_length; cbn [one length]. lia.
      * intros (K & _). apply K; reflexivity.
    + destruct rep as [x|].
      * apply (Give x); [reflexivity|]. apply Nat.nle_gt. intro Q. apply NS.
        repeat split; cbn; try congruence; assumption.
      * destruct din as [|r rest]; [cbn in L; lia|].
        exists MvTake. split; [left; right; left; reflexivity|].
        cbn [duplex_step dx_reply dx_loop dx_out dx_in dx_wait fst].
        split; [|split; [|reflexivity]].
        -- unfold weight; cbn [dx_in dx_wait dx_reply dx_out one length]. lia.
        -- intros (_ & _ & K & _). cbn in K, Li. lia.
  - destruct dout as [|y dout'].
    + destruct rep as [x|]; [apply (Give x); [reflexivity|cbn; lia]|].
      destruct din as [|r rest]; [exfalso; apply NI; repeat split|].
      exists MvTake. split; [left; right; left; reflexivity|].
      cbn [duplex_step dx_reply dx_loop dx_out dx_in dx_wait fst].
      split; [|split; [|reflexivity]].
      * unfold weight; cbn [dx_in dx_wait dx_reply dx_out one length]. lia.
      * intros (K & _). apply K; reflexivity.
    + exists (MvReply true). split; [right; exists true; reflexivity|].
      assert (Sy : step s (EvHandler y true) = (s, snd (step s (EvHandler y true)))).
      { unfold step; rewrite St. destruct y as [x| |]; [|reflexivity..].
        unfold send_outgoing_response.
        assert (Iy : In (HandlerSend x) (map (hd_reply h) taken)).
        { rewrite T. apply in_or_app; right; left; reflexivity. }
        apply in_map_iff in Iy. destruct Iy as (r & E & _). apply Md in E.
        rewrite (proj2 (Nat.leb_le _ _)) by (rewrite app_length; lia). reflexivity. }
      cbn [duplex_step dx_reply dx_loop dx_out dx_in dx_wait]. unfold iterate; cbn [dx_loop].
      rewrite Sy. rewrite (handler_event_silent _ _ _ _ _ Sy). cbn [fst dx_in dx_reply dx_loop].
      split; [|split; [|reflexivity]].
      * unfold weight; cbn [dx_in dx_wait dx_reply dx_out one length]. lia.
      * intros (K & _). apply K; reflexivity.
Qed.

Lemma idle_dec : forall d, idle d \/ ~ idle d.
Proof.
  intros [s din wait rep dout]; unfold idle; cbn.
  destruct din; [|right; intros (K & _); discriminate K].
  destruct wait; [right; intros (_ & K & _); discriminate K|].
  destruct rep; [right; intros (_ & _ & K & _); discriminate K|].
  destruct dout; [left; auto|right; intros (_ & _ & _ & K); discriminate K].
Qed.

Lemma drain : forall h n k es d os,
  (1 <= hd_in h)%nat -> (1 <= hd_out h)%nat -> modest h ->
  tied h n es d os -> l_status (dx_loop d) = Running -> ~ stuck h d -> (weight d <= k)%nat ->
  exists ms, Forall own ms /\ idle (fst (duplex_run h d ms)) /\ dx_loop (fst (duplex_run h d ms)) = dx_loop d.
Proof.
  intros h n k; induction k as [|k IH]; intros es d os Ci Co Md Td St NS Wk;
    (destruct (idle_dec d) as [I|I]; [exists []; repeat split; try apply I; constructor|]);
    destruct (drain_step h n es d os Ci Co Md Td St NS I) as (m & Om & Lt & NS' & Lp); [lia|].
  destruct (duplex_step h d m) as [d1 o1] eqn:S. cbn [fst] in *.
  destruct (tied_step _ _ _ _ _ _ _ _ Td S) as [es1 T1].
  destruct (IH es1 d1 (os ++ o1) Ci Co Md T1 ltac:(congruence) NS' ltac:(lia)) as (ms & A & B & C).
  exists (m :: ms). cbn [duplex_run]. rewrite S. destruct (duplex_run h d1 ms) as [d2 o2]. cbn [fst] in *.
  split; [constructor; assumption|]. split; [exact B|congruence].
Qed.

Lemma drained : forall h n ms d os,
  (1 <= hd_in h)%nat -> (1 <= hd_out h)%nat -> modest h ->
  duplex_run h (duplex_new n) ms = (d, os) -> l_status (dx_loop d) = Running -> ~ stuck h d ->
  exists ms', Forall (fun m => inner m \/ exists io, m = MvReply io) ms' /\
    idle (fst (duplex_run h d ms')) /\ dx_loop (fst (duplex_run h d ms')) = dx_loop d.
Proof.
  intros h n ms d os Ci Co Md H St NS. destruct (tied_start _ _ _ _ _ H) as (es & Td).
  exact (drain h n (weight d) es d os Ci Co Md Td St NS (le_n _)).
Qed.
