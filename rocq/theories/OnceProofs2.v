(** One call over a network that keeps order does what it does alone (C96). *)
From Coq Require Import Lia.
From Verif Require Export SpecOnce.
From Verif Require Import Tac Spec IoProofs IoProofs2 IoProofs3 NetProofs NetProofs2 ProgProofs ConcProofs OnceProofs.
Import ListNotations.
Open Scope N_scope.

(** ** The requests of a call *)
Fixpoint asked {A} (p : prog A) (xs : list reply) (c : N) : list Rpc :=
  match p with
  | Ret _ => []
  | Nap _ p => asked p xs c
  | Ask q d k =>
      match xs with
      | [] => []
      | Ok r :: rest => host_request c q d :: asked (k (Told (msg_body (rpc_message r)) (rpc_data r))) rest ((c + 1) mod 2 ^ 64)
      | Err e :: rest => host_request c q d :: asked (k (Missed e)) rest ((c + 1) mod 2 ^ 64)
      | Panic :: rest => [host_request c q d]
      end
  end.
Definition pend {A} (c : call A) : list Rpc := match c with Waiting _ id q d _ => [host_request id q d] | Going _ _ => [] end.
Lemma id_next c n : ((c + 1) mod 2 ^ 64 + N.of_nat n) mod 2 ^ 64 = (c + N.of_nat (S n)) mod 2 ^ 64.
Proof. rewrite N.add_mod_idemp_l by discriminate. f_equal. lia. Qed.
Lemma asked_none {A} (p : prog A) c : asked p [] c = [].
Proof. induction p as [y|q d k IH|u p IH]; cbn; auto. Qed.
Lemma asked_snoc {A} (p : prog A) : forall xs q d k x c, c < 2 ^ 64 -> resume p xs = Ask q d k ->
  asked p (xs ++ [x]) c = asked p xs c ++ [host_request ((c + N.of_nat (length xs)) mod 2 ^ 64) q d].
Proof.
  induction p as [y|q' d' k' IH|u p IH]; intros xs q d k x c Hc E; cbn [resume asked] in *; [discriminate| |now apply IH with k].
  destruct xs as [|y xs]; cbn [app length] in *.
  - injection E as -> -> ->. cbn [N.of_nat]. rewrite N.add_0_r, (N.mod_small c) by exact Hc. destruct x; rewrite ?asked_none; reflexivity.
  - destruct y; try discriminate; erewrite IH by (try eassumption; now apply N.mod_lt); rewrite id_next; reflexivity.
Qed.
Lemma hears_one {A} outs (c : call A) : hear_all outs [c] = [c] \/
  exists xs id q d k x, c = Waiting xs id q d k /\ hear_all outs [c] = [Going (xs ++ [x]) (heard k x)] /\ In (OReply id x) outs.
Proof.
  induction outs as [|o outs IH]; [now left|].
  change (hear_all (o :: outs) [c]) with (hear_all outs (match o with OReply tag x => map (hear tag x) [c] | _ => [c] end)).
  assert (K : hear_all outs [c] = [c] \/ exists xs id q d k x, c = Waiting xs id q d k /\ hear_all outs [c] = [Going (xs ++ [x]) (heard k x)] /\ In (OReply id x) (o :: outs)).
  { destruct IH as [IH|(xs & id & q & d & k & x & H1 & H2 & H3)]; [now left|right]. exists xs, id, q, d, k, x. repeat split; [exact H1|exact H2|now right]. }
  destruct o as [tag r|tag pkt|tag x| | | |]; try exact K. cbn [map]. destruct c as [xs p|xs id q d k]; [exact K|]. cbn [hear].
  destruct (N.eqb_spec id tag) as [->|]; [|exact K]. right. exists xs, tag, q, d, k, x. split; [reflexivity|]. split; [|now left].
  clear. generalize (xs ++ [x]), (heard k x). intros l p. induction outs as [|o outs IH]; [reflexivity|]. cbn [hear_all fold_left]. destruct o; exact IH.
Qed.
Lemma accepts {St} (sp : St -> Rpc -> St * reply) n r io : idle n = true -> requests (snd (net_step sp n (MRequest (rpc_id r) r io))) = [r].
Proof.
  unfold idle. intro Hi. cbn [net_step move_event]. unfold step. destruct (l_status (nt_loop n)); try discriminate. destruct (l_out (nt_loop n)); [discriminate|].
  unfold send_outgoing_request. destruct (request_packet _); cbn; [|reflexivity]. destruct io; reflexivity.
Qed.

Section One.
  Context {St A : Type} (sp : St -> Rpc -> St * reply) (Hpol : polite sp) (retries : option N) (s0 : St) (c0 : N) (Hc0 : c0 < 2 ^ 64) (p : prog A).
  Notation n0 := (net_new retries s0).
  Notation sys0 := (sys_new retries s0 c0 [p]).
  Notation sys_run := (sys_run (A := A) sp sys0).
  Notation nets := (nets sp sys0).
  Notation log ts := (net_log sp n0 (nets ts)).

  Record one (n : nat) (s : sys St A) (l : list output) (c : call A) : Prop :=
    { o_few : (length (got c) + length (pend c) <= n)%nat;
      o_calls : sy_calls s = [c];
      o_is : is_at p c;
      o_asked : requests l ++ sy_queue s = asked p (got c) c0 ++ pend c;
      o_ctr : sy_counter s = (c0 + N.of_nat (length (got c) + length (pend c))) mod 2 ^ 64;
      o_id : match c with Waiting xs id _ _ _ => id = (c0 + N.of_nat (length xs)) mod 2 ^ 64 | _ => True end;
      o_got : forall m y, nth_error (got c) m = Some y -> In (OReply ((c0 + N.of_nat m) mod 2 ^ 64) y) l }.
  Lemma requests_none (sp' : St -> Rpc -> St * reply) n m : match m with MRequest _ _ _ => False | _ => True end -> requests (snd (net_step sp' n m)) = [].
  Proof.
    intro Hm. destruct (run_requests sp' n [m]) as [_ H]; [destruct m; (contradiction || constructor)|].
    rewrite net_log_cons, app_nil_r in H. destruct (requests _) as [|r l]; [reflexivity|]. exfalso. specialize (H r (or_introl eq_refl)). destruct m; auto.
  Qed.
  Lemma one_run ts : forallb turn_ok ts = true -> few_turns ts -> exists c, one (length ts) (sys_run ts) (log ts) c.
  Proof.
    induction ts as [|t ts IH] using rev_ind; intros Hok Hlen.
    - exists (Going [] p). constructor; cbn; auto.
      + now rewrite asked_none.
      + now rewrite N.add_0_r, N.mod_small.
      + intros [|m]; discriminate.
    - assert (Hok' : forallb turn_ok ts = true) by (rewrite forallb_app in Hok; apply andb_prop in Hok; tauto).
      assert (Hlen' : few_turns ts) by (unfold few_turns, Nlen in *; rewrite app_length in Hlen; cbn in Hlen; lia).
      destruct (IH Hok' Hlen') as (c & [Hfew Hc Hat Hask Hctr Hid Hgot]).
      destruct (inv_run sp retries s0 c0 Hc0 [p] ts Hok' Hlen') as (n & _ & Hi). pose proof Hi as [Hnet _ _ Htags Hq Hnd _ _ _ _].
      rewrite run_snoc, nets_snoc, net_log_app, <- Hnet. clear IH Hok Hlen. set (s := sys_run ts) in *. set (l := log ts) in *.
      assert (Hl' : length (ts ++ [t]) = S (length ts)) by (rewrite app_length; cbn; lia).
      assert (K : forall net outs queue, (requests l ++ requests outs) ++ queue = requests l ++ sy_queue s ->
        exists c', one (length (ts ++ [t])) (mkSys net (sy_counter s) queue (hear_all outs (sy_calls s))) (l ++ outs) c').
      { intros net outs queue Hr. rewrite Hc. destruct (hears_one outs c) as [E|(xs & id & q & d & k & x & -> & E & Hin)]; rewrite E.
        - exists c. constructor; cbn [sy_calls sy_queue sy_counter]; auto; [lia|..].
          + rewrite requests_app. congruence.
          + intros m y H. apply in_or_app. left. now apply Hgot.
        - cbn [got pend is_at length] in *. exists (Going (xs ++ [x]) (heard k x)). constructor; cbn [sy_calls sy_queue sy_counter got pend is_at length].
          + rewrite app_length. cbn [length]. lia.
          + reflexivity.
          + eapply resume_snoc. exact Hat.
          + rewrite requests_app, app_nil_r, (asked_snoc p xs q d k x c0 Hc0 Hat), <- Hid. congruence.
          + rewrite app_length. cbn [length]. rewrite Nat.add_0_r. exact Hctr.
          + exact I.
          + intros m y H. apply in_or_app. destruct (Nat.lt_ge_cases m (length xs)) as [Hm|Hm].
            * rewrite nth_error_app1 in H by exact Hm. left. now apply Hgot.
            * rewrite nth_error_app2 in H by exact Hm. destruct (m - length xs)%nat as [|z] eqn:Ez; [|destruct z; discriminate].
              injection H as <-. right. replace m with (length xs) by lia. now rewrite <- Hid. }
      destruct (turn_kinds sp s t) as [Em Es|j xs' q' d' k' Et Em Ei Ewf Es|j xs' u p' Et Em Ei Es|r io a b Em Eq El Es|m Em Et Hm Es]; rewrite Es, Em.
      + exists c. cbn [net_log net_run snd]. rewrite app_nil_r. constructor; auto. lia.
      + rewrite Hc in Ei. destruct j as [|[|]]; try discriminate. injection Ei as ->. cbn [got pend is_at length] in *. rewrite Hc. cbn [update].
        exists (Waiting xs' (sy_counter s) q' d' k'). cbn [net_log net_run snd]. rewrite app_nil_r.
        rewrite app_nil_r in Hask. rewrite Nat.add_0_r in Hctr. constructor; cbn [sy_calls sy_queue sy_counter got pend is_at length].
        * lia. * reflexivity. * exact Hat. * now rewrite app_assoc, Hask. * rewrite Hctr, N.add_mod_idemp_l by discriminate. f_equal. lia. * exact Hctr. * exact Hgot.
      + rewrite Hc in Ei. destruct j as [|[|]]; try discriminate. injection Ei as ->. cbn [got pend is_at length] in *. rewrite Hc. cbn [update].
        exists (Going xs' p'). cbn [net_log net_run snd]. rewrite app_nil_r. constructor; cbn [sy_calls sy_queue sy_counter got pend is_at length]; auto. lia.
      + rewrite net_log_cons, app_nil_r. apply K. rewrite Eq. assert (Ei : idle (sy_net s) = true).
        { destruct t as [i|j io'|m']; cbn in Em; [discriminate| |destruct m'; discriminate]. destruct (nth_error _ _); [|discriminate]. now destruct (idle _). }
        rewrite accepts by exact Ei.
        assert (Hall : forall r', In r' (sy_queue s) -> rpc_id r' = rpc_id r).
        { assert (G : forall r', In r' (sy_queue s) -> exists xs id q d k, c = Waiting xs id q d k /\ rpc_id r' = id).
          { intros r' Hr'. destruct (Hq r' Hr') as (_ & i & q & d & (xs & k & Hw) & _). rewrite Hc in Hw. destruct i as [|[|]]; try discriminate.
            injection Hw as ->. exists xs, (rpc_id r'), q, d, k. split; reflexivity. }
          intros r' Hr'. destruct (G r' Hr') as (xs & id & q & d & k & E1 & E2). destruct (G r) as (xs2 & id2 & q2 & d2 & k2 & E3 & E4); [rewrite Eq; apply in_elt|].
          congruence. }
        assert (Hone : a = [] /\ b = []).
        { rewrite map_app in Hnd. assert (N : NoDup (map rpc_id (sy_queue s))).
          { clear - Hnd. induction (map rpc_id (handed_over _)) as [|y m IH]; [exact Hnd|]. inversion Hnd. auto. }
          rewrite Eq, map_app in N. cbn [map] in N. apply NoDup_remove_2 in N. rewrite Eq in Hall. split.
          - destruct a as [|y a]; [reflexivity|]. exfalso. apply N. rewrite <- (Hall y) by now left. now left.
          - destruct b as [|y b]; [reflexivity|]. exfalso. apply N. rewrite <- (Hall y) by (apply in_or_app; right; right; now left). apply in_or_app. right. now left. }
        destruct Hone as [-> ->]. cbn. now rewrite app_nil_r.
      + rewrite net_log_cons, app_nil_r. apply K. rewrite requests_none by exact Hm. now rewrite app_nil_r.
  Qed.

  Lemma fit_turns ts : forallb turn_ok ts = true -> few_turns ts -> Forall still_turn ts -> turns_in_turn sp sys0 ts -> fit sp retries s0 (nets ts).
  Proof.
    intros Hok Hlen Hst Ht. destruct (inv_run sp retries s0 c0 Hc0 [p] ts Hok Hlen) as (n & _ & [_ _ _ Htags _ Hnd _ _ _ _]).
    assert (N : NoDup (map rpc_id (handed_over (nets ts)))).
    { rewrite map_app in Hnd. clear - Hnd. induction (map rpc_id (handed_over _)) as [|y l IH]; [constructor|]. cbn in Hnd. inversion Hnd; subst.
      constructor; [|auto]. intros Hy. apply H1. apply in_or_app. now left. }
    destruct (run_requests sp n0 (nets ts) N) as [N' I]. split; [|split; [exact N'|split]].
    - apply Forall_forall. intros r Hr. apply I, handed_in in Hr. destruct Hr as (tag & io & Hr). now apply Htags in Hr.
    - apply Forall_forall. intros m Hm x ->. apply in_split in Hm. destruct Hm as (a & b & E). destruct (nets_split sp _ _ _ _ _ E) as (pre & t & post & -> & _ & Et).
      apply Forall_app in Hst. destruct Hst as [_ Hst]. inversion Hst as [|? ? H _]; subst. destruct t as [i|j io|m]; cbn in Et; [discriminate| |].
      + destruct (nth_error _ _); [|discriminate]. destruct (idle _); discriminate.
      + destruct m; try discriminate. injection Et as ->. now apply (H x).
    - assert (G : forall k pre t, moves_of (SpecConc.sys_run sp sys0 pre) t = [MServe k] -> t = TNet (MServe k)).
      { intros k pre t Et. destruct t as [i|j io|m]; cbn in Et; [discriminate| |].
        - destruct (nth_error _ _); [|discriminate]. destruct (idle _); discriminate.
        - destruct m; try discriminate; congruence. }
      assert (P : forall a b, ts = a ++ b -> sy_net (sys_run a) = net_after sp n0 (nets a)).
      { intros a b ->. rewrite forallb_app in Hok. apply andb_prop in Hok. destruct Hok as [Ha _]. assert (La : few_turns a) by (unfold few_turns, Nlen in *; rewrite app_length in Hlen; lia).
        destruct (inv_run sp retries s0 c0 Hc0 [p] a Ha La) as (n' & _ & [Hn _ _ _ _ _ _ _ _ _]). exact Hn. }
      intros pre k mid k' post d d' E Hd Hd'.
      change (MServe k :: mid ++ MServe k' :: post) with ((MServe k :: mid) ++ MServe k' :: post) in E. rewrite app_assoc in E.
      destruct (nets_split sp _ _ _ _ _ E) as (P2 & t2 & Q2 & E2 & En2 & Et2). apply G in Et2. subst t2.
      destruct (nets_split sp _ _ _ _ _ En2) as (P1 & t1 & Q1 & E1 & En1 & Et1). apply G in Et1. subst t1.
      apply (Ht P1 k Q1 k' Q2 d d').
      + rewrite E2, E1, <- app_assoc. reflexivity.
      + rewrite (P P1 (TNet (MServe k) :: Q1 ++ TNet (MServe k') :: Q2)), En1; [exact Hd|rewrite E2, E1, <- app_assoc; reflexivity].
      + rewrite <- E1, (P P2 (TNet (MServe k') :: Q2) E2), En2. exact Hd'.
  Qed.
End One.

(** ** Which of the requests were done *)
Lemma sorted_seq js : forall a n, StronglySorted lt js -> (forall m, (a <= m < a + n)%nat -> In m js) -> (forall j, In j js -> (a <= j <= a + n)%nat) ->
  js = seq a n \/ js = seq a (S n).
Proof.
  induction js as [|j js IH]; intros a n So I B.
  - destruct n as [|n]; [now left|]. destruct (I a). lia.
  - apply StronglySorted_inv in So. destruct So as [So F]. rewrite Forall_forall in F. pose proof (B j (or_introl eq_refl)) as Bj.
    destruct n as [|n].
    + right. assert (j = a) by lia. subst j. cbn. destruct js as [|j' js]; [reflexivity|]. pose proof (F j' (or_introl eq_refl)). pose proof (B j' (or_intror (or_introl eq_refl))). lia.
    + assert (j = a). { destruct (I a) as [->|Ha]; [lia|reflexivity|]. apply F in Ha. lia. } subst j.
      destruct (IH (S a) n So) as [->| ->].
      * intros m Hm. destruct (I m) as [->|Hm']; [lia|lia|exact Hm'].
      * intros j Hj. pose proof (F j Hj). pose proof (B j (or_intror Hj)). lia.
      * left. reflexivity.
      * right. reflexivity.
Qed.
Lemma picks_seq {B} (l : list B) : forall n qs, map (nth_error l) (seq 0 n) = map Some qs -> qs = firstn n l.
Proof.
  induction l as [|x l IH]; intros n qs E.
  - destruct n as [|n]; cbn in E; destruct qs; try discriminate. reflexivity.
  - destruct n as [|n]; cbn in E; destruct qs as [|q qs]; try discriminate; [reflexivity|]. injection E as -> E. cbn. f_equal. apply IH.
    rewrite <- seq_shift, map_map in E. exact E.
Qed.
Lemma ids_apart c j m : N.of_nat j < 2 ^ 64 -> N.of_nat m < 2 ^ 64 -> (c + N.of_nat j) mod 2 ^ 64 = (c + N.of_nat m) mod 2 ^ 64 -> j = m.
Proof.
  intros Hj Hm E. apply N2Z.inj_iff in E. rewrite !N2Z.inj_mod in E by discriminate. rewrite !N2Z.inj_add in E. change (Z.of_N (2 ^ 64)) with (2 ^ 64)%Z in E.
  pose proof (Z.div_mod (Z.of_N c + Z.of_N (N.of_nat j)) (2 ^ 64) ltac:(lia)) as D1. pose proof (Z.div_mod (Z.of_N c + Z.of_N (N.of_nat m)) (2 ^ 64) ltac:(lia)) as D2.
  rewrite E in D1. change (2 ^ 64) with 18446744073709551616 in *. change (2 ^ 64)%Z with 18446744073709551616%Z in *.
  set (u := ((Z.of_N c + Z.of_N (N.of_nat j)) / 18446744073709551616)%Z) in *. set (v := ((Z.of_N c + Z.of_N (N.of_nat m)) / 18446744073709551616)%Z) in *. lia.
Qed.
Lemma asked_ids {A} (p : prog A) : forall xs c j r, c < 2 ^ 64 -> nth_error (asked p xs c) j = Some r -> rpc_id r = (c + N.of_nat j) mod 2 ^ 64.
Proof.
  induction p as [y|q d k IH|u p IH]; intros xs c j r Hc E; cbn [asked] in E; [destruct j; discriminate| |eauto].
  assert (H0 : rpc_id (host_request c q d) = (c + N.of_nat 0) mod 2 ^ 64) by (cbn [N.of_nat]; rewrite N.add_0_r, N.mod_small by exact Hc; reflexivity).
  destruct xs as [|x xs]; [destruct j; discriminate|].
  destruct x; destruct j as [|j]; cbn [nth_error] in E; try (injection E as <-; exact H0).
  - rewrite <- id_next. eapply IH; [now apply N.mod_lt|exact E].
  - rewrite <- id_next. eapply IH; [now apply N.mod_lt|exact E].
  - destruct j; discriminate.
Qed.
Lemma asked_length {A} (p : prog A) : forall xs c, (length (asked p xs c) <= length xs)%nat /\
  forall q d k, resume p xs = Ask q d k -> length (asked p xs c) = length xs.
Proof.
  induction p as [y|q d k IH|u p IH]; intros xs c; cbn [asked resume]; [cbn; split; [lia|discriminate]| |apply IH].
  destruct xs as [|x xs]; [split; [cbn; lia|reflexivity]|]. destruct x as [r|e|].
  - destruct (IH (Told (msg_body (rpc_message r)) (rpc_data r)) xs ((c + 1) mod 2 ^ 64)) as [H1 H2]. cbn [length]. split; [lia|]. intros. f_equal. eapply H2. eassumption.
  - destruct (IH (Missed e) xs ((c + 1) mod 2 ^ 64)) as [H1 H2]. cbn [length]. split; [lia|]. intros. f_equal. eapply H2. eassumption.
  - cbn [length]. split; [lia|discriminate].
Qed.

(** ** Alone *)
Lemma follow {St A} (E : St -> St -> Prop) (sp : St -> Rpc -> St * reply) (Hr : repeats E sp) (Hb : blind sp) (p : prog A) : forall oks s w, E s (w_sp w) -> w_counter w < 2 ^ 64 ->
  let c := w_counter w in let Q := asked p (map Ok oks) c in
  (forall m q resp, nth_error Q m = Some q -> nth_error oks m = Some resp -> snd (sp (having_done sp s (map as_received (firstn m Q))) (as_received q)) = Ok resp) ->
  (exists st, In st (stations p sp w) /\ E (having_done sp s (map as_received Q)) st) /\
  (forall q d k, resume p (map Ok oks) = Ask q d k ->
     exists st, In st (stations p sp w) /\ E (having_done sp s (map as_received (Q ++ [host_request ((c + N.of_nat (length oks)) mod 2 ^ 64) q d]))) st) /\
  (forall x, resume p (map Ok oks) = Ret x -> snd (alone p sp w) = x /\ E (having_done sp s (map as_received Q)) (w_sp (fst (alone p sp w)))).
Proof.
  induction p as [y|q d k IH|u p IH]; intros oks s w He Hc c Q H.
  - cbn in *. split; [exists (w_sp w); auto|]. split; [discriminate|]. intros x [= ->]. auto.
  - assert (Step : E (fst (sp s (as_received (host_request c q d)))) (fst (sp (w_sp w) (host_request c q d))) /\
      snd (sp s (as_received (host_request c q d))) = snd (sp (w_sp w) (host_request c q d))) by (rewrite Hb; now apply (rp_same _ _ Hr)).
    assert (Rp : rpc sp q d w = (mkWorld (fst (sp (w_sp w) (host_request c q d))) ((c + 1) mod 2 ^ 64) (w_log w ++ [ASend (host_request c q d)]), snd (sp (w_sp w) (host_request c q d)))).
    { unfold rpc, next_header. subst c. unfold host_request. now rewrite (surjective_pairing (sp (w_sp w) _)). }
    destruct Step as [S1 S2]. destruct oks as [|r oks].
    + cbn in Q. unfold Q. cbn [map having_done fold_left app resume length]. split; [exists (w_sp w); split; [now left|exact He]|]. split; [|discriminate].
      intros q' d' k' [= -> -> ->]. cbn [N.of_nat]. rewrite N.add_0_r, (N.mod_small c) by exact Hc. eexists. split; [|exact S1]. cbn [stations]. rewrite Rp.
      destruct (snd (sp (w_sp w) _)) as [r|e|]; right.
      * destruct (k' _); left; reflexivity.
      * destruct (k' _); left; reflexivity.
      * left. reflexivity.
    + cbn [map asked] in Q. set (w' := mkWorld (fst (sp (w_sp w) (host_request c q d))) ((c + 1) mod 2 ^ 64) (w_log w ++ [ASend (host_request c q d)])) in *.
      pose proof (H 0%nat _ _ eq_refl eq_refl) as H0. cbn [firstn map having_done fold_left] in H0. rewrite S2 in H0. rewrite H0 in Rp.
      set (Q' := asked (k (Told (msg_body (rpc_message r)) (rpc_data r))) (map Ok oks) ((c + 1) mod 2 ^ 64)) in *.
      destruct (IH (Told (msg_body (rpc_message r)) (rpc_data r)) oks (fst (sp s (as_received (host_request c q d)))) w') as (I1 & I2 & I3).
      * exact S1.
      * now apply N.mod_lt.
      * cbv zeta. intros m q' resp Hq Hm. exact (H (S m) q' resp Hq Hm).
      * cbv zeta in I1, I2, I3. change (w_counter w') with ((c + 1) mod 2 ^ 64) in I1, I2, I3. fold Q' in I1, I2, I3.
        unfold Q. cbn [stations alone]. rewrite Rp. split; [|split].
        { destruct I1 as (st & Hs & He'). exists st. split; [now right|exact He']. }
        { intros q' d' k' R. destruct (I2 q' d' k' R) as (st & Hs & He'). exists st. split; [now right|]. cbn [length]. rewrite <- id_next. exact He'. }
        { intros x R. exact (I3 x R). }
  - destruct (IH oks s (fst (sleep u w))) as (I1 & I2 & I3); [exact He|exact Hc|exact H|]. split; [|split].
    + destruct I1 as (st & Hs & He'). exists st. split; [now right|exact He'].
    + intros q' d' k' R. destruct (I2 q' d' k' R) as (st & Hs & He'). exists st. split; [now right|exact He'].
    + intros x R. exact (I3 x R).
Qed.
