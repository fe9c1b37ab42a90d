(** Calls at the same time, for different modules (C100): what each call asked. *)
From Coq Require Import Lia.
From Verif Require Export SpecDisjoint.
From Verif Require Import Tac Spec IoProofs IoProofs2 IoProofs3 NetProofs NetProofs2 ProgProofs ConcProofs OnceProofs OnceProofs2 OnceProofs3.
Import ListNotations.
Open Scope N_scope.

(** ** The questions of a call *)
Definition ask : Type := HostRequest * option (list N).
Fixpoint asks {A} (p : prog A) (xs : list reply) : list ask :=
  match p with
  | Ret _ => []
  | Nap _ p => asks p xs
  | Ask q d k =>
      match xs with
      | [] => []
      | Ok r :: rest => (q, d) :: asks (k (Told (msg_body (rpc_message r)) (rpc_data r))) rest
      | Err e :: rest => (q, d) :: asks (k (Missed e)) rest
      | Panic :: rest => [(q, d)]
      end
  end.
Definition open {A} (c : call A) : list ask := match c with Waiting _ _ q d _ => [(q, d)] | Going _ _ => [] end.
Lemma asks_none {A} (p : prog A) : asks p [] = [].
Proof. induction p as [y|q d k IH|u p IH]; cbn; auto. Qed.
Lemma asks_snoc {A} (p : prog A) : forall xs q d k x, resume p xs = Ask q d k -> asks p (xs ++ [x]) = asks p xs ++ [(q, d)].
Proof.
  induction p as [y|q' d' k' IH|u p IH]; intros xs q d k x E; cbn [resume asks] in *; [discriminate| |now apply IH with k].
  destruct xs as [|y xs]; cbn [app] in *.
  - injection E as -> -> ->. destruct x; rewrite ?asks_none; reflexivity.
  - destruct y; try discriminate; erewrite IH by eassumption; reflexivity.
Qed.
Lemma asks_length {A} (p : prog A) : forall xs, (length (asks p xs) <= length xs)%nat /\
  forall q d k, resume p xs = Ask q d k -> length (asks p xs) = length xs.
Proof.
  induction p as [y|q d k IH|u p IH]; intros xs; cbn [asks resume]; [cbn; split; [lia|discriminate]| |apply IH].
  destruct xs as [|x xs]; [split; [cbn; lia|reflexivity]|]. destruct x as [r|e|].
  - destruct (IH (Told (msg_body (rpc_message r)) (rpc_data r)) xs) as [H1 H2]. cbn [length]. split; [lia|]. intros. f_equal. eapply H2. eassumption.
  - destruct (IH (Missed e) xs) as [H1 H2]. cbn [length]. split; [lia|]. intros. f_equal. eapply H2. eassumption.
  - cbn [length]. split; [lia|discriminate].
Qed.
Lemma forall2_length {A B} (R : A -> B -> Prop) l l' : Forall2 R l l' -> length l = length l'.
Proof. induction 1; cbn; congruence. Qed.
(** The request [r] asks this. *)
Definition puts (r : Rpc) (x : ask) : Prop := r = host_request (rpc_id r) (fst x) (snd x).

Section All.
  Context {St A : Type} (sp : St -> Rpc -> St * reply) (Hpol : polite sp) (retries : option N) (s0 : St) (c0 : N) (Hc0 : c0 < 2 ^ 64) (ps : list (prog A)).
  Notation n0 := (net_new retries s0).
  Notation sys0 := (sys_new retries s0 c0 ps).
  Notation sys_run := (sys_run (A := A) sp sys0).
  Notation nets := (nets sp sys0).
  Notation log ts := (net_log sp n0 (nets ts)).

  Definition mine (own : N -> nat) (i : nat) (rs : list Rpc) : list Rpc := filter (fun r => Nat.eqb (own (rpc_id r)) i) rs.
  Record theirs (own : N -> nat) (s : sys St A) (l : list output) : Prop :=
    { t_len : length (sy_calls s) = length ps;
      t_has : forall r, In r (requests l ++ sy_queue s) -> (own (rpc_id r) < length ps)%nat;
      t_asks : forall i p c, nth_error ps i = Some p -> nth_error (sy_calls s) i = Some c ->
        is_at p c /\ Forall2 puts (mine own i (requests l ++ sy_queue s)) (asks p (got c) ++ open c);
      t_wait : forall i xs id q d k, nth_error (sy_calls s) i = Some (Waiting xs id q d k) -> own id = i /\
        exists rs, mine own i (requests l ++ sy_queue s) = rs ++ [host_request id q d] /\ length rs = length xs;
      t_got : forall i c m y, nth_error (sy_calls s) i = Some c -> nth_error (got c) m = Some y ->
        exists r, nth_error (mine own i (requests l ++ sy_queue s)) m = Some r /\ In (OReply (rpc_id r) y) l }.
  Lemma mine_app own i a b : mine own i (a ++ b) = mine own i a ++ mine own i b.
  Proof. apply filter_app. Qed.
  Lemma hears (outs : list output) (c : call A) :
    let c' := fold_left (fun c o => match o with OReply tag x => hear tag x c | _ => c end) outs c in
    c' = c \/ exists xs id q d k x, c = Waiting xs id q d k /\ c' = Going (xs ++ [x]) (heard k x) /\ In (OReply id x) outs.
  Proof.
    cbv zeta. revert c. induction outs as [|o outs IH]; intros c; [now left|]. cbn [fold_left].
    assert (K : forall c0 : call A, (match o with OReply tag x => hear tag x c0 | _ => c0 end) = c0 \/
      exists xs id q d k x, c0 = Waiting xs id q d k /\ (match o with OReply tag x => hear tag x c0 | _ => c0 end) = Going (xs ++ [x]) (heard k x) /\ o = OReply id x).
    { intros c1. destruct o as [tag r|tag pkt|tag x| | | |]; auto. destruct c1 as [xs p|xs id q d k]; [now left|]. cbn [hear].
      destruct (N.eqb_spec id tag) as [->|]; [|now left]. right. exists xs, tag, q, d, k, x. auto. }
    destruct (K c) as [->|(xs & id & q & d & k & x & -> & -> & ->)].
    - destruct (IH c) as [H|(xs & id & q & d & k & x & H1 & H2 & H3)]; [now left|right]. exists xs, id, q, d, k, x. repeat split; auto. now right.
    - right. exists xs, id, q, d, k, x. split; [reflexivity|]. split; [|now left].
      destruct (IH (Going (xs ++ [x]) (heard k x))) as [H|(? & ? & ? & ? & ? & ? & H & _)]; [exact H|discriminate].
  Qed.
  Lemma hear_length outs (cs : list (call A)) : length (hear_all outs cs) = length cs.
  Proof. revert cs. induction outs as [|o outs IH]; intros cs; [reflexivity|]. cbn. unfold hear_all in IH. rewrite IH. destruct o; auto. apply map_length. Qed.
  Lemma update_length {B} n (x : B) l : length (update n x l) = length l.
  Proof. revert n. induction l as [|y l IH]; intros [|n]; cbn; auto. Qed.
  Lemma run_used ts n : inv sp retries s0 c0 (sys_run ts) (nets ts) n -> forall r, In r (requests (log ts)) -> used c0 n (rpc_id r).
  Proof.
    intros [Hnet _ _ _ _ Hnd Hused _ _ _] r Hr. assert (Nd : NoDup (map rpc_id (handed_over (nets ts)))).
    { rewrite map_app in Hnd. clear - Hnd. induction (map rpc_id (handed_over _)) as [|y l IH]; [constructor|]. cbn in Hnd. inversion Hnd; subst.
      constructor; [|auto]. intros Hy. apply H1. apply in_or_app. now left. }
    destruct (run_requests sp n0 (nets ts) Nd) as [_ I]. apply Hused, in_or_app. left. now apply I.
  Qed.

  Lemma theirs_run ts : forallb turn_ok ts = true -> few_turns ts -> exists own, theirs own (sys_run ts) (log ts).
  Proof.
    induction ts as [|t ts IH] using rev_ind; intros Hok Hlen.
    - exists (fun _ => 0%nat). constructor; cbn.
      + apply map_length.
      + contradiction.
      + intros i p c Hp Hc. rewrite nth_error_map, Hp in Hc. injection Hc as <-. cbn. rewrite asks_none. split; [reflexivity|constructor].
      + intros i xs id q d k H. rewrite nth_error_map in H. destruct (nth_error ps i); discriminate.
      + intros i c m y H H'. rewrite nth_error_map in H. destruct (nth_error ps i); [|discriminate]. injection H as <-. destruct m; discriminate.
    - assert (Hok' : forallb turn_ok ts = true) by (rewrite forallb_app in Hok; apply andb_prop in Hok; tauto).
      assert (Hlen' : few_turns ts) by (unfold few_turns, Nlen in *; rewrite app_length in Hlen; cbn in Hlen; lia).
      destruct (IH Hok' Hlen') as (own & [Tl Th Ta Tw Tg]). clear IH.
      destruct (inv_run sp retries s0 c0 Hc0 ps ts Hok' Hlen') as (n & Hn & Hi). pose proof (run_used ts n Hi) as Hur. pose proof Hi as [Hnet _ Hctr Htags Hq Hnd Hus Huw _ _].
      assert (Hn64 : n < 2 ^ 64) by (unfold few_turns, Nlen in *; rewrite app_length in Hlen; cbn in Hlen; lia).
      rewrite run_snoc, nets_snoc, net_log_app, <- Hnet. set (s := sys_run ts) in *. set (l := log ts) in *.
      assert (K : forall net outs queue, (forall r, In r ((requests l ++ requests outs) ++ queue) -> In r (requests l ++ sy_queue s)) ->
        (forall i, mine own i ((requests l ++ requests outs) ++ queue) = mine own i (requests l ++ sy_queue s)) ->
        exists own, theirs own (mkSys net (sy_counter s) queue (hear_all outs (sy_calls s))) (l ++ outs)).
      { intros net outs queue Hin Hm. exists own. constructor; cbn [sy_calls sy_queue]; rewrite ?requests_app.
        - now rewrite hear_length.
        - intros r Hr. apply Th. auto.
        - intros i p c Hp Hc. rewrite nth_hear_all in Hc. destruct (nth_error (sy_calls s) i) as [c1|] eqn:E; [|discriminate]. injection Hc as <-. rewrite Hm.
          destruct (Ta i p c1 Hp E) as [Hat Hf]. destruct (hears outs c1) as [->|(xs & id & q & d & k & x & -> & -> & Hx)]; [auto|].
          cbn [is_at got open] in *. split; [eapply resume_snoc; exact Hat|]. now rewrite (asks_snoc p xs q d k x Hat), app_nil_r.
        - intros i xs id q d k Hc. rewrite nth_hear_all in Hc. destruct (nth_error (sy_calls s) i) as [c1|] eqn:E; [|discriminate]. injection Hc as Hc. rewrite Hm.
          destruct (hears outs c1) as [H|(xs' & id' & q' & d' & k' & x & _ & H & _)]; rewrite H in Hc; [|discriminate]. subst c1. eapply Tw. exact E.
        - intros i c m y Hc Hy. rewrite nth_hear_all in Hc. destruct (nth_error (sy_calls s) i) as [c1|] eqn:E; [|discriminate]. injection Hc as Hc. rewrite Hm.
          destruct (hears outs c1) as [H|(xs & id & q & d & k & x & -> & H & Hx)]; rewrite H in Hc; subst c.
          + destruct (Tg i c1 m y E Hy) as (r & Hr & Hl). exists r. split; [exact Hr|]. apply in_or_app. now left.
          + cbn [got] in Hy. destruct (Nat.lt_ge_cases m (length xs)) as [Hlt|Hge].
            * rewrite nth_error_app1 in Hy by exact Hlt. destruct (Tg i _ m y E Hy) as (r & Hr & Hl). exists r. split; [exact Hr|]. apply in_or_app. now left.
            * rewrite nth_error_app2 in Hy by exact Hge. destruct (m - length xs)%nat as [|z] eqn:Ez; [|destruct z; discriminate].
              injection Hy as <-. destruct (Tw i _ _ _ _ _ E) as (_ & rs & Hrs & Hlr). exists (host_request id q d). split.
              { rewrite Hrs, nth_error_app2 by lia. replace (m - length rs)%nat with 0%nat by lia. reflexivity. }
              { apply in_or_app. now right. } }
      destruct (turn_kinds sp s t) as [Em Es|j xs' q' d' k' Et Em Ei Ewf Es|j xs' u p' Et Em Ei Es|r io a b Em Eq El Es|m Em Et Hm Es]; rewrite Es, Em.
      + exists own. cbn [net_log net_run snd]. rewrite app_nil_r. constructor; auto.
      + (* a new question *)
        cbn [net_log net_run snd]. rewrite app_nil_r. set (id := sy_counter s) in *. set (r := host_request id q' d').
        assert (Hfr : ~ used c0 n id) by (pose proof (fresh sp retries s0 c0 Hc0 ps n Hn64) as Z; rewrite <- Hctr in Z; exact Z).
        exists (fun x => if x =? id then j else own x). set (own' := fun x => if x =? id then j else own x).
        assert (Old : forall i rs, (forall r', In r' rs -> In r' (requests l ++ sy_queue s)) -> mine own' i rs = mine own i rs).
        { intros i rs H. unfold mine. apply filter_ext_in. intros r' Hr'. unfold own'. destruct (N.eqb_spec (rpc_id r') id) as [E|]; [|reflexivity]. exfalso. apply Hfr. rewrite <- E.
          apply H, in_app_or in Hr'. destruct Hr' as [Hr'|Hr']; [now apply Hur|]. apply Hus, in_or_app. now right. }
        assert (New : forall i, mine own' i (requests l ++ sy_queue s ++ [r]) = mine own i (requests l ++ sy_queue s) ++ (if Nat.eqb j i then [r] else [])).
        { intro i. rewrite app_assoc, mine_app, (Old i) by auto. f_equal. unfold mine, own'. cbn [filter]. change (rpc_id r) with id. now rewrite N.eqb_refl. }
        constructor; cbn [sy_calls sy_queue].
        * now rewrite update_length.
        * intros r' Hr'. rewrite app_assoc in Hr'. apply in_app_or in Hr'. destruct Hr' as [Hr'|[<-|[]]].
          { unfold own'. destruct (_ =? _); [rewrite <- Tl; apply nth_error_Some; congruence|now apply Th]. }
          { unfold own'. change (rpc_id r) with id. rewrite N.eqb_refl, <- Tl. apply nth_error_Some. congruence. }
        * intros i p c Hp Hc. rewrite nth_update in Hc. rewrite New. destruct (Nat.eqb_spec j i) as [->|Ne].
          { rewrite Ei in Hc. injection Hc as <-. destruct (Ta i p _ Hp Ei) as [Hat Hf]. cbn [is_at got open resume] in *. split; [exact Hat|]. rewrite app_nil_r in Hf.
            apply Forall2_app; [exact Hf|]. constructor; [reflexivity|constructor]. }
          { rewrite app_nil_r. now apply Ta. }
        * intros i xs id1 q d k Hc. rewrite nth_update in Hc. rewrite New. destruct (Nat.eqb_spec j i) as [->|Ne].
          { rewrite Ei in Hc. injection Hc as <- <- <- <- <-. split; [unfold own'; now rewrite N.eqb_refl|]. exists (mine own i (requests l ++ sy_queue s)). split; [reflexivity|].
            destruct (nth_error ps i) as [p|] eqn:Hp; [|apply nth_error_None in Hp; exfalso; assert (i < length (sy_calls s))%nat by (apply nth_error_Some; congruence); lia].
            destruct (Ta i p _ Hp Ei) as [Hat Hf]. cbn [is_at got open resume] in *. apply forall2_length in Hf. rewrite Hf, app_nil_r. eapply asks_length. exact Hat. }
          { destruct (Tw i _ _ _ _ _ Hc) as (Ho & rs & Hrs & Hlr). rewrite app_nil_r. split; [|eauto]. unfold own'. destruct (N.eqb_spec id1 id) as [->|]; [|exact Ho].
            exfalso. apply Hfr. eapply Huw. exists xs, k. exact Hc. }
        * intros i c m y Hc Hy. rewrite nth_update in Hc. rewrite New. destruct (Nat.eqb_spec j i) as [->|Ne].
          { rewrite Ei in Hc. injection Hc as <-. destruct (Tg i _ m y Ei Hy) as (r' & Hr' & Hl). exists r'. split; [|exact Hl]. rewrite nth_error_app1; [exact Hr'|]. apply nth_error_Some. congruence. }
          { rewrite app_nil_r. now apply (Tg i c m y). }
      + exists own. cbn [net_log net_run snd]. rewrite app_nil_r. constructor; cbn [sy_calls sy_queue].
        * now rewrite update_length.
        * exact Th.
        * intros i p c Hp Hc. rewrite nth_update in Hc. destruct (Nat.eqb_spec j i) as [->|Ne]; [|now apply Ta]. rewrite Ei in Hc. injection Hc as <-.
          destruct (Ta i p _ Hp Ei) as [Hat Hf]. split; [exact Hat|exact Hf].
        * intros i xs id q d k Hc. rewrite nth_update in Hc. destruct (Nat.eqb_spec j i) as [->|Ne]; [rewrite Ei in Hc; discriminate|]. eapply Tw. exact Hc.
        * intros i c m y Hc Hy. rewrite nth_update in Hc. destruct (Nat.eqb_spec j i) as [->|Ne]; [|now apply (Tg i c m y)]. rewrite Ei in Hc. injection Hc as <-. exact (Tg i _ m y Ei Hy).
      + rewrite net_log_cons, app_nil_r. assert (Ei : idle (sy_net s) = true).
        { destruct t as [i|j io'|m']; cbn in Em; [discriminate| |destruct m'; discriminate]. destruct (nth_error _ _); [|discriminate]. now destruct (idle _). }
        apply K; rewrite (OnceProofs2.accepts sp _ _ _ Ei), Eq.
        * intros x. rewrite !in_app_iff. cbn. tauto.
        * intro i. rewrite <- app_assoc. rewrite !mine_app. f_equal. cbn [app]. change (r :: b) with ([r] ++ b). rewrite !mine_app.
          assert (No : own (rpc_id r) = i -> mine own i a = []).
          { intro Ho. destruct (mine own i a) as [|r' l'] eqn:E; [reflexivity|]. exfalso. assert (Hr' : In r' (mine own i a)) by (rewrite E; now left). apply filter_In in Hr'. destruct Hr' as [Ha Hb].
            apply Nat.eqb_eq in Hb. assert (Hx : forall z, In z (sy_queue s) -> own (rpc_id z) = i -> exists xs q d k, nth_error (sy_calls s) i = Some (Waiting xs (rpc_id z) q d k)).
            { intros z Hz Hzo. destruct (Hq z Hz) as (_ & j & q & d & (xs & k & Hw) & _). destruct (Tw j _ _ _ _ _ Hw) as [Hj _]. exists xs, q, d, k. rewrite <- Hw. f_equal. congruence. }
            destruct (Hx r') as (xs1 & q1 & d1 & k1 & H1); [rewrite Eq; apply in_or_app; now left|exact Hb|]. destruct (Hx r) as (xs2 & q2 & d2 & k2 & H2); [rewrite Eq; apply in_elt|exact Ho|].
            rewrite H1 in H2. injection H2 as _ Hid _ _ _. rewrite map_app in Hnd. assert (Nd : NoDup (map rpc_id (sy_queue s))).
            { clear - Hnd. induction (map rpc_id (handed_over _)) as [|y m IH]; [exact Hnd|]. inversion Hnd. auto. }
            rewrite Eq, map_app in Nd. cbn [map] in Nd. apply NoDup_remove_2 in Nd. apply Nd, in_or_app. left. rewrite <- Hid. now apply in_map. }
          destruct (Nat.eq_dec (own (rpc_id r)) i) as [Ho|Ho]; [rewrite (No Ho); reflexivity|].
          assert (Z : mine own i [r] = []) by (unfold mine; cbn [filter]; apply Nat.eqb_neq in Ho; now rewrite Ho). now rewrite Z.
      + rewrite net_log_cons, app_nil_r. apply K; rewrite (requests_none sp) by exact Hm; rewrite app_nil_r; auto.
  Qed.

  Lemma fit_all ts : forallb turn_ok ts = true -> few_turns ts -> Forall still_turn ts -> turns_in_turn sp sys0 ts -> fit sp retries s0 (nets ts).
  Proof.
    intros Hok Hlen Hst Ht. destruct (inv_run sp retries s0 c0 Hc0 ps ts Hok Hlen) as (n & _ & [_ _ _ Htags _ Hnd _ _ _ _]).
    assert (N : NoDup (map rpc_id (handed_over (nets ts)))).
    { rewrite map_app in Hnd. clear - Hnd. induction (map rpc_id (handed_over _)) as [|y l IH]; [constructor|]. cbn in Hnd. inversion Hnd; subst.
      constructor; [|auto]. intros Hy. apply H1. apply in_or_app. now left. }
    destruct (run_requests sp n0 (nets ts) N) as [N' I]. split; [|split; [exact N'|split]].
    - apply Forall_forall. intros r Hr. apply I, handed_in in Hr. destruct Hr as (tag & io & Hr). now apply Htags in Hr.
    - apply Forall_forall. intros m Hm x ->. apply in_split in Hm. destruct Hm as (a & b & E). destruct (nets_split sp _ _ _ _ _ E) as (pre & t & post & -> & _ & Et).
      apply Forall_app in Hst. destruct Hst as [_ Hst]. inversion Hst as [|? ? H _]; subst. destruct t as [i|j io|m]; cbn in Et; [discriminate| |].
      + destruct (nth_error _ _); [|discriminate]. destruct (idle _); discriminate.
      + destruct m; try discriminate. injection Et as ->. now apply (H x).
    - assert (G : forall k pre t, moves_of (SpecConc.sys_run sp sys0 pre) t = [MServe k] -> t = TNet (MServe k)).
      { intros k pre t Et. destruct t as [i|j io|m]; cbn in Et; [discriminate| |].
        - destruct (nth_error _ _); [|discriminate]. destruct (idle _); discriminate.
        - destruct m; try discriminate; congruence. }
      assert (P : forall a b, ts = a ++ b -> sy_net (sys_run a) = net_after sp n0 (nets a)).
      { intros a b ->. rewrite forallb_app in Hok. apply andb_prop in Hok. destruct Hok as [Ha _]. assert (La : few_turns a) by (unfold few_turns, Nlen in *; rewrite app_length in Hlen; lia).
        destruct (inv_run sp retries s0 c0 Hc0 ps a Ha La) as (n' & _ & [Hn _ _ _ _ _ _ _ _ _]). exact Hn. }
      intros pre k mid k' post d d' E Hd Hd'.
      change (MServe k :: mid ++ MServe k' :: post) with ((MServe k :: mid) ++ MServe k' :: post) in E. rewrite app_assoc in E.
      destruct (nets_split sp _ _ _ _ _ E) as (P2 & t2 & Q2 & E2 & En2 & Et2). apply G in Et2. subst t2.
      destruct (nets_split sp _ _ _ _ _ En2) as (P1 & t1 & Q1 & E1 & En1 & Et1). apply G in Et1. subst t1.
      apply (Ht P1 k Q1 k' Q2 d d').
      + rewrite E2, E1, <- app_assoc. reflexivity.
      + rewrite (P P1 (TNet (MServe k) :: Q1 ++ TNet (MServe k') :: Q2)), En1; [exact Hd|rewrite E2, E1, <- app_assoc; reflexivity].
      + rewrite <- E1, (P P2 (TNet (MServe k') :: Q2) E2), En2. exact Hd'.
  Qed.
End All.
