(** Calls at the same time, for different modules (C100): modules that know nothing of each other. *)
From Coq Require Import Lia.
From Verif Require Export SpecDisjoint.
From Verif Require Import Tac Spec ModuleIdProofs ModuleIdProps ProgProofs ConcProofs OnceProofs2 DisjointProofs.
Import ListNotations.
Open Scope N_scope.

(** ** Where a call may ask *)
Definition within (m : N) (q : HostRequest) : Prop := forall i, member i (request_modules q) -> member i m.
Definition fits (q : HostRequest) (resp : Rpc) : Prop := forall r, msg_body (rpc_message resp) = BSpResponse r ->
  forall i, member i (resp_modules r) \/ member i (resp_failed r) -> member i (request_modules q).
Definition fitsb (q : HostRequest) (resp : Rpc) : bool :=
  match msg_body (rpc_message resp) with BSpResponse r => N.ldiff (N.lor (resp_modules r) (resp_failed r)) (request_modules q) =? 0 | _ => true end.
Lemma fitsb_spec q resp : fitsb q resp = true <-> fits q resp.
Proof.
  unfold fitsb, fits. destruct (msg_body (rpc_message resp)) as [?|?|?|?|r]; try (split; [discriminate|reflexivity]); try (split; [intros _ ? [=]|reflexivity]).
  rewrite N.eqb_eq. split.
  - intros H r' [= <-] i Hi. rewrite !member_testbit in Hi. rewrite member_testbit. destruct (N.testbit (request_modules q) i) eqn:E; [reflexivity|].
    pose proof (f_equal (fun z => N.testbit z i) H) as Z. cbn beta in Z. rewrite N.ldiff_spec, N.lor_spec, E, N.bits_0, andb_true_r in Z.
    apply orb_false_elim in Z. destruct Z, Hi; congruence.
  - intros H. apply N.bits_inj. intro i. rewrite N.ldiff_spec, N.lor_spec, N.bits_0. specialize (H r eq_refl i). rewrite !member_testbit in H.
    destruct (N.testbit (request_modules q) i); [apply andb_false_r|]. rewrite andb_true_r.
    destruct (N.testbit (resp_modules r) i); [discriminate (H (or_introl eq_refl))|]. destruct (N.testbit (resp_failed r) i); [discriminate (H (or_intror eq_refl))|reflexivity].
Qed.
(** The SP that gives the answers [xs], as far as they are about modules it was asked about. *)
Definition probe (xs : list reply) (r : Rpc) : list reply * reply :=
  match xs, msg_body (rpc_message r) with
  | x :: rest, BHostRequest q => (rest, match x with Ok resp => if fitsb q resp then x else Panic | _ => x end)
  | _, _ => (xs, Panic)
  end.
Lemma probe_scoped : scoped probe.
Proof.
  intros s h q d resp r E. unfold probe in E. cbn [msg_body rpc_message message_new] in E. destruct s as [|[x|e|] s]; try discriminate.
  destruct (fitsb q x) eqn:F; [|discriminate]. cbn [snd] in E. injection E as ->. intro B. apply fitsb_spec in F. exact (F r B).
Qed.
Fixpoint heard_ok {A} (p : prog A) (xs : list reply) : Prop :=
  match p with
  | Ret _ => True
  | Nap _ p => heard_ok p xs
  | Ask q d k =>
      match xs with
      | [] => True
      | Ok r :: rest => fits q r /\ heard_ok (k (Told (msg_body (rpc_message r)) (rpc_data r))) rest
      | Err e :: rest => heard_ok (k (Missed e)) rest
      | Panic :: _ => True
      end
  end.
Lemma probe_asks {A} (p : prog A) : forall xs c l, heard_ok p xs -> exists l', w_log (fst (alone p probe (mkWorld xs c l))) = l ++ l' /\
  forall q d, (In (q, d) (asks p xs) \/ exists k, resume p xs = Ask q d k) -> In (DRequest q d) (flat_map deed l').
Proof.
  induction p as [y|q d k IH|u p IH]; intros xs c l H.
  - exists []. cbn. rewrite app_nil_r. split; [reflexivity|]. intros q d [[]|(k & [=])].
  - cbn [alone]. unfold rpc, next_header. cbn [w_counter w_sp w_log]. set (r := mkRpc (header_new c KHostRequest) (message_new (BHostRequest q)) d).
    destruct xs as [|x xs].
    + exists [ASend r]. cbn. split; [reflexivity|]. intros q' d' [[]|(k' & [= -> -> ->])]. now left.
    + destruct x as [resp|e|]; cbn [heard_ok asks resume] in *.
      * destruct H as [F H]. apply fitsb_spec in F. unfold probe. cbn [msg_body rpc_message r message_new]. rewrite F.
        destruct (IH (Told (msg_body (rpc_message resp)) (rpc_data resp)) xs ((c + 1) mod 2 ^ 64) (l ++ [ASend r]) H) as (l' & E & I). exists (ASend r :: l').
        split; [etransitivity; [exact E|now rewrite <- app_assoc]|]. intros q' d' [[[= -> ->]|Hi]|Hk]; [now left|right; apply I; now left|right; apply I; now right].
      * unfold probe. cbn [msg_body rpc_message r message_new].
        destruct (IH (Missed e) xs ((c + 1) mod 2 ^ 64) (l ++ [ASend r]) H) as (l' & E & I). exists (ASend r :: l').
        split; [etransitivity; [exact E|now rewrite <- app_assoc]|]. intros q' d' [[[= -> ->]|Hi]|Hk]; [now left|right; apply I; now left|right; apply I; now right].
      * exists [ASend r]. cbn. split; [reflexivity|]. intros q' d' [[[= -> ->]|[]]|(k' & [=])]. now left.
  - cbn [alone heard_ok asks resume] in *. unfold cbind, sleep. cbn [w_sp w_counter w_log].
    destruct (IH xs c (l ++ [ASleep u]) H) as (l' & E & I). exists (ASleep u :: l'). split; [rewrite E, <- app_assoc; reflexivity|]. intros q d Hq. right. now apply I.
Qed.
Lemma keeps_asks {A} m (p : prog A) xs : keeps_to m p -> heard_ok p xs ->
  Forall (fun x => within m (fst x)) (asks p xs) /\ forall q d k, resume p xs = Ask q d k -> within m q.
Proof.
  intros K H. destruct (probe_asks p xs 0 [] H) as (l' & E & I).
  assert (G : forall q d, In (DRequest q d) (flat_map deed l') -> within m q).
  { intros q d Hi i. apply (K _ probe probe_scoped (mkWorld xs 0 []) q d i). unfold deeds. rewrite E. exact Hi. }
  split; [apply Forall_forall; intros [q d] Hx; apply (G q d), I; now left|]. intros q d k R. apply (G q d), I. right. eauto.
Qed.
Lemma heard_given {A} (p : prog A) : forall xs, (forall k resp, nth_error xs k = Some (Ok resp) -> exists q d, question p (firstn k xs) = Some (q, d) /\ fits q resp) -> heard_ok p xs.
Proof.
  induction p as [y|q d k IH|u p IH]; intros xs H; cbn [heard_ok]; [exact I| |apply IH; exact H].
  destruct xs as [|[r|e|] xs]; [exact I| | |exact I].
  - split; [destruct (H 0%nat r eq_refl) as (q' & d' & Q & F); injection Q as <- <-; exact F|]. apply IH. intros m resp Hm. exact (H (S m) resp Hm).
  - apply IH. intros m resp Hm. exact (H (S m) resp Hm).
Qed.

(** ** Selections *)
Inductive sub {A} : list A -> list A -> Prop :=
| sub_nil l : sub [] l
| sub_take x a b : sub a b -> sub (x :: a) (x :: b)
| sub_skip x a b : sub a b -> sub a (x :: b).
Lemma some_sub {A} (rs : list A) : forall qs, some_of qs rs -> sub qs rs.
Proof.
  induction rs as [|x rs IH]; intros qs (js & S & M).
  - destruct qs as [|q qs]; [constructor|]. destruct js as [|j js]; [discriminate|]. cbn in M. injection M as M _. destruct j; discriminate.
  - assert (Sh : forall js qs, StronglySorted lt js -> map (nth_error (x :: rs)) js = map Some qs -> (forall j, In j js -> (0 < j)%nat) -> sub qs rs).
    { intros js' qs' S' M' P. apply IH. exists (map pred js'). split.
      - clear -S' P. induction js' as [|j js' IH']; [constructor|]. apply StronglySorted_inv in S'. destruct S' as [S' F]. cbn. constructor; [apply IH'; [exact S'|intros; apply P; now right]|].
        rewrite Forall_forall in *. intros z Hz. apply in_map_iff in Hz. destruct Hz as (y & <- & Hy). specialize (F y Hy). specialize (P j (or_introl eq_refl)). lia.
      - rewrite <- M', map_map. apply map_ext_in. intros j Hj. specialize (P j Hj). destruct j; [lia|reflexivity]. }
    destruct js as [|j js]; [destruct qs; [constructor|discriminate]|]. destruct qs as [|q qs]; [discriminate|]. cbn [map] in M. apply StronglySorted_inv in S. destruct S as [S F].
    rewrite Forall_forall in F. destruct j as [|j].
    + injection M as -> M. apply sub_take. apply (Sh js qs S M). intros j Hj. exact (F j Hj).
    + apply sub_skip. apply (Sh (Datatypes.S j :: js) (q :: qs)); [constructor; [exact S|now apply Forall_forall]|exact M|]. intros z [<-|Hz]; [lia|]. specialize (F z Hz). lia.
Qed.
Lemma sub_filter {A} (f : A -> bool) a b : sub a b -> sub (filter f a) (filter f b).
Proof. induction 1; cbn; [constructor| |]; destruct (f x); [now apply sub_take|assumption|now apply sub_skip|assumption]. Qed.
Lemma sub_more {A} (a b c : list A) : sub a b -> sub a (b ++ c).
Proof. induction 1; cbn; constructor; assumption. Qed.
Lemma sub_in {A} (a b : list A) : sub a b -> forall x, In x a -> In x b.
Proof. induction 1; intros z Hz; [destruct Hz|destruct Hz as [->|Hz]; [now left|right; auto]|right; auto]. Qed.
Lemma sub_all {A} (R : list A) : forall n D, NoDup R -> sub D R -> (forall k, (k < n)%nat -> exists x, nth_error R k = Some x /\ In x D) -> (length R <= n + 1)%nat ->
  D = firstn n R \/ D = R.
Proof.
  induction R as [|x R IH]; intros n D Nd S H L.
  - inversion S; subst. now right.
  - inversion Nd as [|? ? Nx Nd']; subst. destruct n as [|n].
    + destruct R as [|? ?]; [|cbn in L; lia]. inversion S; subst; [now left|right|left].
      * match goal with H : sub _ [] |- _ => inversion H; reflexivity end.
      * match goal with H : sub _ [] |- _ => inversion H; reflexivity end.
    + destruct (H 0%nat) as (y & Hy & Hin); [lia|]. injection Hy as <-. inversion S as [|x' a b Sa|x' a b Sa]; subst.
      * destruct Hin.
      * destruct (IH n a Nd' Sa) as [->| ->]; [| cbn in L; lia|now left|now right].
        intros k Hk. destruct (H (Datatypes.S k)) as (y & Hy & Hyi); [lia|]. exists y. split; [exact Hy|]. destruct Hyi as [->|Hyi]; [|exact Hyi].
        exfalso. apply Nx. cbn in Hy. eapply nth_error_In. exact Hy.
      * exfalso. apply Nx. eapply sub_in; eassumption.
Qed.

(** ** Modules that know nothing of each other *)
Lemma same_trans x y z : same_answer x y -> same_answer y z -> same_answer x z.
Proof. destruct x, y, z; cbn; try tauto; [intros [] []; split; congruence|congruence]. Qed.
Lemma agree_trans {X} m (a b c : N -> X) : agree m a b -> agree m b c -> agree m a c.
Proof. intros H H' i Hi. now rewrite H, H'. Qed.
Lemma received_host id q d : as_received (host_request id q d) = host_request id q (carried d).
Proof. now destruct d as [[|]|]. Qed.
Lemma carried_twice d : carried (carried d) = carried d.
Proof. now destruct d as [[|]|]. Qed.
Section Local.
  Context {X : Type} (sp : (N -> X) -> Rpc -> (N -> X) * reply) (Hl : local sp).
  Lemma local_step m s s' id id' q d d' : carried d = carried d' -> within m q -> agree m s s' ->
    agree m (fst (sp s (host_request id q d))) (fst (sp s' (host_request id' q d'))) /\ same_answer (snd (sp s (host_request id q d))) (snd (sp s' (host_request id' q d'))).
  Proof.
    intros Ed W Ag. destruct (proj2 Hl s s' id id' q d d' Ed) as [H1 H2]; [intros i Hi; apply Ag, W, Hi|]. split; [|exact H2].
    intros i Hi. destruct (N.testbit (request_modules q) i) eqn:E; [apply H1; now rewrite member_testbit|]. rewrite !(proj1 Hl) by (rewrite member_testbit; congruence). now apply Ag.
  Qed.
  Lemma local_off m s id q d : (forall i, member i (request_modules q) -> ~ member i m) -> agree m (fst (sp s (host_request id q d))) s.
  Proof. intros H i Hi. apply (proj1 Hl). intro K. now apply (H i K). Qed.
  (** The state of the modules of [m] after the requests [rs], and after those of them that are for [m]. *)
  Lemma local_state m own i rs : (forall r, In r rs -> exists q d, r = host_request (rpc_id r) q d /\
      if Nat.eqb (own (rpc_id r)) i then within m q else forall k, member k (request_modules q) -> ~ member k m) ->
    forall s s', agree m s s' -> agree m (having_done sp s (map as_received rs)) (having_done sp s' (map as_received (mine own i rs))).
  Proof.
    induction rs as [|r rs IH]; intros H s s' Ag; [exact Ag|]. destruct (H r (or_introl eq_refl)) as (q & d & E & W).
    assert (IH' := IH (fun r' Hr' => H r' (or_intror Hr'))). unfold mine in *. cbn [filter]. destruct (Nat.eqb _ i).
    - cbn [map having_done fold_left]. apply IH'. rewrite E, !received_host. now apply local_step.
    - cbn [map having_done fold_left]. apply IH'. rewrite E, received_host. eapply agree_trans; [|exact Ag]. now apply local_off.
  Qed.
  Lemma local_untouched k rs : (forall r, In r rs -> exists q d, r = host_request (rpc_id r) q d /\ ~ member k (request_modules q)) ->
    forall s, having_done sp s (map as_received rs) k = s k.
  Proof.
    induction rs as [|r rs IH]; intros H s; [reflexivity|]. destruct (H r (or_introl eq_refl)) as (q & d & E & W). cbn [map having_done fold_left].
    etransitivity; [apply (IH (fun r' Hr' => H r' (or_intror Hr')))|]. rewrite E, received_host. now apply (proj1 Hl).
  Qed.

  Lemma follow_local {A} m (p : prog A) : forall oks rs s w, agree m s (w_sp w) -> Forall2 puts rs (asks p (map Ok oks)) -> Forall (fun x => within m (fst x)) (asks p (map Ok oks)) ->
    (forall k r resp, nth_error rs k = Some r -> nth_error oks k = Some resp -> same_answer (snd (sp (having_done sp s (map as_received (firstn k rs))) (as_received r))) (Ok resp)) ->
    (exists st, In st (stations p sp w) /\ agree m (having_done sp s (map as_received rs)) st) /\
    (forall q d k id, resume p (map Ok oks) = Ask q d k -> within m q ->
       exists st, In st (stations p sp w) /\ agree m (having_done sp s (map as_received (rs ++ [host_request id q d]))) st) /\
    (forall x, resume p (map Ok oks) = Ret x -> snd (alone p sp w) = x /\ agree m (having_done sp s (map as_received rs)) (w_sp (fst (alone p sp w)))).
  Proof.
    induction p as [y|q d k IH|u p IH]; intros oks rs s w He HF HW H.
    - cbn in *. inversion HF; subst. cbn. split; [exists (w_sp w); auto|]. split; [discriminate|]. intros x [= ->]. auto.
    - set (c := w_counter w). assert (Rp : rpc sp q d w = (mkWorld (fst (sp (w_sp w) (host_request c q d))) ((c + 1) mod 2 ^ 64) (w_log w ++ [ASend (host_request c q d)]), snd (sp (w_sp w) (host_request c q d)))).
      { unfold rpc, next_header. subst c. unfold host_request. now rewrite (surjective_pairing (sp (w_sp w) _)). }
      destruct oks as [|r oks].
      + cbn [map asks resume] in *. inversion HF; subst. cbn [map having_done fold_left app]. split; [exists (w_sp w); split; [now left|exact He]|]. split; [|discriminate].
        intros q' d' k' id [= -> -> ->] W. rewrite received_host. destruct (local_step m s (w_sp w) id c q' (carried d') d' (carried_twice d') W He) as [S1 _].
        eexists. split; [|exact S1]. cbn [stations]. rewrite Rp. destruct (snd (sp (w_sp w) _)) as [r|e|]; right.
        * destruct (k' _); left; reflexivity.
        * destruct (k' _); left; reflexivity.
        * left. reflexivity.
      + cbn [map asks resume] in *. inversion HF as [|r0 x0 rs' xs' P0 HF']; subst. inversion HW as [|? ? W0 HW']; subst. cbn [fst] in W0.
        unfold puts in P0. cbn [fst snd] in P0. set (id := rpc_id r0) in *. clearbody id. subst r0.
        destruct (local_step m s (w_sp w) id c q (carried d) d (carried_twice d) W0 He) as [S1 S2].
        pose proof (H 0%nat _ _ eq_refl eq_refl) as H0. cbn [firstn map having_done fold_left] in H0. rewrite received_host in H0.
        set (w' := mkWorld (fst (sp (w_sp w) (host_request c q d))) ((c + 1) mod 2 ^ 64) (w_log w ++ [ASend (host_request c q d)])) in *.
        destruct (snd (sp (w_sp w) (host_request c q d))) as [r'|e|]; [|destruct (snd (sp s _)); destruct H0, S2|destruct (snd (sp s _)); destruct H0, S2].
        assert (Told (msg_body (rpc_message r')) (rpc_data r') = Told (msg_body (rpc_message r)) (rpc_data r)) as Et.
        { destruct (snd (sp s _)); [|destruct H0|destruct H0]. destruct H0 as [E1 E2], S2 as [E3 E4]. congruence. }
        destruct (IH (Told (msg_body (rpc_message r)) (rpc_data r)) oks rs' (fst (sp s (as_received (host_request id q d)))) w') as (I1 & I2 & I3).
        * rewrite received_host. exact S1.
        * exact HF'.
        * exact HW'.
        * intros k' r2 resp Hr Ho. exact (H (S k') r2 resp Hr Ho).
        * cbn [stations alone]. rewrite Rp, Et. split; [|split].
          { destruct I1 as (st & Hs & He'). exists st. split; [now right|exact He']. }
          { intros q' d' k' id' R W. destruct (I2 q' d' k' id' R W) as (st & Hs & He'). exists st. split; [now right|exact He']. }
          { intros x R. exact (I3 x R). }
    - destruct (IH oks rs s (fst (sleep u w))) as (I1 & I2 & I3); [exact He|exact HF|exact HW|exact H|]. split; [|split].
      + destruct I1 as (st & Hs & He'). exists st. split; [now right|exact He'].
      + intros q' d' k' id' R W. destruct (I2 q' d' k' id' R W) as (st & Hs & He'). exists st. split; [now right|exact He'].
      + intros x R. exact (I3 x R).
  Qed.
End Local.
