(** Calls at the same time, for different modules (C100): the theorem. *)
From Coq Require Import Lia.
From Verif Require Export SpecDisjoint.
From Verif Require Import Tac Spec IoProofs IoProofs2 IoProofs3 NetProofs NetProofs2 NetProofs3 ProgProofs ConcProofs OnceProofs OnceProofs2 OnceProofs3 OnceProofs4
  DisjointProofs DisjointProofs2.
Import ListNotations.
Open Scope N_scope.

Lemma nodup_app_l {B} (a b : list B) : NoDup (a ++ b) -> NoDup a.
Proof.
  induction a as [|y l IH]; [constructor|]. cbn. intro H. inversion H; subst. constructor; [|auto]. intros Hy. apply H2. apply in_or_app. now left.
Qed.
Lemma nodup_map_inj {B C} (f : B -> C) l x y : NoDup (map f l) -> In x l -> In y l -> f x = f y -> x = y.
Proof.
  induction l as [|z l IH]; [contradiction|]. cbn. intros Nd Hx Hy E. inversion Nd as [|? ? Nz Nd']; subst.
  destruct Hx as [->|Hx], Hy as [->|Hy]; auto; exfalso; apply Nz; [rewrite E|rewrite <- E]; now apply in_map.
Qed.
Lemma nodup_filter {B C} (g : B -> C) (f : B -> bool) l : NoDup (map g l) -> NoDup (filter f l).
Proof.
  induction l as [|x l IH]; [constructor|]. cbn. intro N. inversion N as [|? ? Nx Nd]; subst. destruct (f x); [|auto]. constructor; [|auto].
  intro H. apply filter_In in H. apply Nx. now apply in_map.
Qed.
Lemma nodup_pos {B} (l : list B) a x b k : NoDup l -> l = a ++ x :: b -> nth_error l k = Some x -> a = firstn k l.
Proof.
  intros Nd -> H. assert (k = length a). { eapply (proj1 (NoDup_nth_error _) Nd); [apply nth_error_Some; congruence|]. rewrite H, nth_error_app2, Nat.sub_diag by lia. reflexivity. }
  subst k. rewrite firstn_app, Nat.sub_diag, firstn_all, app_nil_r. reflexivity.
Qed.
Lemma split_oks (xs : list reply) : (forall y, In y xs -> y <> Panic) -> exists oks rest, xs = map Ok oks ++ rest /\ (rest = [] \/ exists e rest', rest = Err e :: rest').
Proof.
  induction xs as [|x xs IH]; intro Hnp; [exists [], []; auto|]. destruct IH as (oks & rest & -> & Hrest); [intros y Hy; apply Hnp; now right|].
  destruct x as [r|e|]; [exists (r :: oks), rest; auto|exists [], (Err e :: map Ok oks ++ rest); split; [reflexivity|right; eauto]|].
  exfalso. apply (Hnp Panic); [now left|reflexivity].
Qed.
Lemma forall2_app_inv {B C} (R : B -> C -> Prop) l a b : Forall2 R l (a ++ b) -> exists l1 l2, l = l1 ++ l2 /\ Forall2 R l1 a /\ Forall2 R l2 b.
Proof. intro H. apply Forall2_app_inv_r in H. destruct H as (l1 & l2 & H1 & H2 & ->). eauto. Qed.

Section Disjoint.
  Context {K X A : Type} (bsp : K -> Rpc -> K * reply) (Hpol : polite bsp) (Hsc : scoped bsp)
          (sp : (N -> X) -> Rpc -> (N -> X) * reply) (Hl : local sp)
          (retries : option N) (k0 : K) (s0 : N -> X) (c0 : N) (Hc0 : c0 < 2 ^ 64) (ps : list (prog A)) (ms : list N) (Hk : Forall2 keeps_to ms ps).
  Notation n0 := (net_new retries k0).
  Notation sys0 := (sys_new retries k0 c0 ps).
  Notation sys_run := (sys_run (A := A) bsp sys0).
  Notation nets := (nets bsp sys0).
  Notation log ts := (net_log bsp n0 (nets ts)).

  (** What was done, seen as done by [sp]. *)
  Definition was_done (l : list output) (now : N -> X) (done : list Rpc) : Prop :=
    some_of done (requests l) /\ (forall i, now i = having_done sp s0 (map as_received done) i) /\
    forall tag resp, In (OReply tag (Ok resp)) l -> exists before q later, done = before ++ q :: later /\ In (OAccept tag q) l /\
      snd (sp (having_done sp s0 (map as_received before)) (as_received q)) = Ok resp.

  Lemma calls_within ts i p c : forallb turn_ok ts = true -> few_turns ts -> nth_error ps i = Some p -> nth_error (sy_calls (sys_run ts)) i = Some c ->
    exists m, nth_error ms i = Some m /\ Forall (fun x => within m (fst x)) (asks p (got c) ++ open c) /\ heard_ok p (got c).
  Proof.
    intros Hok Hlen Hp Hc. destruct (own_answers bsp Hpol retries k0 c0 Hc0 ps ts i p Hok Hlen Hp) as (c' & Hc' & Hat & _ & Hg). rewrite Hc in Hc'. injection Hc' as <-.
    assert (exists m, nth_error ms i = Some m /\ keeps_to m p) as (m & Hm & Km).
    { clear -Hk Hp. revert i Hp. induction Hk as [|m p' ms' ps' K1 K2 IH]; intros [|i] Hp; try discriminate; [injection Hp as ->; exists m; auto|]. exact (IH K2 i Hp). }
    assert (Ho : heard_ok p (got c)).
    { apply heard_given. intros k resp Hr. destruct (Hg k resp Hr) as (pre & post & n & id & q & d & kk & _ & Q & _ & S). exists q, d. split; [exact Q|].
      intros r Br j Hj. exact (Hsc _ _ _ _ _ _ S Br j Hj). }
    destruct (keeps_asks m p (got c) Km Ho) as [W1 W2]. exists m. split; [exact Hm|]. split; [|exact Ho]. apply Forall_app. split; [exact W1|].
    destruct c as [xs p'|xs id q d k]; cbn [open]; constructor; [|constructor]. exact (W2 _ _ _ Hat).
  Qed.

  Lemma calls_apart ts now done i m p : forallb turn_ok ts = true -> few_turns ts -> was_done (log ts) now done ->
    nth_error ps i = Some p -> has_for_itself ms i m -> exists c, nth_error (sy_calls (sys_run ts)) i = Some c /\ undisturbed sp (mkWorld s0 c0 []) now m p c.
  Proof.
    intros Hok Hlen (Hsome & HE & Hrep) Hp (Hm & Hdis). set (w := mkWorld s0 c0 []).
    destruct (own_answers bsp Hpol retries k0 c0 Hc0 ps ts i p Hok Hlen Hp) as (c & Hc & _ & Hq & _). exists c. split; [exact Hc|].
    assert (Hnp : forall y, In y (got c) -> y <> Panic) by (intros y; apply (got_no_panic bsp retries k0 c0 ps ts i _ y Hc)).
    destruct (inv_run bsp retries k0 c0 Hc0 ps ts Hok Hlen) as (n & _ & [_ _ _ Htags _ Hnd _ _ _ _]).
    destruct (theirs_run bsp retries k0 c0 Hc0 ps ts Hok Hlen) as (own & T). pose proof T as [Tl Th Ta Tw Tg].
    destruct (Ta i p c Hp Hc) as [Hat Hf]. set (L := requests (log ts)) in *. set (qu := sy_queue (sys_run ts)) in *. set (R := mine own i (L ++ qu)) in *.
    (* ids *)
    assert (HL : forall r, In r L -> In r (handed_over (nets ts))).
    { rewrite map_app in Hnd. apply nodup_app_l in Hnd. destruct (run_requests bsp n0 (nets ts) Hnd) as [_ I]. exact I. }
    assert (HLn : NoDup (map rpc_id L)).
    { rewrite map_app in Hnd. apply nodup_app_l in Hnd. destruct (run_requests bsp n0 (nets ts) Hnd) as [I _]. exact I. }
    assert (Same : forall r r', In r (L ++ qu) -> In r' (L ++ qu) -> rpc_id r = rpc_id r' -> r = r').
    { intros r r' Hr Hr' E. apply (nodup_map_inj rpc_id (handed_over (nets ts) ++ qu)); auto; apply in_or_app; [apply in_app_or in Hr; destruct Hr; auto|apply in_app_or in Hr'; destruct Hr'; auto]. }
    assert (HAn : NoDup (map rpc_id (L ++ qu))).
    { rewrite map_app in *. clear - Hnd HLn HL. 
      assert (Nq : NoDup (map rpc_id qu)) by (revert Hnd; induction (map rpc_id (handed_over (nets ts))) as [|y l IH]; [auto|]; cbn; intro H; inversion H; auto).
      assert (Dj : forall x, In x (map rpc_id L) -> ~ In x (map rpc_id qu)).
      { intros x Hx Hx'. assert (Hx2 : In x (map rpc_id (handed_over (nets ts)))) by (apply in_map_iff in Hx; destruct Hx as (r & <- & Hr); apply in_map; auto).
        apply in_split in Hx2. destruct Hx2 as (a & b & E). rewrite E in Hnd. rewrite <- app_assoc in Hnd. cbn in Hnd. apply NoDup_remove_2 in Hnd. apply Hnd. apply in_or_app. right. apply in_or_app. now right. }
      induction (map rpc_id L) as [|y l IH]; [exact Nq|]. inversion HLn; subst. cbn. constructor; [|apply IH; [assumption|intros; apply Dj; now right]].
      intro H. apply in_app_or in H. destruct H as [H|H]; [contradiction|]. apply (Dj y); [now left|exact H]. }
    assert (HRn : NoDup R) by (eapply nodup_filter; exact HAn).
    assert (Hsub : sub done L) by now apply some_sub. assert (Hd : forall r, In r done -> In r L) by (intros r; now apply sub_in).
    (* where the requests go *)
    assert (Where : forall r, In r L -> exists q d, r = host_request (rpc_id r) q d /\ exists m', nth_error ms (own (rpc_id r)) = Some m' /\ within m' q).
    { intros r Hr. assert (Hr' : In r (L ++ qu)) by (apply in_or_app; now left). pose proof (Th r Hr') as Hj. set (j := own (rpc_id r)) in *.
      destruct (nth_error ps j) as [p'|] eqn:Ep; [|apply nth_error_None in Ep; lia].
      destruct (nth_error (sy_calls (sys_run ts)) j) as [c'|] eqn:Ec; [|apply nth_error_None in Ec; lia].
      destruct (calls_within ts j p' c' Hok Hlen Ep Ec) as (m' & Hm' & W & _). destruct (Ta j p' c' Ep Ec) as [_ Hf'].
      assert (Hin : In r (mine own j (L ++ qu))) by (apply filter_In; split; [exact Hr'|apply Nat.eqb_refl]).
      assert (G : forall l xs, Forall2 puts l xs -> Forall (fun x => within m' (fst x)) xs -> In r l -> exists q d, r = host_request (rpc_id r) q d /\ within m' q).
      { clear. intros l xs F. induction F as [|r' [q d] l xs P F IH]; intros W Hi; [destruct Hi|]. inversion W; subst. destruct Hi as [->|Hi]; [exists q, d; split; [exact P|assumption]|auto]. }
      destruct (G _ _ Hf' W Hin) as (q & d & E & Wq). exists q, d. split; [exact E|]. eauto. }
    assert (Sides : forall r, In r L -> exists q d, r = host_request (rpc_id r) q d /\
      if Nat.eqb (own (rpc_id r)) i then within m q else forall k, member k (request_modules q) -> ~ member k m).
    { intros r Hr. destruct (Where r Hr) as (q & d & E & m' & Hm' & W). exists q, d. split; [exact E|]. destruct (Nat.eqb_spec (own (rpc_id r)) i) as [Ei|Ne].
      - rewrite Ei, Hm in Hm'. injection Hm' as <-. exact W.
      - intros k Hq' Hk'. exact (Hdis _ _ Ne Hm' k Hk' (W k Hq')). }
    set (D := mine own i done).
    assert (HD : sub D R).
    { unfold D, R. rewrite mine_app. apply sub_more. now apply sub_filter. }
    assert (HAg : agree m now (having_done sp s0 (map as_received D))).
    { intros k Hmk. rewrite HE. apply (local_state sp Hl m own i done); [intros r Hr; apply Sides, Hd, Hr|intros ? _; reflexivity|exact Hmk]. }
    destruct (calls_within ts i p c Hok Hlen Hp Hc) as (m' & Hm' & W & Hho). rewrite Hm in Hm'. injection Hm' as <-.
    (* answers *)
    destruct (split_oks (got c) Hnp) as (oks & rest & Eg & Hrest).
    assert (Hoks : forall k r, nth_error oks k = Some r -> nth_error (got c) k = Some (Ok r)).
    { intros k r H. rewrite Eg, nth_error_app1; [rewrite nth_error_map, H; reflexivity|]. rewrite map_length. apply nth_error_Some. congruence. }
    assert (Ans : forall k resp, nth_error oks k = Some resp -> exists r before later, nth_error R k = Some r /\ done = before ++ r :: later /\ D = mine own i before ++ r :: mine own i later /\
      same_answer (snd (sp (having_done sp s0 (map as_received (mine own i before))) (as_received r))) (Ok resp)).
    { intros k resp Ho. destruct (Tg i c k _ Hc (Hoks k resp Ho)) as (r & Hr & Hrl). destruct (Hrep _ _ Hrl) as (before & q & later & Ed & Ha & Hs).
      destruct (accept_tags bsp n0 _ _ _ Ha) as [io Hio]. destruct (Htags _ _ _ Hio) as [_ Htag].
      assert (Hri : In r R) by (eapply nth_error_In; exact Hr). apply filter_In in Hri. destruct Hri as [Hri Hro].
      assert (HqL : In q L) by (apply Hd; rewrite Ed; apply in_elt).
      assert (q = r) as -> by (apply Same; [apply in_or_app; now left|exact Hri|now symmetry]).
      exists r, before, later. split; [exact Hr|]. split; [exact Ed|]. split.
      - unfold D. rewrite Ed, mine_app. f_equal. unfold mine at 1. cbn [filter]. rewrite Hro. reflexivity.
      - destruct (Sides r HqL) as (q & d & E & Wr). rewrite Hro in Wr. rewrite <- Hs.
        pose proof (local_state sp Hl m own i before) as LS. rewrite E, !received_host. eapply (local_step sp Hl m); [reflexivity|exact Wr|].
        intros z Hz. symmetry. apply LS; [|intros ? _; reflexivity|exact Hz]. intros r' Hr'. apply Sides, Hd. rewrite Ed. apply in_or_app. now left. }
    assert (Has : forall k, (k < length oks)%nat -> exists x, nth_error R k = Some x /\ In x D).
    { intros k Lk. destruct (nth_error oks k) as [resp|] eqn:Ho; [|apply nth_error_None in Ho; lia]. destruct (Ans k resp Ho) as (r & b & l & Hr & _ & ED & _). exists r. split; [exact Hr|]. rewrite ED. apply in_elt. }
    assert (Foll : forall rs last, R = rs ++ last -> length rs = length oks -> (length last <= 1)%nat ->
      (D = rs \/ D = R) /\ forall k r resp, nth_error rs k = Some r -> nth_error oks k = Some resp -> same_answer (snd (sp (having_done sp s0 (map as_received (firstn k rs))) (as_received r))) (Ok resp)).
    { intros rs last ER Lr Ll. assert (HDc : D = rs \/ D = R).
      { destruct (sub_all R (length oks) D HRn HD Has) as [E|E]; [rewrite ER, app_length; lia| |now right].
        left. rewrite E, ER, <- Lr, firstn_app, Nat.sub_diag, firstn_all, app_nil_r. reflexivity. }
      split; [exact HDc|]. intros k r resp Hr Ho. destruct (Ans k resp Ho) as (r' & before & later & Hr' & _ & ED & Hs).
      assert (Lk : (k < length rs)%nat) by (apply nth_error_Some; congruence).
      assert (r' = r) as -> by (rewrite ER, nth_error_app1 in Hr' by exact Lk; congruence).
      assert (HDn : NoDup D) by (destruct HDc as [-> | ->]; [rewrite ER in HRn; now apply nodup_app_l in HRn|exact HRn]).
      assert (HDk : nth_error D k = Some r) by (destruct HDc as [-> | ->]; [exact Hr|exact Hr']).
      assert (Eb : mine own i before = firstn k rs).
      { rewrite (nodup_pos D _ _ _ k HDn ED HDk). destruct HDc as [-> | ->]; [reflexivity|]. rewrite ER, firstn_app. replace (k - length rs)%nat with 0%nat by lia. apply app_nil_r. }
      rewrite <- Eb. exact Hs. }
    assert (Hw : agree m s0 (w_sp w)) by (intros ? _; reflexivity).
    assert (LR : (length oks <= length R)%nat).
    { destruct oks as [|o oks'] eqn:Eo; [cbn; lia|]. rewrite <- Eo in *. destruct (Has (length oks')) as (x & Hx & _); [rewrite Eo; cbn; lia|].
      assert (length oks' < length R)%nat by (apply nth_error_Some; congruence). rewrite Eo. cbn. lia. }
    destruct Hrest as [->|(e & rest' & ->)].
    - rewrite app_nil_r in Eg. destruct c as [xs p'|xs id q d k]; cbn [got open is_at] in *; subst xs.
      + rewrite app_nil_r in Hf, W. assert (Lr : length R = length oks).
        { pose proof (forall2_length _ _ _ Hf) as Z. pose proof (proj1 (asks_length p (map Ok oks))) as Z'. rewrite map_length in Z'. lia. }
        destruct (Foll R []) as [HDc Hs]; [now rewrite app_nil_r|exact Lr|cbn; lia|]. assert (D = R) as ED by (destruct HDc; assumption).
        destruct (follow_local sp Hl m p oks R s0 w Hw Hf W Hs) as (F1 & _ & F3). rewrite ED in HAg. split.
        * intros ys x [= <- ->]. right. destruct (F3 x Hat) as [F4 F5]. split; [exact F4|]. eapply agree_trans; eassumption.
        * intros _. destruct F1 as (st & F1 & F2). exists st. split; [exact F1|]. eapply agree_trans; eassumption.
      + destruct (Tw i _ _ _ _ _ Hc) as (_ & rs & Hrs & Hlr). rewrite map_length in Hlr. fold L qu R in Hrs. apply Forall_app in W. destruct W as [W Wq]. inversion Wq as [|? ? Wq' _]; subst. cbn [fst] in Wq'.
        assert (Hf' : Forall2 puts rs (asks p (map Ok oks))).
        { rewrite Hrs in Hf. apply forall2_app_inv in Hf. destruct Hf as (l1 & l2 & E & F1 & F2). inversion F2 as [|? ? ? ? _ F3]; subst. inversion F3; subst. apply app_inj_tail in E. destruct E as [-> _]. exact F1. }
        destruct (Foll rs [host_request id q d] Hrs Hlr) as [HDc Hs]; [cbn; lia|].
        destruct (follow_local sp Hl m p oks rs s0 w Hw Hf' W Hs) as (F1 & F2 & _). split; [discriminate|]. intros _. destruct HDc as [ED|ED]; rewrite ED in HAg.
        * destruct F1 as (st & F1 & F3). exists st. split; [exact F1|]. eapply agree_trans; eassumption.
        * destruct (F2 q d k id Hat Wq') as (st & F3 & F4). exists st. split; [exact F3|]. rewrite Hrs in HAg. eapply agree_trans; eassumption.
    - split.
      + intros xs x ->. left. cbn [got is_at resume] in *. exists e. split; [rewrite Eg; apply in_elt|]. intro S. apply (stops_with p S xs x e Hat); [rewrite Eg; apply in_elt|exact Hq].
      + intro Sto. destruct (question p (map Ok oks)) as [[q d]|] eqn:Qu.
        2:{ exfalso. apply (Hq (length oks) (Err e)).
            - rewrite Eg, nth_error_app2 by (rewrite map_length; lia). rewrite map_length, Nat.sub_diag. reflexivity.
            - rewrite Eg, firstn_map_app. exact Qu. }
        pose proof (Sto _ _ _ e Qu) as Re. unfold question in Qu. destruct (resume p (map Ok oks)) as [?|q' d' k|] eqn:Rk; try discriminate. injection Qu as -> ->.
        assert (rest' = []).
        { destruct rest' as [|y rest']; [reflexivity|]. exfalso. apply (Hq (S (length oks)) y).
          - rewrite Eg, nth_error_app2 by (rewrite map_length; lia). rewrite map_length. replace (Datatypes.S (length oks) - length oks)%nat with 1%nat by lia. reflexivity.
          - unfold question. replace (firstn (Datatypes.S (length oks)) (got c)) with (map Ok oks ++ [Err e]); [exact (f_equal (fun z => match z with Ask q d _ => Some (q, d) | _ => None end) Re)|].
            rewrite Eg, firstn_app, map_length. replace (Datatypes.S (length oks) - length oks)%nat with 1%nat by lia. rewrite firstn_all2 by (rewrite map_length; lia). reflexivity. }
        subst rest'. assert (Hop : open c = []).
        { destruct c as [xs p'|xs id q0 d0 k0']; [reflexivity|]. cbn [is_at got] in *. rewrite Eg in Hat. discriminate (eq_trans (eq_sym Hat) Re). }
        assert (Z : asks p (got c) ++ open c = asks p (map Ok oks) ++ [(q, d)]) by (rewrite Eg, Hop, app_nil_r; exact (asks_snoc p (map Ok oks) q d k (Err e) Rk)).
        rewrite Z in Hf, W. apply Forall_app in W. destruct W as [W Wq]. inversion Wq as [|? ? Wq' _]; subst. cbn [fst] in Wq'.
        apply forall2_app_inv in Hf. destruct Hf as (rs & l2 & ER & F1' & F2'). inversion F2' as [|r2 ? l3 ? P2 F3]; subst. inversion F3; subst. unfold puts in P2. cbn [fst snd] in P2.
        assert (Lr : length rs = length oks) by (rewrite (forall2_length _ _ _ F1'), (proj2 (asks_length p (map Ok oks)) _ _ _ Rk); apply map_length).
        destruct (Foll rs [r2] ER Lr) as [HDc Hs]; [cbn; lia|].
        destruct (follow_local sp Hl m p oks rs s0 w Hw F1' W Hs) as (F1 & F2 & _). destruct HDc as [ED|ED]; rewrite ED in HAg.
        * destruct F1 as (st & F1 & F4). exists st. split; [exact F1|]. eapply agree_trans; eassumption.
        * destruct (F2 q d k (rpc_id r2) Rk Wq') as (st & F4 & F5). exists st. split; [exact F4|]. rewrite <- P2, <- ER in F5. eapply agree_trans; eassumption.
  Qed.

  Lemma calls_off ts now done k : forallb turn_ok ts = true -> few_turns ts -> was_done (log ts) now done ->
    (forall m, In m ms -> ~ member k m) -> now k = s0 k.
  Proof.
    intros Hok Hlen (Hsome & HE & _) Hk'. rewrite HE. apply (local_untouched sp Hl). intros r Hr.
    destruct (theirs_run bsp retries k0 c0 Hc0 ps ts Hok Hlen) as (own & [Tl Th Ta _ _]).
    assert (Hr' : In r (requests (log ts) ++ sy_queue (sys_run ts))) by (apply in_or_app; left; eapply sub_in; [apply some_sub; exact Hsome|exact Hr]).
    pose proof (Th r Hr') as Hj. set (j := own (rpc_id r)) in *.
    destruct (nth_error ps j) as [p'|] eqn:Ep; [|apply nth_error_None in Ep; lia].
    destruct (nth_error (sy_calls (sys_run ts)) j) as [c'|] eqn:Ec; [|apply nth_error_None in Ec; lia].
    destruct (calls_within ts j p' c' Hok Hlen Ep Ec) as (m' & Hm' & W & _). destruct (Ta j p' c' Ep Ec) as [_ Hf'].
    assert (Hin : In r (mine own j (requests (log ts) ++ sy_queue (sys_run ts)))) by (apply filter_In; split; [exact Hr'|apply Nat.eqb_refl]).
    assert (G : forall l xs, Forall2 puts l xs -> Forall (fun x => within m' (fst x)) xs -> In r l -> exists q d, r = host_request (rpc_id r) q d /\ within m' q).
    { clear. intros l xs F. induction F as [|r' [q d] l xs P F IH]; intros W Hi; [destruct Hi|]. inversion W; subst. destruct Hi as [->|Hi]; [exists q, d; split; [exact P|assumption]|auto]. }
    destruct (G _ _ Hf' W Hin) as (q & d & E & Wq). exists q, d. split; [exact E|]. intro Hq. apply (Hk' m'); [eapply nth_error_In; exact Hm'|now apply Wq].
  Qed.
End Disjoint.
