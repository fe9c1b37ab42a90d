(** Proofs for C97: in which order a call sets the pins of a module. *)
From Verif Require Export SpecPins.
From Verif Require Import Tac Spec ModuleIdProofs ModuleIdProps ResultsProofs ControllerProofs ControllerProofs3
  ControllerProofs4 ControllerProofs5 ControllerProofs6 ControllerProofs7 ScopeProofs ScopeProofs2 LiveProofs LiveProofs2 LiveProofs3.

Section Way.
  Context {St : Type} (a : honest St) (view : St -> N -> slot) (Hok : honest_ok a) (Hd : drives a view) (Hf : firm a view).
  Implicit Type w : world St.
  Local Notation sp := (honest_sp a).

  (** ** The pins after one request *)
  Definition mild (q : HostRequest) (d : option (list N)) : Prop :=
    looking q = true \/ is_power_pin q = true \/ exists m wr b, q = HWrite m wr /\ d = Some b /\ bytes b = true.
  Definition set_by (s : St) (q : HostRequest) (d : option (list N)) (i : N) : bool :=
    is_power_pin q && N.testbit (request_modules q) i && is_good (hs_verdict a s q d i).
  Lemma pins_step s q d i : mild q d ->
    pins (view (hs_next a s q d) i) = if set_by s q d i then pins_after q (pins (view s i)) else pins (view s i).
  Proof.
    intros M. unfold set_by. destruct (N.testbit (request_modules q) i) eqn:T.
    2:{ rewrite andb_false_r. cbn [andb]. rewrite (dr_apart _ _ Hd); [reflexivity|]. rewrite member_testbit. congruence. }
    apply member_testbit in T. destruct (is_good (hs_verdict a s q d i)) eqn:V; rewrite ?andb_true_r, ?andb_false_r; [|now apply Hf].
    destruct (hs_verdict a s q d i) as [x|] eqn:W; [|discriminate]. destruct M as [M|[M|(m & wr & b & -> & -> & Hb)]].
    - replace (is_power_pin q) with false by now destruct q. now rewrite (dr_look _ _ Hd).
    - rewrite M. destruct (dr_pin _ _ Hd _ _ _ _ _ M T W) as (H1 & H2 & H3). unfold pins. now rewrite H1, H2, H3.
    - cbn [is_power_pin request_modules] in *. destruct (dr_write _ _ Hd _ _ _ _ _ _ Hb T W) as (H1 & _). unfold pins. now rewrite H1.
  Qed.

  (** ** Calls that make each request in a fitting state *)
  Section Guard.
    Context (G : St -> HostRequest -> Prop) (Gl : forall s q, is_power_pin q = false -> G s q).
    Definition guards (l : list act) (s : St) : Prop :=
      forall l1 r l2 q, l = l1 ++ ASend r :: l2 -> msg_body (rpc_message r) = BHostRequest q -> G (led_to sp l1 s) q.
    Definition gently (l : list act) : Prop :=
      forall r q, In (ASend r) l -> msg_body (rpc_message r) = BHostRequest q -> mild q (rpc_data r).
    Definition way {A} (P : St -> Prop) (c : ctl (St := St) A) (Q : A -> St -> Prop) : Prop :=
      forall w, P (w_sp w) -> exists l, w_log (fst (c w)) = w_log w ++ l /\ w_sp (fst (c w)) = led_to sp l (w_sp w) /\
        guards l (w_sp w) /\ gently l /\ forall x, snd (c w) = Ok x -> Q x (w_sp (fst (c w))).

    Lemma led_to_app l1 l2 s : led_to sp (l1 ++ l2) s = led_to sp l2 (led_to sp l1 s).
    Proof. apply fold_left_app. Qed.
    Lemma guards_app l1 l2 s : guards l1 s -> guards l2 (led_to sp l1 s) -> guards (l1 ++ l2) s.
    Proof.
      intros H1 H2 x r y q E B. apply app_eq_app in E. destruct E as (z & [[-> E]|[-> E]]).
      - destruct z as [|e z].
        + cbn in E. specialize (H2 [] r y q (eq_sym E) B). now rewrite app_nil_r in H2.
        + cbn in E. injection E as <- ->. eapply H1; eauto.
      - rewrite led_to_app. eapply H2; eauto.
    Qed.
    Lemma gently_app l1 l2 : gently l1 -> gently l2 -> gently (l1 ++ l2).
    Proof. intros H1 H2 r q I. apply in_app_or in I. destruct I; eauto. Qed.

    Lemma way_ret {A} (P : St -> Prop) (x : outcome Error A) (Q : A -> St -> Prop) :
      (forall y s, x = Ok y -> P s -> Q y s) -> way P (cret x) Q.
    Proof.
      intros H w Hw. exists []. rewrite app_nil_r. split; [reflexivity|]. split; [reflexivity|].
      split; [intros [|] ? ? ? E; discriminate|]. split; [intros ? ? []|]. cbn. intros y ->. now apply H.
    Qed.
    Lemma way_sleep (P : St -> Prop) t : way P (sleep t) (fun _ => P).
    Proof.
      intros w Hw. exists [ASleep t]. split; [reflexivity|]. split; [reflexivity|].
      split; [intros [|? [|]] ? ? ? E; discriminate|]. split; [intros ? ? [E|[]]; discriminate|]. cbn. auto.
    Qed.
    Lemma way_bind {A B} P (c : ctl (St := St) A) (f : A -> ctl B) Q R :
      way P c Q -> (forall x, way (Q x) (f x) R) -> way P (cbind c f) R.
    Proof.
      intros H K w Hw. destruct (H w Hw) as (l & E1 & E2 & E3 & E4 & E5). unfold cbind. destruct (c w) as [w1 [x|e|]]; cbn [fst snd] in *.
      - destruct (K x w1 (E5 x eq_refl)) as (l' & F1 & F2 & F3 & F4 & F5). exists (l ++ l').
        split; [now rewrite F1, E1, app_assoc|]. split; [now rewrite led_to_app, <- E2|].
        split; [apply guards_app; [exact E3|now rewrite <- E2]|]. split; [now apply gently_app|exact F5].
      - exists l. repeat split; auto. discriminate.
      - exists l. repeat split; auto. discriminate.
    Qed.
    Lemma way_conseq {A} (P P' : St -> Prop) (c : ctl (St := St) A) (Q Q' : A -> St -> Prop) :
      (forall s, P' s -> P s) -> way P c Q -> (forall x s, Q x s -> Q' x s) -> way P' c Q'.
    Proof. intros H K L w Hw. destruct (K w (H _ Hw)) as (l & E1 & E2 & E3 & E4 & E5). exists l. repeat split; auto. Qed.
    Lemma way_pure {A} (F : Prop) (P : St -> Prop) (c : ctl (St := St) A) Q : (F -> way P c Q) -> way (fun s => F /\ P s) c Q.
    Proof. intros H w [Hw1 Hw2]. now apply H. Qed.
    Lemma way_ex {A B} (P : B -> St -> Prop) (c : ctl (St := St) A) Q : (forall y, way (P y) c Q) -> way (fun s => exists y, P y s) c Q.
    Proof. intros H w [y Hw]. now apply (H y). Qed.
    (** A call that looks and writes only. *)
    Lemma way_quiet {A} (P : St -> Prop) (c : ctl (St := St) A) (D : done -> Prop) (R : A -> St -> Prop) Q :
      (forall q d, D (DRequest q d) -> is_power_pin q = false /\ mild q d) -> hoare sp D c Q ->
      (forall w, P (w_sp w) -> forall x, snd (c w) = Ok x -> R x (w_sp (fst (c w)))) -> way P c R.
    Proof.
      intros HD H HP w Hw. destruct (H w) as (ds & (l & E1 & E2 & E3) & F & K). exists l. split; [exact E1|]. split; [exact E3|].
      assert (X : forall r q, In (ASend r) l -> msg_body (rpc_message r) = BHostRequest q -> D (DRequest q (rpc_data r))).
      { intros r q I B. rewrite Forall_forall in F. apply F. rewrite <- E2. apply in_flat_map. exists (ASend r). split; [exact I|].
        cbn. rewrite B. now left. }
      split; [|split].
      - intros l1 r l2 q E B. apply Gl. apply (HD q (rpc_data r)). apply X; [|exact B]. rewrite E. apply in_elt.
      - intros r q I B. apply (HD q (rpc_data r)). now apply X.
      - intros x Hx. eapply HP; eauto.
    Qed.
    (** A request that sets pins. *)
    Lemma way_pin (P : St -> Prop) q : is_power_pin q = true -> mask_ok (request_modules q) = true -> (forall s, P s -> G s q) ->
      way P (no_payload_request sp q) (fun r s' => exists s, P s /\ sub (mr_modules r) (request_modules q) /\
        (forall i, obeys a i -> N.testbit (mr_modules r) i = N.testbit (request_modules q) i) /\
        forall i, pins (view s' i) = if N.testbit (mr_modules r) i then pins_after q (pins (view s i)) else pins (view s i)).
    Proof.
      intros Hq Hm HG w Hw. destruct (honest_ack a Hok w q) as (r' & E' & M & R); [now destruct q|now destruct q|exact Hm|].
      assert (B : forall i, N.testbit (mr_modules r') i = N.testbit (request_modules q) i && is_good (hs_verdict a (w_sp w) q None i)).
      { intros i. rewrite (rrep_modules _ _ _ i R). unfold told, vd. destruct (N.testbit _ i); [|reflexivity].
        now destruct (hs_verdict a (w_sp w) q None i). }
      rewrite E'. cbn [fst snd]. exists [ASend (req w q None)]. split; [reflexivity|].
      split; [reflexivity|]. split; [|split].
      - intros [|? [|]] r l2 q' E; try discriminate. injection E as <- _. cbn. intros [= <-]. now apply HG.
      - intros r q' [E|[]]. injection E as <-. cbn. intros [= <-]. right. now left.
      - intros x [= <-]. exists (w_sp w). split; [exact Hw|]. split; [|split].
        + intros i. rewrite B. now destruct (N.testbit (request_modules q) i).
        + intros i Hi. rewrite B, (Hi _ q None Hq). now rewrite andb_true_r.
        + intros i. rewrite next_sp. rewrite (pins_step _ _ _ _ (or_intror (or_introl Hq))). unfold set_by. rewrite Hq, B. reflexivity.
    Qed.
  End Guard.
End Way.
