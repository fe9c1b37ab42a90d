(** Proofs about what calls may touch (C62, C63). *)
From Verif Require Export SpecScope.
From Verif Require Import Tac Spec ModuleIdProofs ModuleIdProps ResultsProofs ControllerProofs ControllerProofs3
  ControllerProofs5.

(** The state of the SP after the entries [l] of a log. *)
Definition replay {St} (sp : St -> Rpc -> St * reply) (l : list act) (s : St) : St :=
  fold_left (fun s x => match x with ASend r => fst (sp s r) | ASleep _ => s end) l s.
(** From [w] to [w'] the log grew by entries that amount to [ds], and the SP's state followed. *)
Definition went {St} (sp : St -> Rpc -> St * reply) (w w' : world St) (ds : list done) : Prop :=
  exists l, w_log w' = w_log w ++ l /\ flat_map deed l = ds /\ w_sp w' = replay sp l (w_sp w).
Lemma went_grew {St} sp (w w' : world St) ds : went sp w w' ds -> grew w w' ds.
Proof. intros (l & E & F & _). now exists l. Qed.
Lemma went_refl {St} sp (w : world St) : went sp w w [].
Proof. exists []. rewrite app_nil_r. auto. Qed.
Lemma went_trans {St} sp (w1 w2 w3 : world St) a b : went sp w1 w2 a -> went sp w2 w3 b -> went sp w1 w3 (a ++ b).
Proof.
  intros (l1 & E1 & F1 & G1) (l2 & E2 & F2 & G2). exists (l1 ++ l2).
  rewrite E2, E1, app_assoc, flat_map_app, F1, F2, G2, G1. unfold replay. rewrite fold_left_app. auto.
Qed.
Lemma went_sleep {St} sp (w : world St) t : went sp w (fst (sleep t w)) [DSleep t].
Proof. exists [ASleep t]. auto. Qed.
Lemma went_rpc {St} sp (w : world St) q d : went sp w (fst (rpc sp q d w)) [DRequest q d].
Proof. exists [ASend (req w q d)]. rewrite rpc_eq. auto. Qed.

(** From every world, [c] does things satisfying [D] and, if it succeeds, returns a [Q]. *)
Definition hoare {St A} (sp : St -> Rpc -> St * reply) (D : done -> Prop) (c : ctl (St := St) A) (Q : A -> Prop) : Prop :=
  forall w, exists ds, went sp w (fst (c w)) ds /\ Forall D ds /\ forall a, snd (c w) = Ok a -> Q a.

Lemma hoare_ret {St A sp} D (x : outcome Error A) (Q : A -> Prop) : (forall a, x = Ok a -> Q a) ->
  hoare (St := St) sp D (cret x) Q.
Proof. intros H w. exists []. split; [apply went_refl|]. split; [constructor|]. exact H. Qed.
Lemma hoare_bind {St A B sp} D (c : ctl (St := St) A) (f : A -> ctl B) Q R :
  hoare sp D c Q -> (forall a, Q a -> hoare sp D (f a) R) -> hoare sp D (cbind c f) R.
Proof.
  intros Hc Hf w. destruct (Hc w) as (ds & Hg & Hd & HQ). unfold cbind. destruct (c w) as [w1 [a|e|]]; cbn in *.
  - destruct (Hf a (HQ a eq_refl) w1) as (ds2 & Hg2 & Hd2 & HR). exists (ds ++ ds2).
    split; [eapply went_trans; eauto|]. split; [now apply Forall_app|exact HR].
  - exists ds. repeat split; auto. intros; discriminate.
  - exists ds. repeat split; auto. intros; discriminate.
Qed.
Lemma hoare_conseq {St A sp} D (c : ctl (St := St) A) (Q R : A -> Prop) : hoare sp D c Q -> (forall a, Q a -> R a) -> hoare sp D c R.
Proof. intros H K w. destruct (H w) as (ds & ? & ? & ?). exists ds. auto. Qed.
Lemma hoare_sleep {St sp} (D : done -> Prop) t : D (DSleep t) -> hoare (St := St) sp D (sleep t) (fun _ => True).
Proof. intros H w. exists [DSleep t]. split; [apply went_sleep|]. split; [repeat constructor; exact H|auto]. Qed.
Lemma hoare_rpc {St} (sp : St -> Rpc -> St * reply) (D : done -> Prop) q d (Q : Rpc -> Prop) : D (DRequest q d) ->
  (forall w resp, snd (sp (w_sp w) (req w q d)) = Ok resp -> Q resp) -> hoare sp D (rpc sp q d) Q.
Proof.
  intros H K w. exists [DRequest q d]. split; [apply went_rpc|]. rewrite rpc_eq. cbn [fst snd].
  split; [repeat constructor; exact H|]. intros a. apply K.
Qed.
Lemma hoare_deeds {St A sp} D (c : ctl (St := St) A) Q w : hoare sp D c Q -> Forall D (deeds c w).
Proof.
  intros H. destruct (H w) as (ds & Hg & Hd & _). apply went_grew in Hg. destruct (c w) as [w1 x] eqn:E. cbn in *.
  now rewrite (deeds_grew _ _ _ _ _ E Hg).
Qed.

(** ** C62 *)
Section Asks.
  Context {St : Type} (sp : St -> Rpc -> St * reply).
  Local Notation hoare := (hoare sp).
  Definition only (p : HostRequest -> option (list N) -> Prop) (naps : bool) (x : done) : Prop :=
    match x with DRequest q d => p q d | DSleep _ => naps = true end.
  Definition asks {A} p naps (c : ctl (St := St) A) := hoare (only p naps) c (fun _ => True).

  Lemma asks_ret {A} p n (x : outcome Error A) : asks p n (cret x). Proof. now apply hoare_ret. Qed.
  Lemma asks_bind {A B} p n (c : ctl (St := St) A) (f : A -> ctl B) :
    asks p n c -> (forall a, asks p n (f a)) -> asks p n (cbind c f).
  Proof. intros Hc Hf. eapply hoare_bind; [exact Hc|]. intros a _. apply Hf. Qed.
  Lemma asks_rpc (p : HostRequest -> option (list N) -> Prop) n q d : p q d -> asks p n (rpc sp q d).
  Proof. intros H. now apply hoare_rpc. Qed.
  Lemma asks_sleep p t : asks p true (sleep t). Proof. now apply hoare_sleep. Qed.
  Lemma asks_only_intro {A} p n (c : ctl (St := St) A) : asks p n c -> asks_only p n c.
  Proof. intros H w. exact (hoare_deeds _ _ _ w H). Qed.

  Ltac as1 := first
    [ apply asks_ret | apply asks_sleep | apply asks_rpc; [assumption || reflexivity || auto]
    | apply asks_bind; [|intros ?]
    | match goal with |- asks _ _ (match ?x with _ => _ end) => destruct x end ].
  Ltac as_ := repeat as1.

  Section Kind.
    Context (p : HostRequest -> option (list N) -> Prop) (n : bool).
    Lemma asks_npr q : p q None -> asks p n (no_payload_request sp q).
    Proof. intros H. unfold no_payload_request, unexpected. as_. Qed.
    Lemma asks_leds m : p (HLedState m) None -> asks p n (leds sp m).
    Proof. intros H. unfold leds, unexpected. as_. Qed.
    Lemma asks_mac : p HMacAddrs None -> asks p n (mac_addrs sp).
    Proof. intros H. unfold mac_addrs, unexpected. as_. Qed.
    Lemma asks_status m : p (HStatus m) None -> asks p n (ctl_status sp m).
    Proof. intros H. unfold ctl_status, unexpected. as_. Qed.
    Lemma asks_ext m : p (HExtendedStatus m) None -> asks p n (extended_status sp m).
    Proof. intros H. unfold extended_status, unexpected. as_. Qed.
    Context (Hr : forall m rd, p (HRead m rd) None).
    Lemma asks_one m rd : asks p n (read_impl_one_message sp m rd).
    Proof. unfold read_impl_one_message, unexpected. as_. Qed.
    Lemma asks_rest l rd r : asks p n (read_rest sp l rd r).
    Proof.
      revert r. induction l as [|m l IH]; intros r; cbn [read_rest]; [apply asks_ret|].
      apply asks_bind; [apply asks_one|]. intros x. apply asks_bind; [apply asks_ret|]. intros y. apply IH.
    Qed.
    Lemma asks_read_impl m rd : asks p n (read_impl sp m rd).
    Proof.
      unfold read_impl. destruct (_ || _); [apply asks_ret|]. apply asks_bind; [apply asks_ret|].
      intros [|x l]; [apply asks_ret|]. apply asks_bind; [apply asks_one|]. intros r. apply asks_rest.
    Qed.
    Lemma asks_identifier m : asks p n (identifier sp m).
    Proof.
      unfold identifier. apply asks_bind; [apply asks_ret|]. intros rd. apply asks_bind; [apply asks_read_impl|].
      intros r. apply asks_ret.
    Qed.
    Lemma asks_read m rd : asks p n (ctl_read sp m rd).
    Proof.
      unfold ctl_read. destruct (_ || _); [apply asks_ret|]. apply asks_bind; [apply asks_identifier|]. intros id.
      apply asks_bind; [apply asks_ret|]. intros _. apply asks_bind; [apply asks_read_impl|]. intros r. apply asks_ret.
    Qed.
    Lemma asks_each m l : asks p n (read_each sp m l).
    Proof.
      induction l as [|rd l IH]; cbn [read_each]; [apply asks_ret|].
      apply asks_bind; [apply asks_read_impl|]. intros r. apply asks_bind; [apply IH|]. intros rs. apply asks_ret.
    Qed.
    Lemma asks_groups {P} reads (parse : Identifier -> list (list N) -> outcome DecodeError P) l s :
      asks p n (parse_groups sp reads parse l s).
    Proof.
      revert s. induction l as [|[id m] l IH]; intros s; cbn [parse_groups]; [apply asks_ret|].
      apply asks_bind; [apply asks_ret|]. intros rds. apply asks_bind; [apply asks_each|]. intros rs.
      apply asks_bind; [apply asks_ret|]. intros s'. apply IH.
    Qed.
    Lemma asks_parse {P} reads (parse : Identifier -> list (list N) -> outcome DecodeError P) m :
      asks p n (parse_modules_by_identifier sp reads parse m).
    Proof.
      unfold parse_modules_by_identifier. apply asks_bind; [apply asks_identifier|]. intros id.
      apply asks_bind; [apply asks_ret|]. intros g. apply asks_bind; [apply asks_groups|]. intros s. apply asks_ret.
    Qed.
    Context (Hs : forall m, p (HStatus m) None).
    Lemma asks_power m : asks p n (power sp m).
    Proof.
      unfold power. apply asks_bind; [now apply asks_status|]. intros st.
      destruct (filter_module_data _ _ _) as [pw ps]. destruct (filter_module_data _ _ _) as [ir ?].
      destruct (remove_module_data _ _ _) as [rd rs]. apply asks_bind.
      - destruct (Nat.eqb _ _); [apply asks_ret|]. apply asks_bind; [apply asks_parse|]. intros c.
        destruct (filter_module_data _ _ _). apply asks_ret.
      - intros r. destruct (merge_module_data _ _ _ _). apply asks_ret.
    Qed.
    Lemma asks_write_impl m wr d : p (HWrite m wr) (Some d) -> asks p n (write_impl sp m wr d).
    Proof. intros Hw. unfold write_impl, unexpected. as_. Qed.
    Lemma asks_write m wr d : (forall m', p (HWrite m' wr) (Some d)) -> asks p n (ctl_write sp m wr d).
    Proof.
      intros Hw. unfold ctl_write. apply asks_bind; [apply asks_identifier|]. intros id.
      apply asks_bind; [apply asks_ret|]. intros _. apply asks_bind; [now apply asks_write_impl|]. intros r. apply asks_ret.
    Qed.
    Section Soft.
      Context (st : PowerState) (Hw : forall q d, software_power_write st q d -> p q d) (Hst : st <> PowerOff).
      Lemma word_ok id o ww m : power_word id o st = Ok ww -> software_power_write st (HWrite m (fst ww)) (Some [snd ww]).
      Proof.
        unfold power_word, write_new. destruct (_ || _); [|destruct (_ || _); [|discriminate]];
        cbn; intros [= <-]; exists m; eexists; (split; [reflexivity|]); [left|right]; (split; [reflexivity|]);
        destruct st, o; try congruence; cbn; auto.
      Qed.
      Lemma asks_soft_write id o m s : asks p n (soft_write sp id st o m s).
      Proof.
        destruct s as [[a b] c]. cbn [soft_write].
        eapply hoare_bind; [apply (hoare_ret _ _ (fun ww => power_word id o st = Ok ww)); auto|]. intros ww Hww.
        apply asks_bind; [apply asks_write_impl; apply Hw; exact (word_ok id o ww m Hww)|]. intros r. destruct (remove_module_data _ _ _). apply asks_ret.
      Qed.
      Lemma asks_soft_groups l s : asks p n (soft_groups sp st l s).
      Proof.
        revert s. induction l as [|[id m] l IH]; intros s; cbn [soft_groups]; [apply asks_ret|].
        destruct s as [[a b] c]. destruct (filter_module_data _ _ _) as [wo ?].
        destruct (filter_module_data _ _ _) as [wo2 ?].
        apply asks_bind; [apply asks_soft_write|]. intros s1. apply asks_bind; [apply asks_soft_write|]. intros s2. apply IH.
      Qed.
      Lemma asks_ssps pr : asks p n (set_software_power_state sp pr st).
      Proof.
        pose proof asks_soft_groups as K. unfold set_software_power_state. destruct st; try apply asks_ret;
        (apply asks_bind; [apply asks_identifier|]; intros id; apply asks_bind; [apply asks_ret|]; intros g;
         destruct (keep_module_data _ _ _); apply asks_bind; [apply K|]; intros s; apply asks_ret).
      Qed.
    End Soft.
  End Kind.

  Lemma asks_set_power m st : asks (fun q d => looking q = true /\ d = None \/ is_power_pin q = true /\ d = None \/ software_power_write st q d) true (set_power sp m st).
  Proof.
    assert (Hon : st <> PowerOff -> asks (fun q d => looking q = true /\ d = None \/ is_power_pin q = true /\ d = None \/ software_power_write st q d) true (set_power_on sp m st)).
    { intros Hst. unfold set_power_on. apply asks_bind; [apply asks_power; auto|]. intros p.
      destruct (_ && _); [apply asks_ret|]. apply asks_bind; [apply asks_status; auto|]. intros s.
      destruct (filter_module_data _ _ _) as [npe ?]. destruct (filter_module_data _ _ _) as [nrd ?].
      apply asks_bind.
      { destruct (Nat.ltb _ _); [|apply asks_ret]. apply asks_bind; [apply asks_npr; auto|]. intros a.
        apply asks_bind; [apply asks_sleep|]. intros _. apply asks_ret. }
      intros s1. apply asks_bind.
      { destruct (Nat.ltb _ _); [|apply asks_ret]. apply asks_bind; [apply asks_npr; auto|]. intros a. apply asks_ret. }
      intros s2. apply asks_bind. { destruct st; apply asks_npr; auto. }
      intros lp. apply asks_bind.
      { destruct (Nat.ltb _ _); [|apply asks_ret]. apply asks_bind; [apply asks_npr; auto|]. intros a.
        apply asks_bind; [apply asks_sleep|]. intros _. apply asks_ret. }
      intros s4. destruct (keep_module_data _ _ _). apply asks_ssps; auto. }
    destruct st; cbn [set_power]; try (apply Hon; discriminate).
    unfold set_power_off. apply asks_bind; [apply asks_npr; auto|]. intros a. apply asks_bind; [apply asks_npr; auto|]. intros b.
    apply asks_bind; [apply asks_npr; auto|]. intros c. apply asks_ret.
  Qed.
  Lemma asks_reset m : asks (fun q d => d = None /\ match q with HAssertReset _ | HDeassertReset _ => True | _ => False end) true (reset sp m).
  Proof.
    unfold reset. apply asks_bind; [now apply asks_npr|]. intros a. apply asks_bind; [apply asks_sleep|]. intros _.
    apply asks_bind; [now apply asks_npr|]. intros b. apply asks_bind; [apply asks_sleep|]. intros _. apply asks_ret.
  Qed.

  Lemma queries_look m :
    just_looks (leds sp m) /\ just_looks (ctl_status sp m) /\
    just_looks (extended_status sp m) /\ just_looks (mac_addrs sp) /\
    just_looks (identifier sp m) /\ just_looks (power sp m) /\
    (forall rd, just_looks (ctl_read sp m rd)) /\
    (forall P reads (parse : Identifier -> list (list N) -> outcome DecodeError P),
       just_looks (parse_modules_by_identifier sp reads parse m)).
  Proof.
    repeat apply conj; intros; apply asks_only_intro; auto using asks_leds, asks_status, asks_ext, asks_mac,
      asks_identifier, asks_power, asks_read, @asks_parse.
  Qed.
  Lemma writes_only m wr data :
    asks_only (fun q d => looking q = true /\ d = None \/ exists m', q = HWrite m' wr /\ d = Some data) false
      (ctl_write sp m wr data).
  Proof. apply asks_only_intro, asks_write; eauto. Qed.
  Lemma power_only m st : asks_only (fun q d => looking q = true /\ d = None \/ is_power_pin q = true /\ d = None \/ software_power_write st q d) true (set_power sp m st).
  Proof. apply asks_only_intro, asks_set_power. Qed.
  Lemma reset_only m : asks_only (fun q d => d = None /\ match q with HAssertReset _ | HDeassertReset _ => True | _ => False end) true (reset sp m).
  Proof. apply asks_only_intro, asks_reset. Qed.
  Lemma npr_exact q w : deeds (no_payload_request sp q) w = [DRequest q None].
  Proof.
    destruct (no_payload_request sp q w) as [w1 x] eqn:E.
    apply (deeds_grew _ _ _ _ _ E). unfold no_payload_request, cbind in E. rewrite rpc_eq in E.
    destruct (snd (sp (w_sp w) (req w q None))) as [resp|e|].
    - assert (w1 = stepped w q None (fst (sp (w_sp w) (req w q None)))) as ->.
      { destruct (msg_body (rpc_message resp)); try (injection E as <- _; reflexivity).
        destruct r; injection E as <- _; reflexivity. }
      apply grew_stepped.
    - injection E as <- _. apply grew_stepped.
    - injection E as <- _. apply grew_stepped.
  Qed.
End Asks.
