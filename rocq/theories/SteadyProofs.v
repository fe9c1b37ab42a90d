(** Proofs for C101: at every moment of a call, module by module. *)
From Verif Require Export SpecSteady.
From Verif Require Import Tac Spec ModuleIdProofs ModuleIdProps ResultsProofs ControllerProofs ControllerProofs3
  ControllerProofs4 ControllerProofs5 ControllerProofs6 ControllerProofs7 ScopeProofs ScopeProofs2 LiveProofs LiveProofs2 LiveProofs3 PinsProofs PinsProofs2 SpecOnce OnceProofs4 PinsProofs3.
Import ListNotations.

(** The requests [set_power] makes. *)
Definition gentle (q : HostRequest) (d : option (list N)) : Prop :=
  looking q = true \/ is_power_pin q = true \/ exists m id b, bytes [b] = true /\ q = HWrite m (soft_place id) /\ d = Some [b].

Section Walk.
  Context {St : Type} (a : honest St) (view : St -> N -> slot) (Hok : honest_ok a) (Hd : drives a view) (Hs : settled a view) (i : N).
  Implicit Type w : world St.
  Local Notation sp := (honest_sp a).
  Local Notation at_ s := (view s i).
  Context (J : slot -> Prop) (K : St -> Prop) (HK : forall s q d, gentle q d -> K s -> K (hs_next a s q d)).

  (** Module [i] meets [J], and the state [K], at every moment of [c], if [P] at first; then [Q]. *)
  Definition walk {A} (P : slot -> Prop) (c : ctl (St := St) A) (Q : A -> slot -> Prop) : Prop :=
    forall w, K (w_sp w) -> J (at_ (w_sp w)) -> P (at_ (w_sp w)) -> exists l, w_log (fst (c w)) = w_log w ++ l /\ w_sp (fst (c w)) = led_to sp l (w_sp w) /\
      (forall l1 l2, l = l1 ++ l2 -> K (led_to sp l1 (w_sp w)) /\ J (at_ (led_to sp l1 (w_sp w)))) /\ forall x, snd (c w) = Ok x -> Q x (at_ (w_sp (fst (c w)))).

  Lemma walk_ret {A} (P : slot -> Prop) (x : outcome Error A) (Q : A -> slot -> Prop) :
    (forall v y, x = Ok v -> J y -> P y -> Q v y) -> walk P (cret x) Q.
  Proof.
    intros H w Kw Jw Pw. exists []. rewrite app_nil_r. split; [reflexivity|]. split; [reflexivity|]. split.
    - intros [|] l2 E; [now split|discriminate].
    - cbn. intros y ->. now apply H.
  Qed.
  Lemma walk_sleep (P : slot -> Prop) t : walk P (sleep t) (fun _ => P).
  Proof.
    intros w Kw Jw Pw. exists [ASleep t]. split; [reflexivity|]. split; [reflexivity|]. split.
    - intros [|? [|]] l2 E; try discriminate; [now split|]. injection E as <- _. now split.
    - cbn. auto.
  Qed.
  Lemma walk_bind {A B} P (c : ctl (St := St) A) (f : A -> ctl B) Q R :
    walk P c Q -> (forall x, walk (Q x) (f x) R) -> walk P (cbind c f) R.
  Proof.
    intros H L w Kw Jw Pw. destruct (H w Kw Jw Pw) as (l & E1 & E2 & E3 & E4). unfold cbind. destruct (c w) as [w1 [x|e|]]; cbn [fst snd] in *.
    - assert (J1 : K (w_sp w1) /\ J (at_ (w_sp w1))) by (rewrite E2; apply (E3 l []); now rewrite app_nil_r).
      destruct (L x w1 (proj1 J1) (proj2 J1) (E4 x eq_refl)) as (l' & F1 & F2 & F3 & F4). exists (l ++ l').
      split; [now rewrite F1, E1, app_assoc|]. split; [now rewrite led_to_app, <- E2|]. split; [|exact F4].
      intros l1 l2 E. apply app_eq_app in E. destruct E as (z & [[-> E]|[-> E]]).
      + now apply (E3 l1 z).
      + rewrite led_to_app, <- E2. now apply (F3 z l2).
    - exists l. split; [exact E1|]. split; [exact E2|]. split; [exact E3|]. discriminate.
    - exists l. split; [exact E1|]. split; [exact E2|]. split; [exact E3|]. discriminate.
  Qed.
  Lemma walk_conseq {A} (P P' : slot -> Prop) (c : ctl (St := St) A) (Q Q' : A -> slot -> Prop) :
    (forall y, J y -> P' y -> P y) -> walk P c Q -> (forall x y, Q x y -> Q' x y) -> walk P' c Q'.
  Proof. intros H C L w Kw Jw Pw. destruct (C w Kw Jw (H _ Jw Pw)) as (l & E1 & E2 & E3 & E4). exists l. split; [exact E1|]. split; [exact E2|]. split; [exact E3|]. intros x E. apply L, E4, E. Qed.
  Lemma walk_pure {A} (F : Prop) (P : slot -> Prop) (c : ctl (St := St) A) Q : (F -> walk P c Q) -> walk (fun y => F /\ P y) c Q.
  Proof. intros H w Kw Jw [H1 H2]. now apply H. Qed.
  (** Looking. *)
  Lemma walk_look {A} (P : slot -> Prop) n (c : ctl (St := St) A) (R : A -> Prop) : asks sp lk n c ->
    (forall w, K (w_sp w) -> P (at_ (w_sp w)) -> forall x, snd (c w) = Ok x -> R x) -> walk P c (fun x y => R x /\ P y).
  Proof.
    intros H HR w Kw Jw Pw. destruct (H w) as (ds & (l & E1 & E2 & E3) & F & _). exists l. split; [exact E1|]. split; [exact E3|].
    assert (X : forall l1 l2, l = l1 ++ l2 -> K (led_to sp l1 (w_sp w)) /\ at_ (led_to sp l1 (w_sp w)) = at_ (w_sp w)).
    { intros l1. induction l1 as [|x l1 IH] using rev_ind; intros l2 E; [now split|]. rewrite <- app_assoc in E. rewrite led_to_app. destruct (IH _ E) as [IK IV]. rewrite <- IV. clear IV.
      destruct x as [r|t]; [|now split]. cbn [led_to fold_left]. set (s' := led_to sp l1 (w_sp w)) in *. unfold honest_sp.
      destruct (msg_body (rpc_message r)) as [|q| | |] eqn:B; try (now split). cbn [fst].
      assert (D : In (DRequest q (rpc_data r)) ds).
      { rewrite <- E2, E. apply in_flat_map. exists (ASend r). split; [apply in_elt|]. cbn. rewrite B. now left. }
      assert (Lq : looking q = true) by (rewrite Forall_forall in F; apply (F _ D)).
      split; [apply HK; [now left|exact IK]|now apply (dr_look _ _ Hd)]. }
    split.
    - intros l1 l2 E. destruct (X _ _ E) as [X1 X2]. rewrite X2. now split.
    - intros x Hx. split; [eapply HR; eauto|]. rewrite E3. change (replay sp l (w_sp w)) with (led_to sp l (w_sp w)). rewrite (proj2 (X l [] ltac:(now rewrite app_nil_r))). exact Pw.
  Qed.
  (** One request. *)
  Lemma walk_one {A} (P : slot -> Prop) q d (c : ctl (St := St) A) (Q : A -> slot -> Prop) : gentle q d ->
    (forall w, fst (c w) = next a w q d) ->
    (forall w, J (at_ (w_sp w)) -> P (at_ (w_sp w)) -> J (at_ (hs_next a (w_sp w) q d)) /\ forall x, snd (c w) = Ok x -> Q x (at_ (hs_next a (w_sp w) q d))) ->
    walk P c Q.
  Proof.
    intros G E H w Kw Jw Pw. destruct (H w Jw Pw) as [H1 H2]. rewrite E. exists [ASend (req w q d)]. split; [reflexivity|]. split; [reflexivity|].
    split; [|exact H2]. intros [|x [|]] l2 E'; try discriminate; [now split|]. injection E' as <- _. split; [|exact H1]. cbn. now apply HK.
  Qed.
  Lemma walk_ack (P : slot -> Prop) q (Q : Result unit -> slot -> Prop) : is_power_pin q = true -> mask_ok (request_modules q) = true ->
    (forall s r, J (at_ s) -> P (at_ s) -> sub (mr_modules r) (request_modules q) ->
       (N.testbit (mr_modules r) i = N.testbit (request_modules q) i && is_good (hs_verdict a s q None i)) ->
       J (at_ (hs_next a s q None)) /\ Q r (at_ (hs_next a s q None))) -> walk P (no_payload_request sp q) Q.
  Proof.
    intros Hq Hm H. assert (X : forall w, exists r, no_payload_request sp q w = (next a w q None, Ok r) /\ sub (mr_modules r) (request_modules q) /\
      N.testbit (mr_modules r) i = N.testbit (request_modules q) i && is_good (hs_verdict a (w_sp w) q None i)).
    { intros w. destruct (honest_ack a Hok w q) as (r & E & _ & R); [now destruct q|now destruct q|exact Hm|].
      assert (B : forall j, N.testbit (mr_modules r) j = N.testbit (request_modules q) j && is_good (hs_verdict a (w_sp w) q None j)).
      { intros j. rewrite (rrep_modules _ _ _ j R). unfold told, vd. destruct (N.testbit _ j); [|reflexivity]. now destruct (hs_verdict a (w_sp w) q None j). }
      exists r. split; [exact E|]. split; [|apply B]. intros j. rewrite B. now destruct (N.testbit (request_modules q) j). }
    apply (walk_one P q None); [right; now left| |].
    - intros w. destruct (X w) as (r & E & _). now rewrite E.
    - intros w Jw Pw. destruct (X w) as (r & E & S & B). destruct (H _ _ Jw Pw S B) as [H1 H2]. split; [exact H1|]. rewrite E. intros x [= <-]. exact H2.
  Qed.
  Lemma walk_apart (P : slot -> Prop) q : is_power_pin q = true -> mask_ok (request_modules q) = true -> N.testbit (request_modules q) i = false ->
    walk P (no_payload_request sp q) (fun r y => sub (mr_modules r) (request_modules q) /\ P y).
  Proof.
    intros Hq Hm Hi. apply walk_ack; auto. intros s r Js Ps S _. rewrite (dr_apart _ _ Hd); [auto|]. rewrite member_testbit. congruence.
  Qed.
End Walk.

(** The pin a state asks for. *)
Definition lp_of (st : PowerState) : bool := match st with PowerLow => true | _ => false end.
Lemma low_high st : st <> PowerOff -> low_or_high (lp_of st) = st.
Proof. now destruct st. Qed.
Lemma kind_same x y : (forall p o, o <> power_byte x -> sl_cell y p o = sl_cell x p o) -> slot_kind y = slot_kind x.
Proof.
  intros H. unfold slot_kind, kind_of, sff_low. rewrite H; [reflexivity|]. unfold power_byte. destruct (sff_kind _); discriminate.
Qed.
Lemma on_power x : supplied (sl_status x) = true -> held_in_reset (sl_status x) = false ->
  slot_power x = match slot_control x with None => None | Some (OverrideLpModePin low) => Some (low_or_high low) | Some UseLpModePin => Some (low_or_high (lpmode_pin (sl_status x))) end.
Proof. intros H1 H2. unfold slot_power, slot_mode. rewrite H1, H2. cbn. destruct (slot_control x) as [[|]|]; reflexivity. Qed.
Lemma control_same x y : (forall p o, sl_cell y p o = sl_cell x p o) -> slot_control y = slot_control x.
Proof.
  intros H. unfold slot_control. assert (K : slot_kind y = slot_kind x) by (apply kind_same; intros; apply H). rewrite K. destruct (sff_kind _); [now rewrite H|].
  destruct (cmis_kind _); [now rewrite H|reflexivity].
Qed.
Lemma word_control x ov st : worded (slot_kind x) ov st x -> slot_control x = Some (if ov then OverrideLpModePin (lp_of st) else UseLpModePin).
Proof.
  intros [Hk Hc]. unfold slot_control. unfold supported_kind in Hk. unfold soft_place, soft_word in Hc.
  destruct (sff_kind (slot_kind x)); cbn [wr_offset] in Hc.
  - rewrite (Hc (PageSff SffLower)). destruct st, ov; reflexivity.
  - cbn [orb] in Hk. rewrite Hk, (Hc (PageCmis CmisLower)). destruct st, ov; reflexivity.
Qed.

Section Steps.
  Context {St : Type} (a : honest St) (view : St -> N -> slot) (Hok : honest_ok a) (Hd : drives a view) (Hs : settled a view) (i : N).
  Context (st : PowerState) (Hst : st <> PowerOff) (x0 : slot).
  Local Notation sp := (honest_sp a).
  Local Notation at_ s := (view s i).
  Local Notation J := (goes_to st x0).

  (** The LPMode pin. *)
  Lemma step_lpmode s m : J (at_ s) -> N.testbit m i = true -> is_good (hs_verdict a s (lpmode_request st m) None i) = true ->
    let y := at_ (hs_next a s (lpmode_request st m) None) in J y /\ lpmode_pin (sl_status y) = lp_of st /\ slot_control y = slot_control (at_ s).
  Proof.
    intros (H1 & H2 & H3 & H4 & H5) Hm V y. destruct (hs_verdict a s (lpmode_request st m) None i) as [v|] eqn:E; [|discriminate].
    assert (Hq : is_power_pin (lpmode_request st m) = true) by now destruct st.
    assert (Hi : member i (request_modules (lpmode_request st m))) by (apply member_testbit; now destruct st).
    destruct (dr_pin _ _ Hd _ _ _ _ _ Hq Hi E) as (P1 & P2 & P3). fold y in P1, P2, P3.
    assert (L : match lpmode_request st m with HAssertLpMode _ | HDeassertLpMode _ => True | _ => False end) by now destruct st.
    destruct (se_lpmode _ _ Hs s (lpmode_request st m) None i L) as [L1 L2]. fold y in L1, L2.
    assert (Q1 : supplied (sl_status y) = true) by (rewrite P1; now destruct st).
    assert (Q2 : held_in_reset (sl_status y) = false) by (rewrite P2; now destruct st).
    assert (Q3 : lpmode_pin (sl_status y) = lp_of st) by (rewrite P3; destruct st; [congruence|reflexivity|reflexivity]).
    assert (Q4 : slot_control y = slot_control (at_ s)) by now apply control_same.
    split; [|auto]. split; [exact Q1|]. split; [exact Q2|]. split; [congruence|]. split; [intros p o Ho; rewrite L2; auto|].
    rewrite (on_power y Q1 Q2), Q4, Q3. rewrite (on_power _ H1 H2) in H5. destruct (slot_control (at_ s)) as [[|low]|]; [right|exact H5|exact H5]. now rewrite low_high.
  Qed.
  (** The word in memory. *)
  Lemma step_write s m ov v : J (at_ s) -> lpmode_pin (sl_status (at_ s)) = lp_of st -> supported_kind (slot_kind x0) = true ->
    let q := HWrite m (soft_place (slot_kind x0)) in let d := Some [soft_word (slot_kind x0) ov st] in
    N.testbit m i = true -> hs_verdict a s q d i = inl v -> let y := at_ (hs_next a s q d) in
    J y /\ sl_status y = sl_status (at_ s) /\ slot_control y = Some (if ov then OverrideLpModePin (lp_of st) else UseLpModePin).
  Proof.
    intros (H1 & H2 & H3 & H4 & H5) Hp Hk q d Hm V y. apply member_testbit in Hm.
    assert (Hb : bytes [soft_word (slot_kind x0) ov st] = true).
    { unfold soft_word. destruct (sff_kind _), st, ov; reflexivity. }
    destruct (dr_write _ _ Hd _ _ _ _ _ _ Hb Hm V) as (W1 & W2 & W3). fold q d y in W1, W2, W3.
    assert (C : forall p o, o <> power_byte x0 -> sl_cell y p o = sl_cell x0 p o).
    { intros p o Ho. rewrite (proj2 (W3 p o)); [now apply H4|]. unfold reaches, soft_place, power_byte in *. cbn [wr_offset wr_len]. lia. }
    assert (K : slot_kind y = slot_kind x0) by now apply kind_same.
    assert (Wd : worded (slot_kind y) ov st y).
    { rewrite K. split; [exact Hk|]. intros p. rewrite (proj1 (W3 p _)); [now rewrite N.sub_diag|].
      unfold reaches, soft_place. cbn [wr_offset wr_len]. destruct (sff_kind _); lia. }
    apply word_control in Wd. rewrite <- W1 in Hp, H1, H2. split; [|auto]. split; [exact H1|]. split; [exact H2|]. split; [congruence|]. split; [exact C|].
    right. rewrite (on_power y H1 H2), Wd. destruct ov; [|rewrite Hp]; now rewrite low_high.
  Qed.
End Steps.

Section Calls.
  Context {St : Type} (a : honest St) (view : St -> N -> slot) (Hok : honest_ok a) (Hd : drives a view) (Hs : settled a view) (i : N).
  Context (st : PowerState) (Hst : st <> PowerOff) (x0 : slot).
  Implicit Type w : world St.
  Local Notation sp := (honest_sp a).
  Local Notation at_ s := (view s i).

  Section Write.
    Context (J : slot -> Prop) (K : St -> Prop) (HK : forall s q d, gentle q d -> K s -> K (hs_next a s q d)).
    Local Notation walk := (walk a view i J K).
    Lemma walk_soft_write (P : slot -> Prop) id ov x s : mask_ok x = true ->
      (N.testbit x i = true -> forall s' v, J (at_ s') -> P (at_ s') -> supported_kind id = true ->
         let q := HWrite x (soft_place id) in let d := Some [soft_word id ov st] in
         hs_verdict a s' q d i = inl v -> J (at_ (hs_next a s' q d)) /\ P (at_ (hs_next a s' q d))) ->
      walk P (soft_write sp id st ov x s) (fun s' y => sub (fst (fst s')) x /\ P y).
    Proof.
      intros Hx H. destruct s as [[su mo] fa]. unfold soft_write.
      eapply walk_bind with (Q := fun ww y => power_word id ov st = Ok ww /\ P y); [apply walk_ret; auto|].
      intros [wr b]. apply walk_pure. intros Ew. destruct (word_shape _ _ _ _ _ Ew) as (-> & -> & Hk & _). cbn [fst snd].
      eapply walk_bind with (Q := fun _ y => P y); [|intros r; unfold remove_module_data; apply walk_ret; intros v y [= <-] _ Py; cbn [fst]; split; [apply sub_remove|exact Py]].
      assert (X : forall w, exists r, write_impl sp x (soft_place id) [soft_word id ov st] w = (next a w (HWrite x (soft_place id)) (Some [soft_word id ov st]), Ok r)).
      { intros w. destruct (honest_write a Hok w x (soft_place id) [soft_word id ov st]) as (r & E & _); [reflexivity|exact Hx|]. eauto. }
      apply (walk_one a view i J K HK P (HWrite x (soft_place id)) (Some [soft_word id ov st])).
      - right. right. exists x, id, (soft_word id ov st). split; [unfold soft_word; destruct (sff_kind _), st, ov; reflexivity|now split].
      - intros w. destruct (X w) as (r & E). now rewrite E.
      - intros w Jw Pw. assert (KK : J (at_ (hs_next a (w_sp w) (HWrite x (soft_place id)) (Some [soft_word id ov st]))) /\
          P (at_ (hs_next a (w_sp w) (HWrite x (soft_place id)) (Some [soft_word id ov st])))).
        { destruct (N.testbit x i) eqn:T.
          - destruct (hs_verdict a (w_sp w) (HWrite x (soft_place id)) (Some [soft_word id ov st]) i) as [v|e] eqn:V.
            + exact (H eq_refl (w_sp w) v Jw Pw Hk V).
            + rewrite (se_refused _ _ Hs); [auto|]. now rewrite V.
          - rewrite (dr_apart _ _ Hd); [auto|]. rewrite member_testbit. cbn. congruence. }
        split; [apply KK|]. intros r _. apply KK.
    Qed.
  End Write.

  (** If [k], the modules asked for are of one kind, and pins do not change that. *)
  Context (k : bool) (m0 : N) (id0 : Identifier)
    (Hk0 : k = true -> forall t q d j, is_power_pin q = true -> N.testbit m0 j = true -> slot_kind (view (hs_next a t q d) j) = slot_kind (view t j)).
  Definition kinds (s : St) : Prop := k = true -> forall j, N.testbit m0 j = true -> slot_kind (view s j) = id0.
  Lemma kinds_kept s q d : gentle q d -> kinds s -> kinds (hs_next a s q d).
  Proof.
    intros G Ks Ek j Hj. rewrite <- (Ks Ek j Hj). destruct G as [G|[G|(m & id & b & Hb & -> & ->)]].
    - now rewrite (dr_look _ _ Hd).
    - now apply Hk0.
    - destruct (N.testbit m j) eqn:T; [|rewrite (dr_apart _ _ Hd); [reflexivity|rewrite member_testbit; cbn; congruence]].
      destruct (hs_verdict a s (HWrite m (soft_place id)) (Some [b]) j) as [v|e] eqn:V; [|rewrite (se_refused _ _ Hs); [reflexivity|now rewrite V]].
      destruct (dr_write _ _ Hd _ _ _ _ _ _ Hb (proj2 (member_testbit _ _) T) V) as (_ & _ & W).
      unfold slot_kind, kind_of, sff_low. rewrite (proj2 (W _ _)); [reflexivity|]. unfold reaches, soft_place. cbn [wr_offset wr_len]. destruct (sff_kind _); lia.
  Qed.
  Definition goes (y : slot) : Prop := goes_to st x0 y /\ (k = true -> overrides y = overrides x0).
  Local Notation J := goes.
  Local Notation walk := (walk a view i J kinds).
  Definition led (m : N) (y : slot) : Prop := N.testbit m i = true -> lpmode_pin (sl_status y) = lp_of st.

  Lemma walk_group_write pm id ov x s : mask_ok x = true ->
    (N.testbit x i = true -> N.testbit pm i = true /\ id = slot_kind x0 /\ (k = true -> overrides x0 = Some ov)) ->
    walk (led pm) (soft_write sp id st ov x s) (fun s' y => sub (fst (fst s')) x /\ led pm y).
  Proof.
    intros Hx H. apply walk_soft_write; [exact kinds_kept|exact Hx|]. intros Hi s' v [Js _] Ps Hk q d V. destruct (H Hi) as (Hpm & -> & Ho).
    destruct (step_write a view Hd i st Hst x0 s' x ov v Js (Ps Hpm) Hk Hi V) as (H1 & H2 & H3). split; [split; [exact H1|]|].
    - intros Ek. rewrite (Ho Ek). unfold overrides, q, d. rewrite H3. now destruct ov.
    - intros _. unfold q, d. rewrite H2. now apply Ps.
  Qed.
  Definition fits (pm : N) (gs : list (Identifier * ModuleId)) (s : soft) : Prop :=
    k = true -> gs = [] \/ exists id, gs = [(id, fst (fst s))] /\ aligned (fst (fst s)) (snd (fst s)) /\
      forall v, get (fst (fst s)) (snd (fst s)) i = Some v -> overrides x0 = Some (overridden v).
  Lemma walk_groups pm gs : Forall (fun g : Identifier * ModuleId => mask_ok (snd g) = true /\ (N.testbit (snd g) i = true -> N.testbit pm i = true /\ fst g = slot_kind x0)) gs ->
    forall s, mask_ok (fst (fst s)) = true -> fits pm gs s -> walk (led pm) (soft_groups sp st gs s) (fun _ _ => True).
  Proof.
    induction 1 as [|[id mk] gs [Hmk Hid] Hgs IH]; intros s Hsu Hf; [apply walk_ret; auto|]. cbn [soft_groups]. destruct s as [[su mo] fa]. unfold fits in Hf. cbn [fst snd] in Hmk, Hid, Hsu, Hf.
    destruct (filter_module_data su mo _) as [wo l1] eqn:E1. destruct (filter_module_data mk mo _) as [wo2 l2] eqn:E2.
    destruct (filter_eq _ _ _ _ _ Hsu E1) as [A1 G1]. destruct (filter_eq _ _ _ _ _ Hmk E2) as [A2 G2].
    assert (H2 : sub wo2 mk).
    { pose proof (sub_filter mk mo (fun i m => m_contains mk i && negb (overridden m))) as K. now rewrite E2 in K. }
    assert (H1 : forall j, N.testbit wo j = true -> N.testbit mk j = true).
    { intros j Hj. rewrite (testbit_get _ _ j A1), G1 in Hj. destruct (get su mo j) as [v|]; [|discriminate].
      rewrite m_contains_testbit in Hj. now destruct (N.testbit mk j). }
    assert (Ho1 : k = true -> N.testbit wo i = true -> overrides x0 = Some true).
    { intros Ek Hi. destruct (Hf Ek) as [|(id' & E & Al & Hv)]; [discriminate|]. rewrite (testbit_get _ _ i A1), G1 in Hi.
      destruct (get su mo i) as [v|]; [|discriminate]. rewrite (Hv v eq_refl). destruct (overridden v); [reflexivity|]. now rewrite andb_false_r in Hi. }
    assert (Ho2 : k = true -> N.testbit wo2 i = true -> overrides x0 = Some false).
    { intros Ek Hi. destruct (Hf Ek) as [|(id' & E & Al & Hv)]; [discriminate|]. injection E as -> -> ->. rewrite (testbit_get _ _ i A2), G2 in Hi.
      destruct (get su mo i) as [v|]; [|discriminate]. rewrite (Hv v eq_refl). destruct (overridden v); [|reflexivity]. now rewrite andb_false_r in Hi. }
    eapply walk_bind; [apply walk_group_write; [apply A1|intros Hi; destruct (Hid (H1 _ Hi)); auto]|].
    intros s1. apply walk_pure. intros _. eapply walk_bind; [apply walk_group_write; [apply A2|intros Hi; destruct (Hid (H2 _ Hi)); auto]|].
    intros s2. apply walk_pure. intros S2. apply IH.
    - apply (sub_ok _ wo2); [exact S2|apply A2].
    - intros Ek. destruct (Hf Ek) as [|(id' & E & _)]; [discriminate|]. injection E as _ _ ->. now left.
  Qed.
  Lemma walk_software pr : mask_ok (mr_modules pr) = true ->
    (k = true -> sub (mr_modules pr) m0 /\ aligned (mr_modules pr) (mr_data pr) /\
       forall v, get (mr_modules pr) (mr_data pr) i = Some v -> overrides x0 = Some (overridden v)) ->
    walk (led (mr_modules pr)) (set_software_power_state sp pr st) (fun _ _ => True).
  Proof.
    intros Hm Hpr. unfold set_software_power_state. replace (match st with PowerOff => cret Panic | _ => _ end) with
      (cbind (identifier sp (mr_modules pr)) (fun ident =>
      cbind (cret (split_modules_by_identifier (mr_modules ident) (mr_data ident))) (fun groups =>
        let (success, modes) := keep_module_data (mr_modules pr) (mr_data pr) (mr_modules ident) in
        let failures := failed_merge (mr_failures pr) (mr_failures ident) in
        cbind (soft_groups sp st groups (success, modes, failures)) (fun s =>
        cret (Ok (ack_new (fst (fst s)) (snd s))))))) by (destruct st; [congruence|reflexivity|reflexivity]).
    set (P := led (mr_modules pr)).
    eapply walk_bind with (Q := fun ident y => (aligned (mr_modules ident) (mr_data ident) /\ (forall v, get (mr_modules ident) (mr_data ident) i = Some v -> v = slot_kind x0) /\
      sub (mr_modules ident) (mr_modules pr) /\ (k = true -> forall j v, get (mr_modules ident) (mr_data ident) j = Some v -> v = id0)) /\ P y).
    { eapply walk_conseq with (P := fun y => J y /\ P y) (Q := fun ident y => _ /\ (J y /\ P y)); [intros y H1 H2; exact (conj H1 H2)| |intros ident y [H1 [_ H2]]; exact (conj H1 H2)].
      eapply walk_look with (n := false); [exact Hd|exact kinds_kept|apply asks_identifier; split; reflexivity|]. intros w Kw [[Jw _] Pw] ident E.
      destruct (live_identifier a view Hok Hd w (mr_modules pr) (fun i => view (w_sp w) i) (fun i => eq_refl) Hm) as (ri & w1 & f & E1 & R & T & _).
      rewrite E1 in E. injection E as <-. split; [apply R|]. split; [|split].
      - intros v Hv. destruct (rrep_true _ _ _ _ i v R T Hv) as [H1 H2]. rewrite H2. destruct Jw as (_ & _ & _ & K & _). now apply kind_same.
      - intros j Hj. rewrite (testbit_get _ _ j (proj1 (proj1 R))) in Hj. destruct (get (mr_modules ri) (mr_data ri) j) as [v|] eqn:G; [|discriminate].
        apply (rrep_true _ _ _ _ j v R T G).
      - intros Ek j v Hv. destruct (rrep_true _ _ _ _ j v R T Hv) as [H1 H2]. rewrite H2. apply (Kw Ek). now apply (Hpr Ek). }
    intros ident. apply walk_pure. intros (Ai & Hi & Si & Hone).
    eapply walk_bind with (Q := fun gs y => split_modules_by_identifier (mr_modules ident) (mr_data ident) = Ok gs /\ P y); [apply walk_ret; auto|].
    intros gs. apply walk_pure. intros Eg. destruct (split_groups _ _ Ai) as (gs' & Eg' & Hg). rewrite Eg in Eg'. injection Eg' as <-.
    destruct (keep_module_data _ _ _) as [su mo] eqn:Ek.
    eapply walk_bind; [|intros s; now apply walk_ret]. apply walk_groups.
    - pose proof (groups_masks _ _ _ Ai Hg) as Hgm. rewrite Forall_forall in *. intros [id mk] Hin. split; [now apply (Hgm _ Hin)|]. cbn [fst snd]. intros Hb.
      destruct Hg as (_ & Hg2 & _). destruct (Hg2 _ _ Hin) as [_ Hb2]. apply Hb2, in_zip_get in Hb. split; [|now apply Hi].
      apply Si. rewrite (testbit_get _ _ i Ai), Hb. reflexivity.
    - unfold keep_module_data, remove_module_data in Ek. injection Ek as <- _. cbn [fst]. now apply mask_ok_remove.
    - intros Ekt. destruct (Hpr Ekt) as (_ & Apr & Hv). destruct (keep_eq _ _ _ _ _ Apr Ek) as [Ak Gk]. cbn [fst snd].
      destruct gs as [|[id mk] rest]; [now left|]. right. exists id. destruct Hg as (Hg1 & Hg2 & Hg3).
      assert (All : forall id' mk', In (id', mk') ((id, mk) :: rest) -> id' = id0).
      { intros id' mk' Hin. destruct (Hg2 _ _ Hin) as [Hnz Hb]. destruct (N.eq_dec mk' 0) as [|Hnz']; [contradiction|].
        assert (X : exists j, N.testbit mk' j = true) by (exists (N.log2 mk'); now apply N.bit_log2).
        destruct X as [j Hj]. apply Hb, in_zip_get in Hj. now apply (Hone Ekt j). }
      assert (Rest : rest = []).
      { destruct rest as [|[id2 mk2] rest]; [reflexivity|]. exfalso. assert (H1 := All id mk (or_introl eq_refl)). assert (H2 := All id2 mk2 (or_intror (or_introl eq_refl))).
        rewrite H1, H2 in Hg1. inversion Hg1 as [|? ? _ F]; subst. inversion F as [|? ? F1 _]; subst. cbn in F1. now rewrite benum_ltb_irrefl in F1. }
      subst rest. split; [|split; [exact Ak|]].
      + f_equal. f_equal. apply mask_ext. intros j. apply Bool.eq_iff_eq_true. rewrite (proj2 (Hg2 _ _ (or_introl eq_refl)) j), in_zip_get.
        rewrite (testbit_get _ _ j Ak), Gk. rewrite (testbit_get _ _ j Ai) in *. destruct (get (mr_modules ident) (mr_data ident) j) as [v|] eqn:G.
        * assert (v = id) by (rewrite (Hone Ekt _ _ G); symmetry; apply (All id mk); now left). subst v.
          assert (X : N.testbit (mr_modules pr) j = true) by (apply Si; rewrite (testbit_get _ _ j Ai), G; reflexivity).
          rewrite (testbit_get _ _ j Apr) in X. tauto.
        * split; discriminate.
      + intros v. rewrite Gk. destruct (N.testbit (mr_modules ident) i); [apply Hv|discriminate].
  Qed.

  Context (old : PowerState) (Hx0 : slot_power x0 = Some old) (Hold : old <> PowerOff).
  Lemma was_on : supplied (sl_status x0) = true /\ held_in_reset (sl_status x0) = false.
  Proof.
    unfold slot_power, slot_mode in Hx0. destruct (supplied (sl_status x0)), (held_in_reset (sl_status x0)); auto; cbn in Hx0; congruence.
  Qed.
  Lemma goes_refl : J x0.
  Proof. destruct was_on as [H1 H2]. split; [|reflexivity]. split; [exact H1|]. split; [exact H2|]. split; [reflexivity|]. split; [reflexivity|]. now left. Qed.
  Lemma mode_overrides v : slot_mode x0 = Some v -> overrides x0 = Some (overridden v).
  Proof.
    destruct was_on as [H1 H2]. unfold slot_mode, overrides. rewrite H1, H2. cbn. destruct (slot_control x0) as [[|]|]; [| |discriminate]; intros [= <-]; reflexivity.
  Qed.

  Lemma walk_on : mask_ok m0 = true -> walk (fun y => y = x0) (set_power_on sp m0 st) (fun _ _ => True).
  Proof.
    intros Hm. unfold set_power_on. destruct was_on as [On1 On2].
    eapply walk_bind; [eapply walk_look with (n := false) (R := fun p => sub (mr_modules p) m0 /\ aligned (mr_modules p) (mr_data p) /\
      forall v, get (mr_modules p) (mr_data p) i = Some v -> overrides x0 = Some (overridden v)); [exact Hd|exact kinds_kept|apply asks_power; split; reflexivity|]|].
    { intros w _ Pw x E. split.
      - destruct (in_power sp (honest_scoped a) m0 w) as (_ & _ & _ & K). exact (proj1 (K x E)).
      - destruct (power sp m0 w) as [w' o] eqn:E'. cbn [snd] in E. subst o. destruct (live_power a view Hok Hd _ _ _ _ Hm E') as [H1 H2]. split; [exact H1|].
        intros v Hv. apply mode_overrides. rewrite <- Pw. now apply H2. }
    intros p. apply walk_pure. intros (Sp & Ap & Hv). assert (Hp : mask_ok (mr_modules p) = true) by now apply (sub_ok _ m0). destruct (_ && _); [now apply walk_ret|].
    eapply walk_bind; [eapply walk_look with (n := false) (R := fun s => sub (mr_modules s) (mr_modules p) /\ aligned (mr_modules s) (mr_data s) /\ forall x, get (mr_modules s) (mr_data s) i = Some x -> x = sl_status x0);
      [exact Hd|exact kinds_kept|apply asks_status; split; reflexivity|]|].
    { intros w _ Pw x E. destruct (ctl_status sp (mr_modules p) w) as [w' o] eqn:E'. cbn [snd] in E. subst o.
      destruct (live_status a view Hok Hd _ _ _ _ Hp E') as (H1 & H2 & H3 & _). split; [exact H1|]. split; [exact H2|]. intros y Hy. rewrite (H3 _ _ Hy). now rewrite Pw. }
    intros s. apply walk_pure. intros (Ss & Hal & Hst2). assert (Hsm : mask_ok (mr_modules s) = true) by apply Hal.
    destruct (filter_module_data (mr_modules s) (mr_data s) (fun _ s => negb _ || _)) as [npe l1] eqn:EF.
    destruct (filter_eq _ _ _ _ _ Hsm EF) as [Aln Gn].
    destruct (filter_module_data (mr_modules s) (mr_data s) (fun _ s => st_contains s ST_RESET)) as [nrd l2] eqn:EG.
    assert (Hnpe : mask_ok npe = true) by apply Aln.
    assert (Sn : sub npe (mr_modules p)).
    { intros j Hj. apply Ss. rewrite (testbit_get _ _ j Aln), Gn in Hj. rewrite (testbit_get _ _ j Hal). now destruct (get (mr_modules s) (mr_data s) j). }
    assert (Bn : N.testbit npe i = false).
    { rewrite (testbit_get _ _ i Aln), Gn. destruct (get (mr_modules s) (mr_data s) i) as [x|] eqn:G; [|reflexivity].
      rewrite (Hst2 _ eq_refl), contains_supplied, contains_reset, On1, On2. reflexivity. }
    set (nbr := m_remove npe nrd) in *. assert (Hnb : sub nbr npe) by apply sub_remove. assert (Hnbr : mask_ok nbr = true) by now apply (sub_ok _ npe).
    assert (Bb : N.testbit nbr i = false) by (destruct (N.testbit nbr i) eqn:X; [apply Hnb in X; congruence|reflexivity]). clearbody nbr. clear EF Gn EG.
    set (f0 := failed_merge (mr_failures p) (mr_failures s)) in *. clearbody f0.
    (* reset *)
    apply walk_bind with (Q := fun (s1 : ModuleId * FailedModules TransceiverError) y => sub (fst s1) (mr_modules p) /\ y = x0).
    { destruct (Nat.ltb 0 (m_count nbr)); [|apply walk_ret; intros v y [= <-]; auto].
      eapply walk_bind; [apply walk_apart; auto using kinds_kept|]. intros r. apply walk_pure. intros Sr.
      eapply walk_bind; [apply walk_sleep|]. intros u. apply walk_ret. intros v y [= <-] _ Hy. split; [|exact Hy]. intros j Hj. apply Sn, Hnb, Sr, Hj. }
    intros s1. apply walk_pure. intros H1.
    (* power *)
    apply walk_bind with (Q := fun (s2 : ModuleId * FailedModules TransceiverError) y => sub (fst s2) (mr_modules p) /\ y = x0).
    { destruct (Nat.ltb 0 (m_count npe)); [|apply walk_ret; intros v y [= <-]; auto].
      eapply walk_bind; [apply walk_apart; auto using kinds_kept|]. intros r. apply walk_pure. intros Sr.
      apply walk_ret. intros v y [= <-] _ Hy. split; [|exact Hy]. intros j Hj. apply Sn, Sr, Hj. }
    intros s2. apply walk_pure. intros H2. assert (Hm2 : mask_ok (fst s2) = true) by now apply (sub_ok _ (mr_modules p)).
    (* the LPMode pin *)
    apply walk_bind with (Q := fun (l : Result unit) y => sub (mr_modules l) (mr_modules p) /\ led (mr_modules l) y).
    { replace (match st with PowerLow => assert_lpmode sp (fst s2) | _ => deassert_lpmode sp (fst s2) end)
        with (no_payload_request sp (lpmode_request st (fst s2))) by (now destruct st).
      assert (L2 : request_modules (lpmode_request st (fst s2)) = fst s2) by now destruct st.
      apply walk_ack; [exact Hok|exact kinds_kept|now destruct st|now rewrite L2|]. intros s' r Js _ Sr Br. rewrite L2 in Sr, Br.
      assert (Sl : sub (mr_modules r) (mr_modules p)) by (intros j Hj; apply H2, Sr, Hj).
      destruct (N.testbit (fst s2) i && is_good (hs_verdict a s' (lpmode_request st (fst s2)) None i)) eqn:B.
      - apply andb_true_iff in B. destruct B as [B1 B2]. destruct Js as [Js Jo]. destruct (step_lpmode a view Hd Hs i st Hst x0 s' _ Js B1 B2) as (K1 & K2 & K3).
        split; [split; [exact K1|]|split; [exact Sl|intros _; exact K2]]. intros Ek. rewrite <- (Jo Ek). unfold overrides. now rewrite K3.
      - assert (E : view (hs_next a s' (lpmode_request st (fst s2)) None) i = view s' i).
        { apply andb_false_iff in B. destruct B as [B|B]; [|now apply (se_refused _ _ Hs)]. apply (dr_apart _ _ Hd). rewrite member_testbit, L2. congruence. }
        rewrite E. split; [exact Js|]. split; [exact Sl|]. intros X. congruence. }
    intros l. apply walk_pure. intros Hl. set (f3 := failed_merge (snd s2) (mr_failures l)). clearbody f3.
    (* out of reset *)
    apply walk_bind with (Q := fun (s4 : ModuleId * FailedModules TransceiverError) y => sub (fst s4) (mr_modules p) /\ led (fst s4) y).
    { destruct (Nat.ltb 0 (m_count npe)); [|apply walk_ret; intros v y [= <-]; auto].
      eapply walk_bind; [apply walk_apart; auto using kinds_kept|]. intros r. apply walk_pure. intros Sr.
      eapply walk_bind; [apply walk_sleep|]. intros u. apply walk_ret. intros v y [= <-] _ Hy. cbn [fst]. split; [intros j Hj; apply Sn, Sr, Hj|].
      intros X. apply Sr in X. cbn in X. congruence. }
    intros s4. apply walk_pure. intros H4. destruct (keep_module_data _ _ _) as [k1 k2] eqn:Ek. destruct (keep_eq _ _ _ _ _ Ap Ek) as [Ak Gk].
    assert (E : k1 = fst s4).
    { apply mask_ext. intros j. rewrite (testbit_get _ _ j Ak), Gk. destruct (N.testbit (fst s4) j) eqn:X; [|reflexivity].
      apply H4 in X. rewrite (testbit_get _ _ j Ap) in X. exact X. }
    rewrite E in Ak, Gk. apply (walk_software (mkResult (fst s4) k2 (snd s4))); cbn [mr_modules mr_data].
    - now apply (sub_ok _ (mr_modules p)).
    - intros _. split; [intros j Hj; apply Sp, H4, Hj|]. split; [exact Ak|]. intros v. rewrite Gk. destruct (N.testbit (fst s4) i); [apply Hv|discriminate].
  Qed.
End Calls.

Section Ends.
  Context {St : Type} (a : honest St) (view : St -> N -> slot) (Hok : honest_ok a) (Hd : drives a view) (Hs : settled a view).
  Lemma steady_comes (w : world St) m st s i old k id : m < 2 ^ 64 -> st <> PowerOff -> (k = true -> one_kind a view (w_sp w) m id) ->
    slot_power (view (w_sp w) i) = Some old -> old <> PowerOff -> comes_to (honest_sp a) (set_power (honest_sp a) m st) w s ->
    goes st (view (w_sp w) i) k (view s i).
  Proof.
    intros Hm Hst Hk Hx Ho (l & l' & E & ->). apply mask_ok_lt in Hm.
    assert (Hk1 : k = true -> forall t q d j, is_power_pin q = true -> N.testbit m j = true -> slot_kind (view (hs_next a t q d) j) = slot_kind (view t j))
      by (intros E1 t q d j Hq Hj; apply (Hk E1); [exact Hq|now apply member_testbit]).
    assert (Hk2 : kinds view k m id (w_sp w)) by (intros E1 j Hj; apply (Hk E1); now apply member_testbit).
    destruct (walk_on a view Hok Hd Hs i st Hst (view (w_sp w) i) k m id Hk1 old Hx Ho Hm w Hk2 (goes_refl st _ k old Hx Ho) eq_refl) as (l0 & E1 & _ & E3 & _).
    assert (X : set_power (honest_sp a) m st w = set_power_on (honest_sp a) m st w) by (destruct st; [congruence|reflexivity|reflexivity]).
    rewrite X, E1 in E. apply app_inv_head in E. exact (proj2 (E3 _ _ E)).
  Qed.
  Lemma straight (w : world St) m st s i old : m < 2 ^ 64 -> st <> PowerOff -> slot_power (view (w_sp w) i) = Some old -> old <> PowerOff ->
    comes_to (honest_sp a) (set_power (honest_sp a) m st) w s -> goes_to st (view (w_sp w) i) (view s i).
  Proof.
    intros Hm Hst Hx Ho H. refine (proj1 (steady_comes w m st s i old false QsfpDD Hm Hst _ Hx Ho H)). discriminate.
  Qed.
  Lemma stays (w : world St) m st s i : m < 2 ^ 64 -> st <> PowerOff -> slot_power (view (w_sp w) i) = Some st ->
    comes_to (honest_sp a) (set_power (honest_sp a) m st) w s -> slot_power (view s i) = Some st.
  Proof.
    intros Hm Hst Hx H. destruct (straight w m st s i st Hm Hst Hx Hst H) as (_ & _ & _ & _ & [K|K]); congruence.
  Qed.
  Lemma keeps_override (w : world St) m st s i old id : m < 2 ^ 64 -> st <> PowerOff -> one_kind a view (w_sp w) m id ->
    slot_power (view (w_sp w) i) = Some old -> old <> PowerOff -> comes_to (honest_sp a) (set_power (honest_sp a) m st) w s ->
    overrides (view s i) = overrides (view (w_sp w) i).
  Proof. intros Hm Hst Hk Hx Ho H. exact (proj2 (steady_comes w m st s i old true id Hm Hst (fun _ => Hk) Hx Ho H) eq_refl). Qed.
End Ends.

Lemma straight_net {St} (a : honest St) view : honest_ok a -> data_blind a -> drives a view -> settled a view -> forall retries s0 c0, c0 < 2 ^ 64 ->
  let sp := remembering (honest_sp a) in
  let now p ts := kp_now (nt_sp (sy_net (sys_run sp (sys_new retries (new_keeper s0) c0 [p]) ts))) in
  forall m st p ts i old, m < 2 ^ 64 -> st <> PowerOff -> stops_at_errors p -> orderly sp (sys_new retries (new_keeper s0) c0 [p]) ts ->
  steps_of (fun St sp => set_power sp m st) p -> slot_power (view s0 i) = Some old -> old <> PowerOff -> goes_to st (view s0 i) (view (now p ts) i).
Proof.
  intros Hok Hb Hd Hs retries s0 c0 Hc sp now m st p ts i old Hm Hst He Ho Hp Hx Hold.
  apply (straight a view Hok Hd Hs (mkWorld s0 c0 []) m st _ i old Hm Hst Hx Hold).
  exact (met_comes a Hok Hb retries s0 c0 Hc (fun St sp => set_power sp m st) p ts Hp He Ho).
Qed.
Lemma override_net {St} (a : honest St) view : honest_ok a -> data_blind a -> drives a view -> settled a view -> forall retries s0 c0, c0 < 2 ^ 64 ->
  let sp := remembering (honest_sp a) in
  let now p ts := kp_now (nt_sp (sy_net (sys_run sp (sys_new retries (new_keeper s0) c0 [p]) ts))) in
  forall m st p ts i old id, m < 2 ^ 64 -> st <> PowerOff -> stops_at_errors p -> orderly sp (sys_new retries (new_keeper s0) c0 [p]) ts ->
  steps_of (fun St sp => set_power sp m st) p -> one_kind a view s0 m id -> slot_power (view s0 i) = Some old -> old <> PowerOff ->
  overrides (view (now p ts) i) = overrides (view s0 i).
Proof.
  intros Hok Hb Hd Hs retries s0 c0 Hc sp now m st p ts i old id Hm Hst He Ho Hp Hk Hx Hold.
  apply (keeps_override a view Hok Hd Hs (mkWorld s0 c0 []) m st _ i old id Hm Hst Hk Hx Hold).
  exact (met_comes a Hok Hb retries s0 c0 Hc (fun St sp => set_power sp m st) p ts Hp He Ho).
Qed.
Lemma rack_settled refuse : settled (live_rack refuse sl_cell) seen.
Proof.
  split.
  - intros s q d i H. unfold live_rack in *. cbn [hs_verdict hs_next] in *. unfold slots_next, seen. destruct (refuse s q d i); [|discriminate].
    now destruct (N.testbit (request_modules q) i).
  - intros s q d i H. unfold live_rack. cbn [hs_next]. unfold slots_next, seen.
    destruct (N.testbit (request_modules q) i); [|auto]. destruct (refuse s q d i); [auto|]. destruct q; try contradiction; auto.
Qed.
Lemma rack_one_kind refuse s m id : (forall j, member j m -> slot_kind (seen s j) = id) -> one_kind (live_rack refuse sl_cell) seen s m id.
Proof.
  intros H. split; [|exact H]. intros t q d j Hq _. unfold live_rack. cbn [hs_next]. unfold slots_next, seen.
  destruct (N.testbit (request_modules q) j); [|auto]. destruct (refuse t q d j); [auto|]. destruct q; try discriminate; reflexivity.
Qed.
