(** Proofs about the whole command-line tool (C68): what it may ask for. *)
From Coq Require Import String.
From Verif Require Export SpecMain.
From Verif Require Import Tac Spec ModuleIdProofs ModuleIdProps ResultsProofs ControllerProofs ControllerProofs3 ControllerProofs5
  ScopeProofs ScopeProofs2.
Import ListNotations.
Open Scope N_scope.

(** What a run does, and that runs only add to the log. *)
Definition runs {St X} (sp : St -> Rpc -> St * reply) (D : done -> Prop) (c : world St -> world St * X) : Prop :=
  forall w, exists ds, went sp w (fst (c w)) ds /\ Forall D ds.
Lemma deeds_of_grew {St X} (c : world St -> world St * X) w ds : grew w (fst (c w)) ds -> deeds_of c w = ds.
Proof.
  intros (l & El & Ef). unfold deeds_of. rewrite El, skipn_app, skipn_all, Nat.sub_diag. exact Ef.
Qed.
Lemma deeds_of_went {St X sp} (c : world St -> world St * X) w ds : went sp w (fst (c w)) ds -> deeds_of c w = ds.
Proof. intros H. eapply deeds_of_grew, went_grew, H. Qed.
Lemma runs_deeds {St X sp} D (c : world St -> world St * X) w : runs sp D c -> Forall D (deeds_of c w).
Proof. intros H. destruct (H w) as (ds & G & F). now rewrite (deeds_of_went _ _ _ G). Qed.
Lemma hoare_runs {St A sp} D (c : ctl (St := St) A) Q : hoare sp D c Q -> runs sp D c.
Proof. intros H w. destruct (H w) as (ds & G & F & _). eauto. Qed.
Lemma runs_ext {St X Y sp} D (c : world St -> world St * X) (c' : world St -> world St * Y) :
  (forall w, fst (c' w) = fst (c w)) -> runs sp D c -> runs sp D c'.
Proof. intros E H w. rewrite E. apply H. Qed.
Lemma runs_mono {St X sp} (D D' : done -> Prop) (c : world St -> world St * X) : (forall x, D x -> D' x) -> runs sp D c -> runs sp D' c.
Proof. intros K H w. destruct (H w) as (ds & G & F). exists ds. split; [exact G|]. eapply Forall_impl; eauto. Qed.

Section Main.
  Context {St : Type} (sp : St -> Rpc -> St * reply) (show_f32 : f32 -> text) (show : TransceiverError -> text).

  Local Notation hoare := (hoare sp).
  Local Notation runs := (runs sp).
  Local Notation asks := (asks sp).
  Lemma hoare_pure {A B} D (c : ctl (St := St) A) (f : A -> outcome Error B) :
    hoare D c (fun _ => True) -> hoare D (cbind c (fun x => cret (f x))) (fun _ => True).
  Proof. intros H. eapply hoare_bind; [exact H|]. intros a _. now apply hoare_ret. Qed.
  Lemma hoare_acting D ign (c : ctl (St := St) (Result unit)) : hoare D c (fun _ => True) -> hoare D (acting show ign c) (fun _ => True).
  Proof. apply hoare_pure. Qed.
  Lemma hoare_printing {P} D ign (c : ctl (St := St) (Result P)) p : hoare D c (fun _ => True) -> hoare D (printing show ign c p) (fun _ => True).
  Proof.
    intros H. unfold printing. eapply hoare_bind; [exact H|]. intros r _. apply (hoare_bind _ _ _ (fun _ => True)); [now apply hoare_ret|].
    intros o _. now apply hoare_ret.
  Qed.
  Lemma hoare_true {A} D (c : ctl (St := St) A) Q : hoare D c Q -> hoare D c (fun _ => True).
  Proof. intros H. eapply hoare_conseq; eauto. Qed.

  Lemma hoare_status D m : hoare D (extended_status sp m) (fun _ => True) -> hoare D (ctl_status sp m) (fun _ => True) ->
    hoare D (status_result sp m) (fun _ => True).
  Proof.
    intros H1 H2 w. unfold status_result. destruct (H1 w) as (ds & G & F & _).
    destruct (extended_status sp m w) as [w1 [r|e|]]; cbn [fst] in *; [exists ds; auto| |exists ds; auto].
    match goal with |- exists ds, went _ w (fst (?c w1)) ds /\ _ => assert (K : hoare D c (fun _ => True)) by (apply hoare_pure; exact H2) end.
    destruct (K w1) as (ds2 & G2 & F2 & _). exists (ds ++ ds2). split; [eapply went_trans; eauto|]. split; [now apply Forall_app|auto].
  Qed.
  Lemma hoare_loop D m rds r : (forall rd, hoare D (ctl_read sp m rd) (fun _ => True)) -> hoare D (read_loop sp m rds r) (fun _ => True).
  Proof.
    intros H. revert r. induction rds as [|rd l IH]; intros r; cbn [read_loop]; [now apply hoare_ret|].
    eapply hoare_bind; [apply H|]. intros x _. apply (hoare_bind _ _ _ (fun _ => True)); [now apply hoare_ret|]. intros y _. apply IH.
  Qed.
  Lemma hoare_cmd_read D m p o l : (forall rd, hoare D (ctl_read sp m rd) (fun _ => True)) -> hoare D (cmd_read sp m p o l) (fun _ => True).
  Proof.
    intros H. unfold cmd_read. destruct (l =? 0); [now apply hoare_ret|].
    do 3 (apply (hoare_bind _ _ _ (fun _ => True)); [now apply hoare_ret|]; intros ? _).
    eapply hoare_bind; [now apply hoare_loop|]. intros ? _. now apply hoare_ret.
  Qed.
  Lemma runs_cmd_write D m page o data :
    (forall p d, page = Ok p -> data = Ok d -> hoare D (ctl_write sp m (mkWrite p o (Nlen d)) d) (fun _ => True)) ->
    runs D (cmd_write sp m page o data).
  Proof.
    intros H. assert (Z : forall x : outcome (option Error) (Result unit), runs D (fun w : world St => (w, x))).
    { intros x w. exists []. split; [apply went_refl|constructor]. }
    unfold cmd_write. destruct data as [d|e|]; try apply Z. destruct (255 <? Nlen d); [apply Z|].
    match goal with |- runs D (fun w => let (_, _) := ?c w in _) => apply (runs_ext D c); [intros w; now destruct (c w)|] end.
    eapply hoare_runs. eapply hoare_bind; [apply (hoare_ret _ _ (fun p => page = Ok p)); auto|]. intros p Hp.
    eapply hoare_bind; [apply (hoare_ret _ _ (fun wr => wr = mkWrite p o (Nlen d)))|].
    { unfold write_new. intros wr. destruct (verify_write p o (Nlen d)); cbn; [now intros [= <-]|discriminate|discriminate]. }
    intros wr ->. now apply H.
  Qed.

  (** ** Permitted requests *)
  Lemma asks_address t : asks (fun q d => looking q = true /\ d = None) false (address_transceivers sp t).
  Proof.
    destruct t; cbn [address_transceivers]; try apply asks_ret; apply asks_bind; try (intros; apply asks_ret).
    - apply asks_status; auto.
    - apply asks_power; auto.
    - apply asks_identifier; auto.
  Qed.
  Lemma asks_permit {A} c (k : ctl (St := St) A) (p : HostRequest -> option (list N) -> Prop) :
    (forall q d, p q d -> looking q = true /\ d = None \/ may_send c q d) -> asks p (may_wait c) k ->
    hoare (permitted c) k (fun _ => True).
  Proof.
    intros H K w. destruct (K w) as (ds & G & F & _). exists ds. split; [exact G|]. split; [|auto].
    eapply Forall_impl; [|exact F]. intros [q d|t]; cbn; auto.
  Qed.
  Lemma asks_look {A} c (k : ctl (St := St) A) : asks (fun q d => looking q = true /\ d = None) false k -> hoare (permitted c) k (fun _ => True).
  Proof.
    intros K w. destruct (K w) as (ds & G & F & _). exists ds. split; [exact G|]. split; [|auto].
    eapply Forall_impl; [|exact F]. intros [q d|t]; cbn; [auto|discriminate].
  Qed.
  Lemma runs_permitted ign m c : runs (permitted c) (run_cmd sp show_f32 show ign m c).
  Proof.
    assert (Q : forall q, may_send c q None -> hoare (permitted c) (no_payload_request sp q) (fun _ => True)).
    { intros q H. apply (asks_permit c _ (fun q' d => q' = q /\ d = None)); [intros q' d (-> & ->); auto|]. now apply asks_npr. }
    assert (E : forall c, (forall p i o, c <> CWrite p i o) -> runs (permitted c) (run_call sp show_f32 show ign m c) ->
      runs (permitted c) (run_cmd sp show_f32 show ign m c)).
    { clear. intros c H K. eapply runs_ext; [|exact K]. intros w.
      destruct c; unfold run_cmd; try (now match goal with |- context [run_call ?a ?b ?d ?e ?f ?g w] => destruct (run_call a b d e f g w) end).
      exfalso. eapply H; reflexivity. }
    destruct c; (try (apply E; [discriminate|])); try (apply (hoare_runs _ _ (fun _ => True))); cbn [run_call].
    - apply (hoare_bind _ _ _ (fun _ => True)); [now apply hoare_ret|]. intros k _. apply hoare_pure, hoare_printing, hoare_status; apply asks_look.
      + apply asks_ext; auto. + apply asks_status; auto.
    - apply hoare_acting. eapply asks_permit; [|apply asks_reset]. intros q d (-> & H). right. split; [reflexivity|].
      destruct q; try destruct H; eauto.
    - apply hoare_acting. eapply asks_permit; [|apply asks_set_power]. intros q d [H|[H|H]]; cbn; tauto.
    - apply hoare_printing, asks_look, asks_power; auto.
    - apply hoare_acting, Q. cbn. eauto.
    - apply hoare_acting, Q. cbn. eauto.
    - apply hoare_acting, Q. cbn. eauto.
    - apply hoare_acting, Q. cbn. eauto.
    - apply hoare_acting, Q. cbn. eauto.
    - apply hoare_acting, Q. cbn. eauto.
    - apply hoare_printing, asks_look, asks_identifier; auto.
    - apply hoare_printing, asks_look, asks_parse; auto.
    - apply hoare_pure, hoare_cmd_read. intros rd. apply asks_look, asks_read; auto.
    - apply (runs_ext _ (cmd_write sp m (args_page page) offset (args_data input))).
      { intros w. unfold run_cmd. now destruct (cmd_write sp m (args_page page) offset (args_data input) w). }
      apply runs_cmd_write. intros p d Hp Hd.
      apply (asks_permit _ _ (fun q x => looking q = true /\ x = None \/ exists m', q = HWrite m' (mkWrite p offset (Nlen d)) /\ x = Some d)).
      + intros q x [H|(m' & -> & ->)]; [now left|]. right. exists m', p, d. auto.
      + apply asks_write; eauto.
    - apply hoare_printing, asks_look, asks_parse; auto.
    - eapply hoare_bind; [apply asks_look, asks_mac; auto|]. intros x _. apply (hoare_bind _ _ _ (fun _ => True)); [now apply hoare_ret|].
      intros y _. now apply hoare_ret.
    - apply hoare_acting, Q. cbn. eauto.
    - apply hoare_acting, Q. cbn. eauto.
    - apply hoare_printing, asks_look, asks_leds; auto.
    - apply hoare_acting, Q. cbn. eauto.
    - apply hoare_printing, asks_look, asks_parse; auto.
    - apply hoare_printing, asks_look, asks_parse; auto.
  Qed.

  Lemma main_deeds a w w1 x ds : address_transceivers sp (named a) w = (w1, x) ->
    went sp w w1 ds ->
    match x with
    | Ok m => deeds_of (main sp show_f32 show a) w = ds ++ deeds_of (run_cmd sp show_f32 show (ar_ignore_errors a) m (ar_cmd a)) w1
    | Err e => main sp show_f32 show a w = (w1, Err (Some e))
    | Panic => main sp show_f32 show a w = (w1, Panic)
    end.
  Proof.
    intros E G. destruct x as [m|e|]; unfold main; fold (named a); [|now rewrite E|now rewrite E].
    destruct (runs_permitted (ar_ignore_errors a) m (ar_cmd a) w1) as (d2 & G2 & _). rewrite (deeds_of_went _ _ _ G2).
    apply (deeds_of_went (sp := sp)). unfold main. fold (named a). rewrite E. eapply went_trans; eauto.
  Qed.
  Lemma main_runs a : runs (permitted (ar_cmd a)) (main sp show_f32 show a).
  Proof.
    intros w. pose proof (asks_look (ar_cmd a) _ (asks_address (named a)) w) as (ds & G & F & _).
    destruct (address_transceivers sp (named a) w) as [w1 x] eqn:E. cbn [fst] in G. unfold main. fold (named a). rewrite E.
    destruct x as [m|e|]; cbn [fst]; [|eauto|eauto].
    destruct (runs_permitted (ar_ignore_errors a) m (ar_cmd a) w1) as (d2 & G2 & F2). exists (ds ++ d2).
    split; [eapply went_trans; eauto|now apply Forall_app].
  Qed.
  Lemma main_permitted a w : Forall (permitted (ar_cmd a)) (deeds_of (main sp show_f32 show a) w).
  Proof. apply (runs_deeds (sp := sp)), main_runs. Qed.
  Lemma main_unaddressed a w w1 : 
    (forall e, address_transceivers sp (named a) w = (w1, Err e) -> main sp show_f32 show a w = (w1, Err (Some e))) /\
    (address_transceivers sp (named a) w = (w1, Panic) -> main sp show_f32 show a w = (w1, Panic)).
  Proof. unfold main. fold (named a). split; [intros e|]; now intros ->. Qed.

  (** ** Named modules *)
  Context (Hsp : scoped sp).
  Lemma runs_touch ign m c : runs (touch m) (run_cmd sp show_f32 show ign m c).
  Proof.
    assert (Q : forall q, request_modules q = m -> hoare (touch m) (no_payload_request sp q) (fun _ => True)).
    { intros q H. eapply hoare_true. apply in_npr; [exact Hsp|]. rewrite H. apply sub_refl. }
    assert (E : forall c, (forall p i o, c <> CWrite p i o) -> runs (touch m) (run_call sp show_f32 show ign m c) ->
      runs (touch m) (run_cmd sp show_f32 show ign m c)).
    { clear. intros c H K. eapply runs_ext; [|exact K]. intros w.
      destruct c; unfold run_cmd; try (now match goal with |- context [run_call ?a ?b ?d ?e ?f ?g w] => destruct (run_call a b d e f g w) end).
      exfalso. eapply H; reflexivity. }
    destruct c; (try (apply E; [discriminate|])); try (apply (hoare_runs _ _ (fun _ => True))); cbn [run_call].
    - apply (hoare_bind _ _ _ (fun _ => True)); [now apply hoare_ret|]. intros k _. apply hoare_pure, hoare_printing, hoare_status; eapply hoare_true.
      + apply in_ext, Hsp. + apply in_status; [exact Hsp|apply sub_refl].
    - apply hoare_acting. eapply hoare_true, in_reset, Hsp.
    - apply hoare_acting. eapply hoare_true, in_set_power, Hsp.
    - apply hoare_printing. eapply hoare_true, in_power, Hsp.
    - now apply hoare_acting, Q.
    - now apply hoare_acting, Q.
    - now apply hoare_acting, Q.
    - now apply hoare_acting, Q.
    - now apply hoare_acting, Q.
    - now apply hoare_acting, Q.
    - apply hoare_printing. eapply hoare_true, in_identifier; [exact Hsp|apply sub_refl].
    - apply hoare_printing. eapply hoare_true, in_parse; [exact Hsp|apply sub_refl].
    - apply hoare_pure, hoare_cmd_read. intros rd. eapply hoare_true, in_read, Hsp.
    - apply (runs_ext _ (cmd_write sp m (args_page page) offset (args_data input))).
      { intros w. unfold run_cmd. now destruct (cmd_write sp m (args_page page) offset (args_data input) w). }
      apply runs_cmd_write. intros p d Hp Hd. eapply hoare_true, in_write, Hsp.
    - apply hoare_printing. eapply hoare_true, in_parse; [exact Hsp|apply sub_refl].
    - eapply hoare_bind; [apply (hoare_true _ _ (fun _ => True))|].
      { intros w. pose proof (query_exact St sp m w) as (_ & H & _). unfold deeds in H.
        destruct (asks_mac sp (fun q _ => q = HMacAddrs) false eq_refl w) as (ds & G & F & _). exists ds. split; [exact G|]. split; [|auto].
        eapply Forall_impl; [|exact F]. intros [q d|t]; cbn; [|auto]. intros ->. apply sub_0. }
      intros x _. apply (hoare_bind _ _ _ (fun _ => True)); [now apply hoare_ret|].
      intros y _. now apply hoare_ret.
    - now apply hoare_acting, Q.
    - now apply hoare_acting, Q.
    - apply hoare_printing. eapply hoare_true, in_leds, Hsp.
    - now apply hoare_acting, Q.
    - apply hoare_printing. eapply hoare_true, in_parse; [exact Hsp|apply sub_refl].
    - apply hoare_printing. eapply hoare_true, in_parse; [exact Hsp|apply sub_refl].
  Qed.
  Lemma main_scope a w w1 m : addressing sp a w w1 m ->
    exists ds, deeds_of (main sp show_f32 show a) w = deeds (address_transceivers sp (named a)) w ++ ds /\
      forall q d i, In (DRequest q d) ds -> member i (request_modules q) -> member i m.
  Proof.
    intros A. pose proof (asks_address (named a) w) as (da & Ga & _).
    exists (deeds_of (run_cmd sp show_f32 show (ar_ignore_errors a) m (ar_cmd a)) w1). split.
    - unfold addressing in A. rewrite A in Ga. cbn [fst] in Ga. rewrite (deeds_grew _ _ _ _ _ A (went_grew _ _ _ _ Ga)).
      exact (main_deeds a w w1 (Ok m) da A Ga).
    - intros q d i Hin. pose proof (runs_deeds _ _ w1 (runs_touch (ar_ignore_errors a) m (ar_cmd a))) as K.
      rewrite Forall_forall in K. specialize (K _ Hin). cbn in K. rewrite !member_testbit. apply K.
  Qed.
End Main.
