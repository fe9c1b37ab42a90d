(** Proofs for C99, part 2: sequences of requests, and queries. *)
From Verif Require Export ApartProofs.
From Verif Require Import Tac Spec ModuleIdProofs ModuleIdProps ResultsProofs ControllerProofs ControllerProofs3 ControllerProofs4 ControllerProofs5
  ControllerProofs6 LiveProofs.
From Coq Require Import Permutation.
Import ListNotations.
Open Scope N_scope.

Section Apart.
  Context {X : Type} (b : bay X) (Hb : bay_ok b).
  Implicit Type w : world (N -> X).
  Local Notation a := (apart b).
  Local Notation sp := (honest_sp (apart b)).
  Local Notation says := (ApartProofs.says b).
  Local Notation goes := (ApartProofs.goes b).

  Definition and_says {P Q} (F1 : N -> X -> P + TransceiverError) (G1 : N -> X -> X) (F2 : N -> X -> Q + TransceiverError) i x :=
    match F1 i x with inl _ => F2 i (G1 i x) | inr e => inr e end.
  Definition and_goes {P} (F1 : N -> X -> P + TransceiverError) (G1 G2 : N -> X -> X) i x :=
    match F1 i x with inl _ => G2 i (G1 i x) | inr _ => G1 i x end.
  Lemma link {P Q} m F1 (G1 : N -> X -> X) F2 G2 (r1 : Result P) (r2 : Result Q) w w1 w2 w3 :
    rrep m (fun i => F1 i (w_sp w i)) r1 -> moved m G1 w w1 -> w_sp w2 = w_sp w1 ->
    rrep (mr_modules r1) (fun i => F2 i (w_sp w2 i)) r2 -> moved (mr_modules r1) G2 w2 w3 ->
    rrep m (fun i => and_says F1 G1 F2 i (w_sp w i)) (mkResult (mr_modules r2) (mr_data r2) (failed_merge (mr_failures r1) (mr_failures r2))) /\
    moved m (and_goes F1 G1 G2) w w3.
  Proof.
    intros R1 M1 E R2 M2. split.
    - pose proof (rrep_chain m _ _ _ _ R1 R2) as C. eapply rrep_ext; [|exact C]. intros i Hi. unfold and_then, and_says.
      destruct (F1 i (w_sp w i)); [|reflexivity]. now rewrite E, M1, Hi.
    - intros i. rewrite M2, E, M1, (rrep_modules _ _ _ i R1). unfold and_goes.
      destruct (N.testbit m i); [|reflexivity]. cbn [andb]. now destruct (F1 i (w_sp w i)).
  Qed.

  Lemma pt_assert m q : request_unit q = 0%nat -> (forall x y, response_to q x y = SAck x y) -> request_modules q = m -> mask_ok m = true ->
    pt m (no_payload_request sp q) (says (fun _ => tt) q None) (goes q None).
  Proof. intros H1 H2 <- Hm. now apply pt_ack. Qed.

  Lemma pt_reset m : mask_ok m = true ->
    pt m (reset sp m) (and_says (says (fun _ => tt) (HAssertReset 0) None) (goes (HAssertReset 0) None) (says (fun _ => tt) (HDeassertReset 0) None))
      (and_goes (says (fun _ => tt) (HAssertReset 0) None) (goes (HAssertReset 0) None) (goes (HDeassertReset 0) None)).
  Proof.
    intros Hm w. destruct (pt_assert m (HAssertReset m) eq_refl (fun _ _ => eq_refl) eq_refl Hm w) as (w1 & r1 & E1 & R1 & M1).
    set (w2 := mkWorld (w_sp w1) (w_counter w1) (w_log w1 ++ [ASleep T_RESET_INIT])).
    destruct (pt_assert _ (HDeassertReset (mr_modules r1)) eq_refl (fun _ _ => eq_refl) eq_refl (rrep_mask_ok _ _ _ R1) w2) as (w3 & r2 & E2 & R2 & M2).
    set (w4 := mkWorld (w_sp w3) (w_counter w3) (w_log w3 ++ [ASleep T_RESET])).
    destruct (link m _ _ _ _ r1 r2 w w1 w2 w3 R1 M1 eq_refl R2 M2) as (R & M).
    rewrite ack_eq in R by apply R2. eexists w4, _. split; [|split; [exact R|exact M]].
    unfold reset, assert_reset, deassert_reset. erewrite cbind_ok by exact E1.
    erewrite cbind_ok by reflexivity. fold w2. erewrite cbind_ok by exact E2. erewrite cbind_ok by reflexivity. reflexivity.
  Qed.

  (** What happens to a call that some modules make fail. *)
  Definition fate {P} (rep : N -> (N -> P + TransceiverError) -> Result P -> Prop) (m : N) (c : ctl (St := N -> X) (Result P))
      (fine : N -> X -> Prop) (F : N -> X -> P + TransceiverError) (G : N -> X -> X) : Prop := forall w,
    (exists w' r, c w = (w', Ok r) /\ (forall i, N.testbit m i = true -> fine i (w_sp w i)) /\
       rep m (fun i => F i (w_sp w i)) r /\ moved m G w w') \/
    ((forall w' r, c w <> (w', Ok r)) /\ (m <> 0 -> exists i, N.testbit m i = true /\ ~ fine i (w_sp w i))).
  Lemma pt_fate {P} m (c : ctl (Result P)) F G : pt m c F G -> fate rrep m c (fun _ _ => True) F G.
  Proof. intros H w. left. destruct (H w) as (w' & r & E & R & M). exists w', r. auto. Qed.

  (** ** Identifiers, reads and writes *)
  Definition idq := HRead 0 ident_read.
  Definition id_of := says (fun x => ident_of_byte (hd 0 x)) idq None.
  Lemma pt_identifier m : mask_ok m = true -> pt m (identifier sp m) id_of (goes idq None).
  Proof.
    intros Hm w. destruct (honest_identifier a (apart_ok b Hb) w m Hm) as (r & w' & E & R & _ & S).
    exists w', r. split; [exact E|]. split; [exact R|]. intros i. rewrite S. destruct (N.eqb_spec m 0) as [->|_]; [now rewrite N.bits_0|reflexivity].
  Qed.
  Definition speaks_page (p : Page) i x : Prop := match id_of i x with inl id => speaks id p | inr _ => True end.
  Lemma verify_fate p m w r : rrep m (fun i => id_of i (w_sp w i)) r ->
    (verify_ids_for_page p (mr_modules r) (mr_data r) = Ok tt /\ forall i, N.testbit m i = true -> speaks_page p i (w_sp w i)) \/
    (exists e, verify_ids_for_page p (mr_modules r) (mr_data r) = Err e /\ exists i, N.testbit m i = true /\ ~ speaks_page p i (w_sp w i)).
  Proof.
    intros R. destruct (verify_report p m _ r R) as [[Ev Ha]|(i & id & Ev & H)].
    - left. split; [exact Ev|]. intros i Hi. unfold speaks_page. destruct (id_of i (w_sp w i)) as [id|] eqn:E; [|exact I].
      apply (Ha i id); [now apply member_testbit|exact E].
    - right. eexists. split; [exact Ev|]. exists i. destruct H as (H1 & H2 & H3 & _). rewrite member_testbit in H1.
      split; [exact H1|]. unfold speaks_page. now rewrite H2.
  Qed.

  Lemma fate_read m rd : mask_ok m = true -> rd_len rd <= 255 ->
    fate rrep m (ctl_read sp m rd) (fun i x => 1 <= rd_len rd /\ speaks_page (rd_page rd) i x)
      (and_says id_of (goes idq None) (says (fun x => x) (HRead 0 rd) None)) (and_goes id_of (goes idq None) (goes (HRead 0 rd) None)).
  Proof.
    intros Hm Hl w. unfold ctl_read. destruct (Nat.eqb_spec (m_count m) 0) as [Hz|Hz].
    { apply count0 in Hz; [|exact Hm]. subst m. cbn [orb]. left. eexists w, _. split; [reflexivity|].
      split; [intros i; now rewrite N.bits_0|]. split; [apply rrep_empty|]. intros i. now rewrite N.bits_0. }
    assert (Hz' : m <> 0) by (intros ->; apply Hz; reflexivity). cbn [orb].
    destruct (N.eqb_spec (rd_len rd) 0) as [H0|H0].
    { right. split.
      - intros w' r. unfold result_success. cbn [length]. destruct (m_count m); [contradiction|]. discriminate.
      - intros _. exists (N.log2 m). split; [now apply N.bit_log2|]. intros [K _]. lia. }
    destruct (pt_identifier m Hm w) as (w1 & r1 & E1 & R1 & M1). erewrite cbind_ok by exact E1.
    destruct (verify_fate (rd_page rd) m w r1 R1) as [(Ev & Hs)|(e & Ev & i & Hi & Hs)]; rewrite Ev.
    - left. assert (L : 1 <= rd_len rd <= 255) by lia.
      destruct (pt_read b Hb rd L (mr_modules r1) (rrep_mask_ok _ _ _ R1) w1) as (w2 & r2 & E2 & R2 & M2).
      destruct (link m _ _ _ _ r1 r2 w w1 w1 w2 R1 M1 eq_refl R2 M2) as (R & M).
      exists w2, (mkResult (mr_modules r2) (mr_data r2) (failed_merge (mr_failures r1) (mr_failures r2))).
      erewrite cbind_ok by reflexivity. erewrite cbind_ok by exact E2. split; [reflexivity|]. split; [|split; [exact R|exact M]].
      intros i Hi. split; [lia|auto].
    - right. split; [intros w' r; erewrite cbind_err by reflexivity; discriminate|]. intros _. exists i. split; [exact Hi|]. tauto.
  Qed.
  Lemma fate_write m wr data : mask_ok m = true ->
    fate rrep m (ctl_write sp m wr data) (fun i x => wr_len wr = Nlen data /\ speaks_page (wr_page wr) i x)
      (and_says id_of (goes idq None) (says (fun _ => tt) (HWrite 0 wr) (Some data))) (and_goes id_of (goes idq None) (goes (HWrite 0 wr) (Some data))).
  Proof.
    intros Hm w. unfold ctl_write.
    destruct (pt_identifier m Hm w) as (w1 & r1 & E1 & R1 & M1). erewrite cbind_ok by exact E1.
    destruct (verify_fate (wr_page wr) m w r1 R1) as [(Ev & Hs)|(e & Ev & i & Hi & Hs)]; rewrite Ev.
    - erewrite cbind_ok by reflexivity. destruct (N.eqb_spec (wr_len wr) (Nlen data)) as [L|L].
      + left. destruct (pt_write b Hb (mr_modules r1) wr data L (rrep_mask_ok _ _ _ R1) w1) as (w2 & r2 & E2 & R2 & M2).
        destruct (link m _ _ _ _ r1 r2 w w1 w1 w2 R1 M1 eq_refl R2 M2) as (R & M). rewrite ack_eq in R by apply R2.
        eexists w2, _. erewrite cbind_ok by exact E2. split; [reflexivity|]. split; [|split; [exact R|exact M]]. auto.
      + right. split.
        * intros w' r. unfold write_impl. destruct (N.eqb_spec (wr_len wr) (Nlen data)); [contradiction|]. discriminate.
        * intros Hz. exists (N.log2 m). split; [now apply N.bit_log2|]. tauto.
    - right. split; [intros w' r; erewrite cbind_err by reflexivity; discriminate|]. intros _. exists i. split; [exact Hi|]. tauto.
  Qed.

  (** ** Power off *)
  Definition ack q := says (fun _ : list N => tt) q None.
  Definition off_goes1 := and_goes (ack (HDeassertLpMode 0)) (goes (HDeassertLpMode 0) None) (goes (HAssertReset 0) None).
  Definition off_says1 := and_says (ack (HDeassertLpMode 0)) (goes (HDeassertLpMode 0) None) (ack (HAssertReset 0)).
  Lemma pt_off m : mask_ok m = true ->
    pt m (set_power sp m PowerOff) (and_says off_says1 off_goes1 (ack (HDisablePower 0))) (and_goes off_says1 off_goes1 (goes (HDisablePower 0) None)).
  Proof.
    intros Hm w. destruct (pt_assert m (HDeassertLpMode m) eq_refl (fun _ _ => eq_refl) eq_refl Hm w) as (w1 & r1 & E1 & R1 & M1).
    destruct (pt_assert _ (HAssertReset (mr_modules r1)) eq_refl (fun _ _ => eq_refl) eq_refl (rrep_mask_ok _ _ _ R1) w1) as (w2 & r2 & E2 & R2 & M2).
    destruct (pt_assert _ (HDisablePower (mr_modules r2)) eq_refl (fun _ _ => eq_refl) eq_refl (rrep_mask_ok _ _ _ R2) w2) as (w3 & r3 & E3 & R3 & M3).
    destruct (link m _ _ _ _ r1 r2 w w1 w1 w2 R1 M1 eq_refl R2 M2) as (R & M).
    destruct (link m _ _ _ _ _ r3 w w2 w2 w3 R M eq_refl R3 M3) as (R' & M').
    eexists w3, _. split; [|split; [exact R'|exact M']].
    unfold set_power, set_power_off, assert_reset, deassert_lpmode, disable_power.
    erewrite cbind_ok by exact E1. erewrite cbind_ok by exact E2. cbv zeta. erewrite cbind_ok by exact E3. reflexivity.
  Qed.
End Apart.
