(** Proofs for C99: calls that are the same for every module. *)
From Verif Require Export SpecApart.
From Verif Require Import Tac Spec ModuleIdProofs ModuleIdProps ResultsProofs ControllerProofs ControllerProofs3 ControllerProofs4 ControllerProofs5
  ControllerProofs6 LiveProofs LiveProofs2 CliProofs6 MainProofs2 ScopeProofs ScopeProofs2 CoverProofs.
From Coq Require Import Permutation.
Import ListNotations.
Open Scope N_scope.

Section Apart.
  Context {X : Type} (b : bay X) (Hb : bay_ok b).
  Implicit Type w : world (N -> X).
  Local Notation a := (apart b).
  Local Notation sp := (honest_sp (apart b)).

  Lemma apart_ok : honest_ok a.
  Proof.
    intros s q d i. cbn [apart hs_verdict]. pose proof (Hb i (s i) (bare q) d) as K.
    destruct (by_verdict b i (s i) (bare q) d) as [y|e]; [|exact K]. destruct K as (K1 & K2 & _). split; [|exact K2]. rewrite K1. now destruct q.
  Qed.

  (** What module [i] in state [x] says to a request, and its state then. *)
  Definition says {P} (dec : list N -> P) (q : HostRequest) d (i : N) (x : X) : P + TransceiverError :=
    match by_verdict b i x (bare q) d with inl y => inl (dec y) | inr e => inr (hw_fault i e) end.
  Definition goes (q : HostRequest) d (i : N) (x : X) : X := by_next b i x (bare q) d.

  (** Each module gets its report from [F] and its new state from [G]. *)
  Definition moved (m : N) (G : N -> X -> X) w w' : Prop := forall i, w_sp w' i = if N.testbit m i then G i (w_sp w i) else w_sp w i.
  Definition pt {P} (m : N) (c : ctl (St := N -> X) (Result P)) (F : N -> X -> P + TransceiverError) (G : N -> X -> X) : Prop :=
    forall w, exists w' r, c w = (w', Ok r) /\ rrep m (fun i => F i (w_sp w i)) r /\ moved m G w w'.

  Lemma moved_next w q d : moved (request_modules q) (goes q d) w (next a w q d).
  Proof. intros i. reflexivity. Qed.
  Lemma pt_ack q : request_unit q = 0%nat -> (forall x y, response_to q x y = SAck x y) -> mask_ok (request_modules q) = true ->
    pt (request_modules q) (no_payload_request sp q) (says (fun _ => tt) q None) (goes q None).
  Proof.
    intros H1 H2 Hm w. destruct (honest_ack a apart_ok w q H1 H2 Hm) as (r & E & _ & R).
    exists (next a w q None), r. split; [exact E|]. split; [exact R|apply moved_next].
  Qed.
  Lemma pt_status m : mask_ok m = true -> pt m (ctl_status sp m) (says (hd 0) (HStatus m) None) (goes (HStatus m) None).
  Proof.
    intros Hm w. destruct (honest_status a apart_ok w m Hm) as (r & E & _ & R). exists (next a w (HStatus m) None), r.
    split; [exact E|]. split; [exact R|]. exact (moved_next w (HStatus m) None).
  Qed.
  Lemma pt_leds m : mask_ok m = true -> pt m (leds sp m) (says led_of (HLedState m) None) (goes (HLedState m) None).
  Proof.
    intros Hm w. pose proof (honest_documented a apart_ok w (HLedState m) None) as D. cbn [response_to request_modules] in D.
    apply raw_leds in D.
    - rewrite state_next in D. eexists _, _. split; [exact D|]. split; [|exact (moved_next w (HLedState m) None)].
      exact (rrep_told m led_of (vd a w (HLedState m) None) Hm).
    - apply Forall_map, Forall_forall. intros i Hi. unfold good_ports in Hi. apply filter_In in Hi. destruct Hi as (Hi & G).
      unfold vd in *. cbn [apart hs_verdict bare] in *. pose proof (Hb i (w_sp w i) (HLedState 0) None) as K.
      destruct (by_verdict _ _ _ _ _) as [d|]; [|discriminate]. exact (proj2 (proj2 K)).
  Qed.
  Lemma pt_extended m : mask_ok m = true -> pt m (extended_status sp m) (says le_value (HExtendedStatus m) None) (goes (HExtendedStatus m) None).
  Proof.
    intros Hm w. pose proof (honest_documented a apart_ok w (HExtendedStatus m) None) as D. cbn [response_to request_modules] in D.
    apply raw_ext in D.
    - rewrite state_next in D. eexists _, _. split; [exact D|]. split; [|exact (moved_next w (HExtendedStatus m) None)].
      exact (rrep_told m le_value (vd a w (HExtendedStatus m) None) Hm).
    - apply good_bytes, apart_ok.
    - apply Forall_map, Forall_forall. intros i Hi. unfold good_ports in Hi. apply filter_In in Hi. destruct Hi as (Hi & G).
      unfold vd in *. cbn [apart hs_verdict bare] in *. pose proof (Hb i (w_sp w i) (HExtendedStatus 0) None) as K.
      destruct (by_verdict _ _ _ _ _) as [d|]; [|discriminate]. exact (proj2 (proj2 K)).
  Qed.
  Lemma pt_write m wr data : wr_len wr = Nlen data -> mask_ok m = true ->
    pt m (write_impl sp m wr data) (says (fun _ => tt) (HWrite m wr) (Some data)) (goes (HWrite m wr) (Some data)).
  Proof.
    intros Hl Hm w. destruct (honest_write a apart_ok w m wr data Hl Hm) as (r & E & _ & R). exists (next a w (HWrite m wr) (Some data)), r.
    split; [exact E|]. split; [exact R|]. exact (moved_next w (HWrite m wr) (Some data)).
  Qed.

  (** ** Reads *)
  Section Read.
    Context (rd : MemoryRead) (Hlen : 1 <= rd_len rd <= 255).
    Let ok g := g <> 0 /\ mask_ok g = true /\ fits_in_one_message g rd = true.
    Let F := says (fun x : list N => x) (HRead 0 rd) None.
    Let G := goes (HRead 0 rd) None.
    Lemma pt_read_one m : ok m -> pt m (read_impl_one_message sp m rd) F G.
    Proof.
      intros (_ & Hm & Hf) w. destruct (honest_read_one a apart_ok w m rd) as (r & E & R); [lia|assumption|assumption|].
      exists (next a w (HRead m rd) None), r. split; [exact E|]. split; [exact R|]. exact (moved_next w (HRead m rd) None).
    Qed.
    Lemma read_rest_apart (s : N -> X) gs : forall w m0 r0,
      Forall ok gs -> NoDup (to_indices m0 ++ concat (map to_indices gs)) -> mask_ok m0 = true ->
      rrep m0 (fun i => F i (s i)) r0 -> (forall i, w_sp w i = if N.testbit m0 i then G i (s i) else s i) ->
      exists r w', read_rest sp gs rd r0 w = (w', Ok r) /\ rrep (fold_left N.lor gs m0) (fun i => F i (s i)) r /\
        (forall i, w_sp w' i = if N.testbit (fold_left N.lor gs m0) i then G i (s i) else s i).
    Proof.
      induction gs as [|g gs IH]; intros w m0 r0 Hg Hd Hm0 Hr0 Hs.
      - exists r0, w. cbn. auto.
      - pose proof (Forall_inv Hg) as Hg1. apply Forall_inv_tail in Hg.
        assert (Dj : forall i, N.testbit m0 i = true -> N.testbit g i = true -> False).
        { intros i B0 B1. rewrite <- in_to_indices_ok in B0, B1 by (apply Hg1 || assumption).
          clear -Hd B0 B1. cbn [map concat] in Hd. induction (to_indices m0) as [|x l IHl]; [destruct B0|].
          cbn in Hd. inversion Hd as [|? ? N1 N2]; subst. destruct B0 as [->|B0]; [|auto].
          apply N1. apply in_or_app. right. apply in_or_app. now left. }
        destruct (pt_read_one g Hg1 w) as (w1 & r1 & E1 & R1 & M1).
        assert (R1' : rrep g (fun i => F i (s i)) r1).
        { eapply rrep_ext; [|exact R1]. intros i Hi. cbv beta. rewrite Hs. destruct (N.testbit m0 i) eqn:E0; [destruct (Dj i E0 Hi)|reflexivity]. }
        destruct (rrep_merge m0 g _ r0 r1 Hr0 R1') as (r2 & E2 & R2).
        { apply N.bits_inj_0. intros i. rewrite N.land_spec. apply not_true_iff_false. rewrite andb_true_iff. intros [B0 B1]. eauto. }
        assert (Hmk : mask_ok (N.lor m0 g) = true) by (rewrite mask_ok_lor, Hm0; apply Hg1).
        destruct (IH w1 (N.lor m0 g) r2 Hg) as (r & w' & E & R & A); [|exact Hmk|exact R2| |].
        { cbn [map concat] in Hd. rewrite app_assoc in Hd. eapply Permutation_NoDup; [|exact Hd].
          apply Permutation_app_tail. apply NoDup_Permutation.
          - clear -Hd. induction (to_indices m0 ++ to_indices g) as [|x l IHl]; [constructor|].
            cbn in Hd. inversion Hd as [|? ? N1 N2]; subst. constructor; [|auto].
            intros K. apply N1, in_or_app. now left.
          - apply to_indices_nodup.
          - intros i. rewrite in_app_iff, !in_to_indices_ok, N.lor_spec, orb_true_iff by (apply Hg1 || assumption).
            reflexivity. }
        { intros i. rewrite M1, Hs, N.lor_spec. specialize (Dj i). destruct (N.testbit m0 i), (N.testbit g i); cbn [orb]; try reflexivity. destruct (Dj eq_refl eq_refl). }
        exists r, w'. cbn [read_rest]. erewrite cbind_ok by exact E1. rewrite E2. erewrite cbind_ok by reflexivity. cbn [fold_left]. auto.
    Qed.
    Lemma pt_read m : mask_ok m = true -> pt m (read_impl sp m rd) F G.
    Proof.
      intros Hm w. unfold read_impl. destruct (Nat.eqb_spec (m_count m) 0) as [Hz|Hz].
      - apply count0 in Hz; [|exact Hm]. subst m. cbn [orb]. eexists w, _.
        split; [reflexivity|]. split; [apply rrep_empty|]. intros i. now rewrite N.bits_0.
      - destruct (N.eqb_spec (rd_len rd) 0) as [|_]; [lia|]. cbn [orb].
        destruct (split_spec m rd Hm Hlen) as (gs & Es & Ec & Fg & _). rewrite Es.
        erewrite cbind_ok by reflexivity. destruct gs as [|g gs].
        { exfalso. apply Hz. rewrite count_to_indices, <- Ec by exact Hm. reflexivity. }
        pose proof (Forall_inv Fg) as Hg1. pose proof (Forall_inv_tail Fg) as Hg2.
        destruct (pt_read_one g Hg1 w) as (w1 & r1 & E1 & R1 & M1).
        destruct (read_rest_apart (w_sp w) gs w1 g r1 Hg2) as (r & w' & E & R & A); [|apply Hg1|exact R1|exact M1|].
        { cbn [map concat] in Ec. rewrite Ec. apply to_indices_nodup. }
        exists w', r. erewrite cbind_ok by exact E1. split; [exact E|].
        assert (Em : fold_left N.lor gs g = m); [|rewrite <- Em; auto].
        apply mask_ext. intros i. rewrite fold_lor_groups.
        apply eq_true_iff_eq. rewrite <- (in_to_indices_ok m) by exact Hm. rewrite <- Ec.
        cbn [map concat]. rewrite in_app_iff, in_concat, orb_true_iff, existsb_exists.
        rewrite in_to_indices_ok by apply Hg1. split; (intros [H|H]; [now left|right]).
        * destruct H as (g' & Hg' & Hbt). exists (to_indices g'). split; [now apply in_map|].
          apply in_to_indices_ok; [|exact Hbt]. rewrite Forall_forall in Hg2. now apply Hg2.
        * destruct H as (l & Hl & Hi). apply in_map_iff in Hl. destruct Hl as (g' & <- & Hg').
          exists g'. split; [exact Hg'|]. apply in_to_indices_ok in Hi; [exact Hi|].
          rewrite Forall_forall in Hg2. now apply Hg2.
    Qed.
  End Read.
End Apart.
