(** Proofs for the outcome of the tool's queries (C88). *)
From Coq Require Import String.
From Verif Require Export SpecFate SpecMain.
From Verif Require Import Tac QueryProofs TableProofs3 MonitorProofs2 MainProofs2 FateProofs.
Import ListNotations.
Open Scope N_scope.

Section Tool.
  Context {St : Type} (a : honest St) (Hok : honest_ok a) (show_f32 : f32 -> text) (show : TransceiverError -> text).
  Context (g : Args) (w w1 : world St) (m : N) (A : addressing (honest_sp a) g w w1 m) (Hm : m < 2 ^ 64) (k : rack)
    (Hk : bytes_rack k).
  Local Notation main := (main (honest_sp a) show_f32 show).

  Lemma printing_ends {P} crash m' (call : ctl (St := St) (Result P)) print :
    (forall p i o, ar_cmd g <> CWrite p i o) ->
    run_call (honest_sp a) show_f32 show (ar_ignore_errors g) m (ar_cmd g) = printing show (ar_ignore_errors g) call print ->
    ends_as crash m' k not_supported (snd (call w1)) ->
    (all_modules m' k (fun mem => ~ stops crash mem) -> forall r, snd (call w1) = Ok r -> exists out, print r = Ok out) ->
    ends_as crash m' k unsupported_kind (snd (main g w)).
  Proof.
    intros Hw E (H1 & H2 & H3) Hp. rewrite (main_call (honest_sp a) show_f32 show g w w1 m A Hw), E.
    unfold printing, cbind. destruct (call w1) as [w2 [r|e|]]; cbn [snd] in *.
    - pose proof (proj1 H1 (ex_intro _ r eq_refl)) as Hs. destruct (Hp Hs r eq_refl) as (out & ->). cbn.
      split; [|split].
      + split; [intros _; exact Hs|eauto].
      + split; [discriminate|]. intros K. apply H2 in K. discriminate.
      + intros e. split; [discriminate|]. intros (mem & F & S & _).
        assert (@Ok Error (Result P) r = Err (not_supported mem)) by (apply H3; eauto). discriminate.
    - cbn. split; [|split].
      + split; [intros (x & K); discriminate|]. intros K. apply H1 in K. destruct K as (x & K). discriminate.
      + split; [discriminate|]. intros K. apply H2 in K. discriminate.
      + intros x. split.
        * intros [= <-]. destruct (proj1 (H3 e) eq_refl) as (mem & F & S & ->). exists mem. auto.
        * intros (mem & F & S & ->). assert (X : @Err Error (Result P) e = Err (not_supported mem)) by (apply H3; eauto).
          injection X as ->. reflexivity.
    - cbn. split; [|split].
      + split; [intros (x & K); discriminate|]. intros K. apply H1 in K. destruct K as (x & K). discriminate.
      + split; [intros _; apply H2; reflexivity|reflexivity].
      + intros x. split; [discriminate|]. intros (mem & F & S & ->).
        assert (X : @Panic Error (Result P) = Err (not_supported mem)) by (apply H3; eauto). discriminate.
  Qed.

  Lemma fine_kind crash : all_modules m k (fun mem => ~ stops crash mem) ->
    all_modules m k (fun mem => supported_kind (kind_of mem) = true) /\ all_modules m k (fun mem => ~ crash mem).
  Proof.
    intros H. split; intros i mem Hi E; specialize (H i mem Hi E); unfold stops in H.
    - destruct (supported_kind (kind_of mem)); [reflexivity|]. exfalso. auto.
    - auto.
  Qed.

  Lemma tool_fates : reads_as a (w_sp w1) (SpecQuery.shows k) ->
    (forall args, ar_cmd g = CVendorInfo args -> ends_as no_crash m k unsupported_kind (snd (main g w))) /\
    (forall args, ar_cmd g = CMemoryModel args -> ends_as banks_crash m k unsupported_kind (snd (main g w))) /\
    (forall args, ar_cmd g = CMonitors args -> ends_as scale_crash m k unsupported_kind (snd (main g w))) /\
    (ar_cmd g = CDatapath -> ends_as path_crash m k unsupported_kind (snd (main g w))).
  Proof.
    intros Hr. destruct (fates a Hok w1 m k Hm Hr Hk) as (V & _ & Me & Mo & Da).
    split; [|split; [|split]].
    - intros args Hc. eapply printing_ends; [rewrite Hc; discriminate|rewrite Hc; reflexivity|exact V|]. eauto.
    - intros args Hc. eapply printing_ends; [rewrite Hc; discriminate|rewrite Hc; reflexivity|exact Me|].
      intros Hs r E. apply fine_kind in Hs as [Hs Hb].
      destruct (memory_print St a Hok w1 m k Hm Hr Hs Hb) as (r' & items & out & E' & _ & P & _).
      rewrite E in E'. injection E' as <-. rewrite P. cbn. eauto.
    - intros args Hc. eapply printing_ends; [rewrite Hc; discriminate|rewrite Hc; reflexivity|exact Mo|].
      intros Hs r E. apply fine_kind in Hs as [Hs Hb].
      destruct (monitors_print show_f32 St a Hok w1 m k Hm Hr Hs Hk) as (r' & items & out & E' & _ & P & _).
      { intros i mem Hi Em Hcm Hn. exact (Hb i mem Hi Em (conj Hcm Hn)). }
      rewrite E in E'. injection E' as <-. rewrite P. cbn. eauto.
    - intros Hc. eapply printing_ends; [rewrite Hc; discriminate|rewrite Hc; reflexivity|exact Da|]. eauto.
  Qed.
  Lemma tool_power (st := hs_verdict a (w_sp w1) (HStatus m) None) :
    reads_as a (hs_next a (w_sp w1) (HStatus m) None) (SpecQuery.shows k) ->
    forall args, ar_cmd g = CPower args -> ends_as no_crash (readable_mask m st) k unsupported_kind (snd (main g w)).
  Proof.
    intros Hr args Hc. eapply printing_ends; [rewrite Hc; discriminate|rewrite Hc; reflexivity|exact (power_ends a Hok w1 m k Hm Hr Hk)|].
    eauto.
  Qed.
End Tool.
