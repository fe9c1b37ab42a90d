(** Proofs for C09: what pages tell of themselves. *)
From Verif Require Import Tac Spec Mgmt.

Definition page_tells (p : Page) (k : ManagementInterface) (n b : option N) : Prop :=
  page_interface p = k /\ page_number p = n /\ page_bank p = b.
Lemma pages_tell :
  page_tells (PageSff SffLower) Sff8636 None None /\ page_tells (PageCmis CmisLower) Cmis None None /\
  (forall n u, sff_upper_new n = Ok u -> page_tells (PageSff u) Sff8636 (Some n) None) /\
  (forall n b u, cmis_new_banked n b = Ok u -> page_tells (PageCmis (CmisUpper u)) Cmis (Some n) (Some b)) /\
  (forall n u, cmis_new_unbanked n = Ok u -> page_tells (PageCmis (CmisUpper u)) Cmis (Some n) None).
Proof.
  unfold page_tells. repeat split; intros; unfold sff_upper_new, cmis_new_banked, cmis_new_unbanked in *;
    repeat match goal with H : (if ?b then _ else _) = Ok _ |- _ => destruct b; try discriminate end;
    match goal with H : Ok _ = Ok _ |- _ => injection H as <-; reflexivity end.
Qed.
