(** Proofs about the names of codes. *)
From Coq Require Import String.
From Verif Require Import Tables Types DecodeDatapath CodeText SpecCodes Tac ConfigProofs CodeTextProofs.
Import ListNotations.

Definition bytes256 : list N := map N.of_nat (seq 0 256).
Lemma in_bytes256 x : x < 256 -> In x bytes256.
Proof.
  intro H. apply in_map_iff. exists (N.to_nat x). split; [lia|]. apply in_seq. lia.
Qed.

Definition agree_at (t : enum_table) (s : code_standard) (d : N -> bool) (x : N) : bool :=
  match code_text t x with
  | Some n => Bool.eqb (d x) (negb (text_eqb n (std_text s x)))
  | None => false
  end.

Lemma all_agree : forallb (fun e => let '(t, s, d) := e in forallb (agree_at t s d) bytes256)
  standards = true.
Proof. vm_compute. reflexivity. Qed.

Lemma standard_names t s d x : In (t, s, d) standards -> x < 256 ->
  code_text t x = Some (std_text s x) <-> d x = false.
Proof.
  intros Hin Hx. pose proof all_agree as H. rewrite forallb_forall in H. specialize (H _ Hin).
  cbv beta iota in H. rewrite forallb_forall in H. specialize (H x (in_bytes256 x Hx)).
  unfold agree_at in H. destruct (code_text t x) as [n|]; [|discriminate].
  apply Bool.eqb_prop in H. rewrite H. destruct (text_eqb n (std_text s x)) eqn:E.
  - apply text_eqb_eq in E. subst. split; reflexivity.
  - split; [|discriminate]. intro Hn. injection Hn as ->.
    rewrite (proj2 (text_eqb_eq _ _) eq_refl) in E. discriminate.
Qed.

Lemma ethernet_names i n : In (i, n) std_ethernet -> eth_display (2 ^ i) = n.
Proof. intro H. repeat (destruct H as [H|H]; [injection H as <- <-; reflexivity|]). destruct H. Qed.

Lemma state_names x : x < 256 ->
  match find (fun e => fst e =? x mod 8) std_states with
  | Some (_, n) => exists s, dps_try_from x = Ok s /\ dps_display s = n
  | None => dps_try_from x = Err DeInvalidBitField
  end.
Proof.
  intro Hx. unfold dps_try_from. rewrite (N.land_ones x 3 : N.land x 7 = x mod 8).
  assert (H : x mod 8 < 8) by (apply N.mod_lt; lia). revert H. generalize (x mod 8). clear.
  intros y H. do 8 (destruct y as [|y] using N.peano_ind;
    [cbn; try (eexists; split; reflexivity); reflexivity|clear IHy; try lia]).
Qed.

Lemma one_each t : In t all_tables -> exists s d, In (t, s, d) standards.
Proof.
  intro H. unfold all_tables in H.
  repeat (destruct H as [<-|H];
    [unfold standards; eexists; eexists;
     first [left; reflexivity | repeat (right; try (left; reflexivity))]|]).
  destruct H.
Qed.

(** The conversions of bytes that cannot fail. *)
Lemma kind_names x : x < 256 -> enum_display tbl_Identifier (ident_of_byte x) = std_text std_identifiers x <-> x <> 0x19.
Proof.
  intros Hx. pose proof (standard_names tbl_Identifier std_identifiers _ x (or_introl eq_refl) Hx) as H. cbv beta in H. unfold ident_of_byte.
  destruct (tables_lossless tbl_Identifier x (or_introl eq_refl) Hx) as (e & E & _). unfold code_text in H. rewrite E in H |- *. cbn [option_map] in H.
  rewrite <- N.eqb_neq, <- H. split; [intros ->; reflexivity|]. intros K. now injection K.
Qed.
Lemma total_names t s d x : In (t, s, d) standards -> x < 256 -> enum_display t (enum_of t x) = std_text s x <-> d x = false.
Proof.
  intros Hin Hx. pose proof (standard_names t s d x Hin Hx) as H. unfold enum_of. unfold code_text in H.
  pose proof all_agree as A. rewrite forallb_forall in A. specialize (A _ Hin). cbv beta iota in A. rewrite forallb_forall in A.
  specialize (A x (in_bytes256 x Hx)). unfold agree_at, code_text in A. destruct (enum_from_u8 t x) as [e|]; [|discriminate].
  cbn [option_map] in H. rewrite <- H. split; [intros ->; reflexivity|]. intros K. now injection K.
Qed.
