(** Proofs about the printed tables (C65). *)
From Coq Require Import Lia String.
From Verif Require Import Tac Text SpecTable CliProofs CliProofs5 ResultsProofs ControllerProofs ModuleIdProofs.
Import ListNotations.
Open Scope N_scope.

(** ** Cells *)
Lemma unpad_spaces s n : unpad (s ++ repeat 32 n) = unpad s.
Proof.
  induction s as [|c s IH]; cbn [app unpad].
  - induction n as [|n IHn]; [reflexivity|]. cbn [repeat unpad]. now rewrite IHn.
  - now rewrite IH.
Qed.
Lemma unpad_id s : (forall v c, s = v ++ [c] -> c <> 32) -> unpad s = s.
Proof.
  induction s as [|c s IH]; intros H; [reflexivity|]. cbn [unpad]. rewrite IH.
  - destruct s as [|d s]; [|reflexivity]. destruct (N.eqb_spec c 32) as [->|]; [|reflexivity]. now destruct (H [] 32).
  - intros v d E. apply (H (c :: v) d). now rewrite E.
Qed.
Lemma cells_step from s r a b : List.length a = (s - from)%nat -> cells_from from (s :: r) (a ++ b) = unpad a :: cells_from s r b.
Proof.
  intros H. cbn [cells_from]. rewrite <- H, firstn_app, skipn_app, Nat.sub_diag, firstn_all, skipn_all. cbn [firstn skipn app].
  now rewrite app_nil_r.
Qed.
Lemma nth_app_last {A} (l : list A) v c : l = v ++ [c] -> nth_error l (List.length l - 1) = Some c.
Proof.
  intros ->. rewrite app_length. cbn [List.length]. replace (List.length v + 1 - 1)%nat with (List.length v) by lia.
  rewrite nth_error_app2 by lia. now rewrite Nat.sub_diag.
Qed.
Definition ends_plain (s : text) : bool := match nth_error s (List.length s - 1) with Some 32 => false | _ => true end.
Lemma unpad_plain s : ends_plain s = true -> unpad s = s.
Proof. intros H. apply unpad_id. intros v c E ->. apply nth_app_last in E. unfold ends_plain in H. now rewrite E in H. Qed.

(** ** Rows *)
Section Rows.
  Context {F P : Type} (title : text) (name : F -> text) (line : N -> P -> text) (field : N -> P -> F -> text) (items : list (N * P)).
  Lemma table_columns starts headings cell : cells starts title = headings ->
    (forall i x, In (i, x) items -> cells starts (line i x) = cell i x) ->
    columns starts headings cell items (fun h => table title name line field (OutDefault h) items).
  Proof.
    intros Ht Hl. exists title, (map (fun p => line (fst p) (snd p)) items). split; [exact Ht|]. split; [|split; reflexivity].
    clear Ht. induction items as [|p l IH]; [constructor|]. cbn [map]. constructor.
    - apply Hl. left. now destruct p.
    - apply IH. intros i x H. apply Hl. now right.
  Qed.
  Lemma table_fields value : (forall i x f, In (i, x) items -> field i x f = value i x f) ->
    fields_split name value items (fun h fs sep => table title name line field (OutParseable h fs sep) items).
  Proof.
    intros Hv c fs Hfs Hc. exists (join [c] (map name fs)), (map (fun p => join [c] (map (field (fst p) (snd p)) fs)) items).
    split; [|split; [|split]].
    - clear - Hv Hfs Hc. induction items as [|p l IH]; [constructor|]. cbn [map]. constructor.
      + destruct p as [i x]. cbn [fst snd].
        assert (E : map (field i x) fs = map (value i x) fs) by (apply map_ext; intros f; apply Hv; now left).
        rewrite E. apply join_split; [now destruct fs|]. apply Forall_map, Forall_forall. intros f Hf. apply Hc; [now left|exact Hf].
      + apply IH; intros i x f Hi; [apply Hv|apply Hc]; now right.
    - intros Hn. apply join_split; [now destruct fs|]. apply Forall_map, Forall_forall. exact Hn.
    - unfold table. cbn [display_header]. unfold parseable_header. destruct fs; [congruence|reflexivity].
    - unfold table. cbn [display_header]. destruct fs; [congruence|reflexivity].
  Qed.
  Lemma table_lines (Q : text -> Prop) h : Q title -> (forall i x, In (i, x) items -> Q (line i x)) ->
    Forall Q (table title name line field (OutDefault h) items).
  Proof.
    intros Ht Hl. unfold table. cbn [display_header]. apply Forall_app. split; [destruct h; repeat constructor; exact Ht|].
    apply Forall_map, Forall_forall. intros [i x] H. now apply Hl.
  Qed.
  Lemma table_lines_parse h fs sep c : ~ In c sep -> (forall f, ~ In c (name f)) ->
    (forall i x f, In (i, x) items -> ~ In c (field i x f)) ->
    Forall (fun l => ~ In c l) (table title name line field (OutParseable h fs sep) items).
  Proof.
    intros Hs Hn Hv. assert (J : forall l, Forall (fun t => ~ In c t) l -> ~ In c (join sep l)).
    { induction l as [|a l IH]; intros H; [intros []|]. inversion H; subst. cbn [join]. destruct l; [assumption|].
      rewrite !in_app_iff. intros [X|[X|X]]; [now apply H2|now apply Hs|now apply IH]. }
    unfold table. cbn [display_header]. apply Forall_app. split.
    - destruct h; [|constructor]. unfold parseable_header. destruct fs; constructor; [|constructor].
      apply J, Forall_map, Forall_forall. intros x _. apply Hn.
    - destruct fs as [|f0 fs]; [constructor|]. apply Forall_map, Forall_forall. intros [i x] H. apply J, Forall_map, Forall_forall.
      intros y _. now apply Hv.
  Qed.
End Rows.
Lemma lines_whole lines : Forall (fun l => ~ In 10 l) lines -> whole_lines lines.
Proof.
  unfold whole_lines, on_screen. induction 1 as [|l ls Hl _ IH]; [reflexivity|]. cbn [flat_map app]. rewrite <- app_assoc. cbn [app].
  now rewrite split_app, IH.
Qed.

(** ** Text that is plain *)
Definition plainb (t : text) : bool := forallb (fun c => (32 <=? c) && (c <? 127) && negb (c =? 58)) t.
Lemma plainb_ok t : plainb t = true <-> plain t.
Proof.
  unfold plainb, plain. rewrite forallb_forall, Forall_forall. split; intros H c Hc; specialize (H c Hc);
    rewrite !andb_true_iff, negb_true_iff, N.leb_le, N.ltb_lt, N.eqb_neq in *; tauto.
Qed.
Lemma plain_app a b : plain a -> plain b -> plain (a ++ b).
Proof. intros Ha Hb. apply Forall_app. now split. Qed.
Lemma plain_no t c : plain t -> c = 58 \/ c < 32 -> ~ In c t.
Proof. intros H Hc Hi. apply (proj1 (Forall_forall _ _) H) in Hi. lia. Qed.
Lemma plain_spaces n : plain (repeat 32 n).
Proof. apply Forall_forall. intros c Hc. apply repeat_spec in Hc. lia. Qed.
Lemma plain_join sep l : plain sep -> Forall plain l -> plain (join sep l).
Proof.
  intros Hs. induction 1 as [|a l Ha H IH]; [constructor|]. cbn [join]. destruct l; [exact Ha|]. repeat apply plain_app; assumption.
Qed.
Lemma plain_digits radix n : 2 <= radix <= 16 -> forall fuel, plain (digits_of fuel radix n).
Proof.
  intros Hr fuel. revert n. induction fuel as [|k IH]; intros n; [constructor|]. cbn [digits_of]. apply plain_app.
  - destruct (n <? radix); [constructor|apply IH].
  - repeat constructor; unfold hex_digit; pose proof (N.mod_lt n radix ltac:(lia)); destruct (N.ltb_spec (n mod radix) 10); lia.
Qed.
Lemma digits_ends radix n fuel : 2 <= radix <= 16 -> ends_plain (digits_of (S fuel) radix n) = true.
Proof.
  intros Hr. unfold ends_plain. cbn [digits_of]. rewrite app_length. cbn [List.length].
  rewrite nth_error_app2 by lia. match goal with |- context [nth_error _ ?k] => replace k with O by lia end. cbn [nth_error].
  unfold hex_digit. pose proof (N.mod_lt n radix ltac:(lia)).
  destruct (N.ltb_spec (n mod radix) 10).
  - assert (n mod radix = 0 \/ 0 < n mod radix) as [->|] by lia; [reflexivity|].
    destruct (48 + n mod radix) as [|p] eqn:E; [lia|]. assert (p <> 32)%positive by lia.
    do 6 (try destruct p as [p|p|]; try reflexivity; try congruence).
  - destruct (97 + (n mod radix - 10)) as [|p] eqn:E; [lia|]. assert (p <> 32)%positive by lia.
    do 6 (try destruct p as [p|p|]; try reflexivity; try congruence).
Qed.
