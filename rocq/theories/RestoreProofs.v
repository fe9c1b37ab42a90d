(** Proofs about writing back what the tool shows of memory (C102). *)
From Coq Require Import String Lia.
From Verif Require Export SpecRestore.
From Verif Require Import Tac Spec ModuleIdProofs ModuleIdProps ResultsProofs DecodeProofs CliProofs CliProofs3 CliProofs5 LiveProofs LiveProofs2 LiveProofs3 ToolProofs3 ToolProofs4.
Import ListNotations.
Open Scope N_scope.
Local Open Scope list_scope.

Lemma kind_text binary : kind_shown binary <> Binary.
Proof. now destruct binary. Qed.
Lemma byte_notation binary b : byte_shown binary b = notation (kind_shown binary) true b.
Proof. now destruct binary. Qed.
Lemma notations binary d : Forall (fun b => b < 256) d -> Forall (Forall (fun c => 48 <= c <= 122)) (map (notation (kind_shown binary) true) d).
Proof. intros H. apply Forall_map. eapply Forall_impl; [|exact H]. cbv beta. intros b Hb. now apply (notation_ok _ true b (kind_text binary) Hb). Qed.
Lemma join_space l : Forall (Forall (fun c => 48 <= c <= 122)) l ->
  map (fun c => if c =? 44 then 32 else c) (join (T ",") l) = join [32] l.
Proof.
  assert (K : forall s, Forall (fun c => 48 <= c <= 122) s -> map (fun c => if c =? 44 then 32 else c) s = s).
  { induction 1 as [|c s Hc _ IH]; [reflexivity|]. cbn [map]. rewrite IH. destruct (N.eqb_spec c 44); [lia|reflexivity]. }
  induction 1 as [|s l Hs Hl IH]; [reflexivity|]. cbn [join]. destruct l as [|s' l]; [now apply K|].
  rewrite !map_app, IH, (K s Hs). reflexivity.
Qed.
Lemma spaced_data binary d : Forall (fun b => b < 256) d -> spaced (data_shown binary d) = printed (kind_shown binary) true d ++ [10].
Proof.
  intros H. unfold spaced, data_shown, printed. rewrite (map_ext _ _ (byte_notation binary)), join_space; [reflexivity|]. now apply notations.
Qed.
Lemma words_trail t toks a : words_of t toks -> white a -> words_of (t ++ a) toks.
Proof.
  intros H Ha. induction H as [b Hb|b tok rest toks Hb Hn Hs Hr H IH].
  - constructor. now apply Forall_app.
  - rewrite <- !app_assoc. constructor; try assumption. destruct Hr as [->|(c & r & -> & Hc)].
    + destruct a as [|c a]; [now left|]. right. exists c, a. split; [reflexivity|]. now apply Forall_inv in Ha.
    + right. exists c, (r ++ a). auto.
Qed.
Lemma scalars t : Forall (fun c => c < 128) t -> Forall scalar t.
Proof. intros H. eapply Forall_impl; [|exact H]. cbv beta. intros c K. left. lia. Qed.
(** Words of printable characters, at most 128 of them, with blanks between and behind. *)
Lemma load_words cap chunk k l a data : k <> Binary -> Forall (Forall (fun c => 48 <= c <= 122)) l -> Forall (fun s => s <> []) l ->
  white a -> Forall (fun c => c < 128) a -> Forall2 (fun s b => conv k s = Ok b) l data -> (List.length data <= 128)%nat ->
  forall input, firstn cap input = join [32] l ++ a -> load_known_write_data cap chunk k input = Ok data.
Proof.
  intros Hk A Hn Ha Ha' F Hl input E. apply load_text; [exact Hk|]. split; [|exact Hl]. rewrite E.
  assert (A' : Forall (fun c => c < 128) (join [32] l ++ a)) by (apply Forall_app; split; [now apply printed_ascii|exact Ha']).
  exists (join [32] l ++ a), l. split; [now apply scalars|]. split; [symmetry; now apply utf8_ascii|]. split.
  - apply words_trail; [|exact Ha]. apply printed_words. apply Forall_forall. intros s Hs. rewrite Forall_forall in A, Hn. split; [now apply Hn|].
    now apply plain_solid, A.
  - clear - F Hk. induction F as [|s b l data Hb _ IH]; constructor; [now apply conv_ok|exact IH].
Qed.
Lemma nonempty k p d : k <> Binary -> Forall (fun b => b < 256) d -> Forall (fun s => s <> []) (map (notation k p) d).
Proof.
  intros Hk H. apply Forall_map. eapply Forall_impl; [|exact H]. cbv beta. intros b Hb E.
  destruct (notation_ok k p b Hk Hb) as (_ & _ & L). rewrite E in L. cbn in L. lia.
Qed.
Lemma convs k p d : k <> Binary -> Forall (fun b => b < 256) d -> Forall2 (fun s b => conv k s = Ok b) (map (notation k p) d) d.
Proof. intros Hk H. induction H as [|b d Hb _ IH]; constructor; [now apply (notation_ok k p b Hk Hb)|exact IH]. Qed.
(** The kind is found from the first two characters. *)
Lemma finds_kind cap chunk binary d rest : Forall (fun b => b < 256) d -> d <> [] -> Forall (fun c => c < 128) rest ->
  let t := printed (kind_shown binary) true d ++ rest in
  load_write_data cap chunk None None t = load_known_write_data cap chunk (kind_shown binary) t.
Proof.
  intros H Hn Hr t.
  assert (A : Forall (fun c => c < 128) t) by (apply Forall_app; split; [apply printed_ascii, notations; exact H|exact Hr]).
  assert (E : exists r, t = T (if binary then "0b" else "0x")%string ++ r).
  { unfold t, printed. destruct d as [|b d]; [congruence|]. cbn [map join]. destruct (map _ d); destruct binary; cbn [kind_shown notation];
      rewrite <- !app_assoc; eexists; reflexivity. }
  destruct E as (r & E). rewrite <- (utf8_ascii _ A). rewrite autodetect; [f_equal; rewrite E; now destruct binary|now apply scalars|].
  left. rewrite E. destruct binary; cbn [T app]; do 3 eexists; (split; [reflexivity|split; reflexivity]).
Qed.
Lemma passed cap chunk binary d k : (512 <= cap)%nat -> Forall (fun b => b < 256) d -> d <> [] -> Nlen d <= can_pass binary ->
  k = None \/ k = Some (kind_shown binary) -> load_write_data cap chunk None k (spaced (data_shown binary d)) = Ok d.
Proof.
  intros Hc H Hn Hl Hk. rewrite (spaced_data binary d H).
  assert (L : load_known_write_data cap chunk (kind_shown binary) (printed (kind_shown binary) true d ++ [10]) = Ok d).
  { unfold can_pass, Nlen in Hl. pose proof (printed_length _ true d (kind_text binary) H) as X.
    apply (load_words _ _ _ (map (notation (kind_shown binary) true) d) [10]); [apply kind_text|now apply notations|apply nonempty; [apply kind_text|exact H]|now constructor|now constructor
    |apply convs; [apply kind_text|exact H]|destruct binary; lia|].
    apply firstn_all2. rewrite app_length. cbn [List.length]. unfold printed in X. destruct binary; cbn [kind_shown longest] in X |- *; lia. }
  destruct Hk as [->| ->]; [|exact L]. rewrite finds_kind; [exact L|exact H|exact Hn|now constructor].
Qed.
Lemma single_passed cap chunk binary b k : (512 <= cap)%nat -> b < 256 -> k = None \/ k = Some (kind_shown binary) ->
  load_write_data cap chunk None k (as_is (data_shown binary [b])) = Ok [b].
Proof.
  intros Hc Hb Hk. rewrite <- (passed cap chunk binary [b] k); try assumption; [|now constructor|discriminate|unfold Nlen, can_pass; cbn [List.length]; destruct binary; lia].
  f_equal. rewrite spaced_data by now constructor. unfold as_is, data_shown, printed. cbn [map join]. now rewrite byte_notation.
Qed.

(** ** What does not pass *)
Lemma words_cover t toks c : words_of t toks -> In c t -> is_whitespace c = false -> exists tok, In tok toks /\ In c tok.
Proof.
  intros H. induction H as [b Hb|b tok rest toks Hb Hn Hs Hr H IH]; intros I W.
  - unfold white in Hb. rewrite Forall_forall in Hb. apply Hb in I. congruence.
  - apply in_app_or in I. destruct I as [I|I].
    + unfold white in Hb. rewrite Forall_forall in Hb. apply Hb in I. congruence.
    + apply in_app_or in I. destruct I as [I|I]; [exists tok; split; [now left|exact I]|].
      destruct (IH I W) as (x & X & Y). exists x. split; [now right|exact Y].
Qed.
Lemma comma_utf8 t : In 44 (utf8 t) -> In 44 t.
Proof.
  unfold utf8. intros H. apply in_flat_map in H. destruct H as (c & Hc & I). assert (E : c = 44); [|now subst].
  revert I. unfold utf8_char. repeat (match goal with |- context [if ?x then _ else _] => destruct x end); cbn [In]; intros I;
    repeat (destruct I as [I|I]; [try lia|]); try contradiction.
Qed.
Lemma no_comma_prefix k c : c <> 44 -> ~ In 44 (List.concat (repeat [48; c] k)).
Proof. intros H. induction k as [|k IH]; cbn; [tauto|]. intros [E|[E|I]]; [discriminate|congruence|tauto]. Qed.
Lemma no_comma kind tok b : byte_text kind tok b -> ~ In 44 tok.
Proof.
  assert (N : forall radix s v, number radix s v -> ~ In 44 s).
  { intros radix s v H I. apply number_chars in H. rewrite Forall_forall in H. apply H in I. destruct I as [I|(d & Hd & L)]; [lia|].
    unfold digit in Hd. lia. }
  destruct kind; cbn [byte_text]; [tauto|apply N| |]; intros (k & r & -> & H) I; apply in_app_or in I; (destruct I as [I|I]; [|now apply N in H]).
  - exact (no_comma_prefix k 120 ltac:(discriminate) I).
  - exact (no_comma_prefix k 98 ltac:(discriminate) I).
Qed.
Lemma comma_refused cap chunk kind input : kind <> Binary -> In 44 (firstn cap input) -> load_known_write_data cap chunk kind input = Err tt.
Proof.
  intros Hk I. destruct (load_known_write_data cap chunk kind input) as [d|[]|] eqn:E; [exfalso|reflexivity|now apply load_calm in E].
  apply load_text in E; [|exact Hk]. destruct E as ((t & toks & _ & E & W & F) & _). rewrite E in I. apply comma_utf8 in I.
  destruct (words_cover _ _ _ W I eq_refl) as (tok & J & K). clear - F J K. induction F as [|x y l r H _ IH]; [contradiction|].
  destruct J as [->|J]; [|auto]. now apply no_comma in H.
Qed.
Lemma shown_length binary b : b < 256 -> List.length (byte_shown binary b) = if binary then 10%nat else 4%nat.
Proof.
  intros H. assert (S : forallb (fun b => Nat.eqb (List.length (byte_shown binary b)) (if binary then 10 else 4)) (nrange 0 256) = true)
    by (destruct binary; vm_compute; reflexivity).
  rewrite forallb_forall in S. specialize (S b (in_256 b H)). now apply Nat.eqb_eq in S.
Qed.
Lemma as_is_refused cap chunk binary d k : (512 <= cap)%nat -> Forall (fun b => b < 256) d -> (2 <= List.length d)%nat ->
  k = None \/ k = Some (kind_shown binary) -> load_write_data cap chunk None k (as_is (data_shown binary d)) = Err tt.
Proof.
  intros Hc H Hl Hk. destruct d as [|b [|b' d]]; [cbn in Hl; lia|cbn in Hl; lia|].
  assert (E : as_is (data_shown binary (b :: b' :: d)) = byte_shown binary b ++ 44 :: data_shown binary (b' :: d) ++ [10]).
  { unfold as_is, data_shown. cbn [map join]. rewrite <- !app_assoc. reflexivity. }
  assert (I : In 44 (firstn cap (as_is (data_shown binary (b :: b' :: d))))).
  { rewrite E. pose proof (shown_length binary b (Forall_inv H)) as X. rewrite firstn_app. apply in_or_app. right.
    replace (cap - List.length (byte_shown binary b))%nat with (S (cap - List.length (byte_shown binary b) - 1))%nat
      by (destruct binary; lia). now left. }
  destruct Hk as [->| ->]; cbn [load_write_data]; [|apply comma_refused; [apply kind_text|exact I]].
  assert (A : Forall (fun c => c < 128) (as_is (data_shown binary (b :: b' :: d)))).
  { apply Forall_app. split; [|now constructor]. unfold data_shown. rewrite (map_ext _ _ (byte_notation binary)).
    pose proof (notations binary _ H) as N. clear - N. induction N as [|s l Hs _ IH]; [constructor|]. cbn [join].
    assert (Forall (fun c => c < 128) s) by (eapply Forall_impl; [|exact Hs]; cbv beta; lia).
    destruct l; [assumption|]. apply Forall_app. split; [assumption|]. apply Forall_app. split; [now constructor|exact IH]. }
  pose proof (autodetect cap chunk _ (scalars _ A)) as D. rewrite (utf8_ascii _ A) in D. cbn [load_write_data] in D. rewrite D.
  - apply comma_refused; [|exact I]. rewrite E. destruct binary; discriminate.
  - left. rewrite E. destruct binary; cbn [byte_shown T app]; do 3 eexists; (split; [reflexivity|split; reflexivity]).
Qed.

(** ** What is cut *)
Lemma join_split (l : list text) s r : l <> [] -> join [32] (l ++ s :: r) = join [32] l ++ [32] ++ join [32] (s :: r).
Proof.
  induction l as [|x l IH]; intros H; [now elim H|]. destruct l as [|y l]; [reflexivity|].
  change (join [32] ((x :: y :: l) ++ s :: r)) with (x ++ [32] ++ join [32] ((y :: l) ++ s :: r)).
  rewrite IH by discriminate. cbn [join]. now rewrite <- !app_assoc.
Qed.
Lemma join_fixed (n : nat) (l : list text) : l <> [] -> Forall (fun s => List.length s = n) l ->
  S (List.length (join [32] l)) = ((n + 1) * List.length l)%nat.
Proof.
  intros Hn H. induction H as [|s l Hs Hl IH]; [now elim Hn|]. cbn [join]. destruct l as [|s' l]; [cbn [List.length]; lia|].
  rewrite !app_length. cbn [List.length] in *. specialize (IH ltac:(discriminate)). nia.
Qed.
Lemma join_head (s : text) r : exists z, join [32] (s :: r) = s ++ z.
Proof. cbn [join]. destruct r as [|x r]; [exists []; now rewrite app_nil_r|exists ([32] ++ join [32] (x :: r)); reflexivity]. Qed.
Lemma cut_text (binary : bool) (d1 : list N) (b : N) (d2 : list N) (n : nat) : Forall (fun b => b < 256) d1 -> b < 256 -> d1 <> [] ->
  List.length d1 = (if binary then 46 else 102)%nat -> n = (if binary then 6 else 2)%nat ->
  firstn 512 (printed (kind_shown binary) true (d1 ++ b :: d2) ++ [10]) =
  join [32] (map (notation (kind_shown binary) true) d1 ++ [firstn n (notation (kind_shown binary) true b)]).
Proof.
  intros H Hb Hn L En. unfold printed. rewrite map_app. cbn [map].
  assert (M : map (notation (kind_shown binary) true) d1 <> []) by (destruct d1; [congruence|discriminate]).
  rewrite !join_split by exact M. cbn [join].
  destruct (join_head (notation (kind_shown binary) true b) (map (notation (kind_shown binary) true) d2)) as (z & Z).
  change (match map (notation (kind_shown binary) true) d2 with [] => notation (kind_shown binary) true b | _ => notation (kind_shown binary) true b ++ [32] ++ join [32] (map (notation (kind_shown binary) true) d2) end)
    with (join [32] (notation (kind_shown binary) true b :: map (notation (kind_shown binary) true) d2)). rewrite Z.
  pose proof (join_fixed (if binary then 10 else 4) _ M) as J. rewrite map_length, L in J.
  specialize (J ltac:(apply Forall_map; eapply Forall_impl; [|exact H]; cbv beta; intros x Hx; rewrite <- byte_notation; now apply shown_length)).
  pose proof (shown_length binary b Hb) as SL. rewrite byte_notation in SL.
  rewrite <- !app_assoc, firstn_app. rewrite firstn_all2 by (destruct binary; lia). f_equal.
  rewrite firstn_app. cbn [List.length app].
  replace (512 - List.length (join [32%N] (map (notation (kind_shown binary) true) d1)))%nat with (S n) by (destruct binary; lia).
  cbn [firstn]. cbn [app]. f_equal. rewrite Nat.sub_succ, Nat.sub_0_r, firstn_app.
  replace (n - List.length (notation (kind_shown binary) true b))%nat with O by (destruct binary; lia). cbn [firstn]. now rewrite firstn_nil, app_nil_r.
Qed.
Lemma nibble_check : forallb (fun b => match conv BinaryString (firstn 6 (notation BinaryString true b)) with Ok n => n =? b / 16 | _ => false end)
  (nrange 0 256) = true.
Proof. vm_compute. reflexivity. Qed.
Lemma nibble b : b < 256 -> conv BinaryString (firstn 6 (notation BinaryString true b)) = Ok (b / 16).
Proof.
  intros H. pose proof nibble_check as S. rewrite forallb_forall in S. specialize (S b (in_256 b H)). cbv beta in S.
  destruct (conv _ _) as [n| |]; [|discriminate..]. f_equal. lia.
Qed.
(** Of more than 46 bytes in binary, 46 are passed, and half of the next. *)
Lemma cut_binary chunk d1 b d2 k : Forall (fun b => b < 256) d1 -> b < 256 -> Forall (fun b => b < 256) d2 -> List.length d1 = 46%nat ->
  k = None \/ k = Some BinaryString -> load_write_data 512 chunk None k (spaced (data_shown true (d1 ++ b :: d2))) = Ok (d1 ++ [b / 16]).
Proof.
  intros H1 Hb H2 L Hk. assert (H : Forall (fun b => b < 256) (d1 ++ b :: d2)) by (apply Forall_app; split; [exact H1|now constructor]).
  assert (Hn : d1 <> []) by (destruct d1; [discriminate|discriminate]).
  rewrite (spaced_data true _ H).
  assert (K : load_known_write_data 512 chunk BinaryString (printed BinaryString true (d1 ++ b :: d2) ++ [10]) = Ok (d1 ++ [b / 16])).
  { eapply (load_words _ _ _ (map (notation BinaryString true) d1 ++ [firstn 6 (notation BinaryString true b)]) []); try discriminate.
    - apply Forall_app. split; [exact (notations true d1 H1)|]. constructor; [|constructor].
      pose proof (notations true [b] ltac:(now constructor)) as N. apply Forall_inv in N. cbn [kind_shown] in N.
      rewrite <- (firstn_skipn 6 (notation BinaryString true b)) in N. apply Forall_app in N. exact (proj1 N).
    - apply Forall_app. split; [apply nonempty; [discriminate|exact H1]|]. constructor; [|constructor]. discriminate.
    - constructor.
    - constructor.
    - apply Forall2_app; [apply convs; [discriminate|exact H1]|]. constructor; [now apply nibble|constructor].
    - rewrite app_length. cbn [List.length]. lia.
    - rewrite app_nil_r. exact (cut_text true d1 b d2 6 H1 Hb Hn L eq_refl). }
  destruct Hk as [->| ->]; [|exact K]. rewrite (finds_kind 512 chunk true); [exact K|exact H| |now constructor]. destruct d1; discriminate.
Qed.
(** More than 102 bytes in hexadecimal are refused. *)
Lemma cut_hex chunk d k : Forall (fun b => b < 256) d -> (102 < List.length d)%nat ->
  k = None \/ k = Some Hex -> load_write_data 512 chunk None k (spaced (data_shown false d)) = Err tt.
Proof.
  intros H Hl Hk. rewrite (spaced_data false _ H).
  assert (E : exists d1 b d2, d = d1 ++ b :: d2 /\ List.length d1 = 102%nat).
  { destruct (skipn 102 d) as [|b d2] eqn:S; [assert (X := skipn_length 102 d); rewrite S in X; cbn [List.length] in X; lia|].
    exists (firstn 102 d), b, d2. split; [rewrite <- S; symmetry; apply firstn_skipn|]. apply firstn_length_le. lia. }
  destruct E as (d1 & b & d2 & -> & L). apply Forall_app in H as H'. destruct H' as [H1 H2]. assert (Hb := Forall_inv H2).
  assert (Hn : d1 <> []) by (destruct d1; [discriminate|discriminate]).
  assert (K : load_known_write_data 512 chunk Hex (printed Hex true (d1 ++ b :: d2) ++ [10]) = Err tt).
  { destruct (load_known_write_data _ _ _ _) as [x|[]|] eqn:E; [exfalso|reflexivity|now apply load_calm in E].
    apply load_text in E; [|discriminate]. destruct E as ((t & toks & St & E & W & F) & _).
    pose proof (cut_text false d1 b d2 2 H1 Hb Hn L eq_refl) as C. cbn [kind_shown] in C. rewrite C in E.
    set (l := map (notation Hex true) d1 ++ [T "0x"]). assert (E' : join [32] l = utf8 t) by exact E. clear E. rename E' into E.
    assert (A : Forall (Forall (fun c => 48 <= c <= 122)) l).
    { apply Forall_app. split; [exact (notations false d1 H1)|]. constructor; [|constructor]. repeat constructor; cbn; lia. }
    assert (U : t = join [32] l).
    { pose proof (printed_ascii _ A) as A'. rewrite <- (utf8_ascii _ A') in E. assert (V1 : from_utf8 (utf8 (join [32] l)) = Some (join [32] l)) by (apply from_utf8_spec; split; [now apply scalars|reflexivity]).
      assert (V2 : from_utf8 (utf8 (join [32] l)) = Some t) by (apply from_utf8_spec; split; [exact St|exact E]). congruence. }
    assert (W' : words_of (join [32] l) l).
    { apply printed_words. apply Forall_app. split.
      - apply Forall_forall. intros s Hs. split.
        + pose proof (nonempty Hex true d1 ltac:(discriminate) H1) as Q. rewrite Forall_forall in Q. now apply Q.
        + pose proof (notations false d1 H1) as Q. rewrite Forall_forall in Q. now apply plain_solid, Q.
      - constructor; [|constructor]. split; [discriminate|]. repeat constructor. }
    apply split_ws_ok in W, W'. rewrite U in W. rewrite W' in W. subst toks. unfold l in F.
    apply Forall2_app_inv_l in F. destruct F as (x1 & x2 & _ & F & _). inversion F as [|? ? ? ? B]; subst.
    apply conv_ok in B; [|discriminate]. discriminate B. }
  destruct Hk as [->| ->]; [|exact K]. rewrite (finds_kind 512 chunk false); [exact K|exact H| |now constructor]. destruct d1; discriminate.
Qed.
