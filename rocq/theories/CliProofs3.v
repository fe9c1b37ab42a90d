(** Proofs about write data on the command line (C52). *)
From Coq Require Import String.
From Verif Require Import Tac SpecCli ConfigProofs DecodeProofs CliProofs CliProofs2.
From Coq Require Import Lia.
Import ListNotations.
Open Scope N_scope.

(** ** Words *)
Lemma words_white a t toks : white a -> words_of t toks -> words_of (a ++ t) toks.
Proof.
  intros Ha H. destruct H as [b Hb|b tok rest toks Hb Hn Hs Hr H].
  - constructor. apply Forall_app. now split.
  - rewrite app_assoc. constructor; try assumption. apply Forall_app. now split.
Qed.
Lemma split_ws_sound s : forall cur, solid cur ->
  words_of (rev cur ++ s) (split_ws_acc cur s).
Proof.
  induction s as [|x s IH]; intros cur Hc; cbn [split_ws_acc].
  - rewrite app_nil_r. destruct cur as [|c cur]; [constructor; constructor|].
    rewrite <- (app_nil_r (rev (c :: cur))) at 1. apply (words_more [] _ [] []).
    + constructor.
    + cbn. intros A. now apply app_eq_nil in A.
    + now apply Forall_rev.
    + now left.
    + constructor. constructor.
  - destruct (is_whitespace x) eqn:E.
    + assert (W : words_of (x :: s) (split_ws_acc [] s)).
      { apply (words_white [x]); [constructor; [exact E|constructor]|]. apply (IH []). constructor. }
      destruct cur as [|c cur]; [exact W|]. apply (words_more [] (rev (c :: cur)) (x :: s)).
      * constructor.
      * cbn. intros A. now apply app_eq_nil in A.
      * now apply Forall_rev.
      * right. eauto.
      * exact W.
    + specialize (IH (x :: cur)). cbn [rev] in IH. rewrite <- app_assoc in IH. apply IH. now constructor.
Qed.
Lemma ws_acc_app tok : solid tok -> forall cur rest, split_ws_acc cur (tok ++ rest) = split_ws_acc (rev tok ++ cur) rest.
Proof.
  induction 1 as [|c tok Hc _ IH]; intros cur rest; [reflexivity|]. cbn [app split_ws_acc rev]. rewrite Hc, IH.
  now rewrite <- app_assoc.
Qed.
Lemma ws_acc_white a : white a -> forall s, split_ws_acc [] (a ++ s) = split_ws_acc [] s.
Proof. induction 1 as [|c a Hc _ IH]; intros s; [reflexivity|]. cbn [app split_ws_acc]. now rewrite Hc. Qed.
Lemma split_ws_ok t toks : split_whitespace t = toks <-> words_of t toks.
Proof.
  unfold split_whitespace. split.
  - intros <-. apply (split_ws_sound t []). constructor.
  - induction 1 as [a Ha|a tok rest toks Ha Hn Hs Hr H IH].
    + rewrite <- (app_nil_r a). now rewrite ws_acc_white.
    + rewrite ws_acc_white by exact Ha. rewrite ws_acc_app by exact Hs. rewrite app_nil_r.
      assert (E : exists c r, rev tok = c :: r).
      { destruct (rev tok) eqn:E; [|eauto]. apply (f_equal (@rev _)) in E. rewrite rev_involutive in E. now destruct Hn. }
      destruct E as (c & r & E).
      destruct Hr as [->|(w & rest' & -> & Hw)]; cbn [split_ws_acc] in *.
      * rewrite E, <- E, rev_involutive. now rewrite <- IH.
      * rewrite Hw in *. rewrite E, <- E, rev_involutive. now rewrite IH.
Qed.

(** ** Tokens *)
Lemma strip_ok p : forall s r, strip_prefix p s = Some r <-> s = p ++ r.
Proof.
  induction p as [|x p IH]; intros [|y s] r; cbn; try (split; congruence).
  destruct (N.eqb_spec x y) as [->|E].
  - rewrite IH. split; congruence.
  - split; congruence.
Qed.
Lemma trim_matches_ok p : p <> [] -> forall fuel s, (List.length s <= fuel)%nat ->
  exists k, s = List.concat (repeat p k) ++ trim_matches fuel p s.
Proof.
  intros Hp. induction fuel as [|n IH]; intros s H; [now exists 0%nat|]. cbn [trim_matches].
  destruct (strip_prefix p s) as [r|] eqn:E; [|now exists 0%nat].
  apply strip_ok in E. subst s. destruct p as [|x p]; [congruence|].
  destruct (IH r) as (k & Hk). { rewrite app_length in H. cbn in H. lia. }
  exists (S k). cbn [repeat List.concat]. rewrite <- app_assoc, <- Hk. reflexivity.
Qed.
Lemma trim_matches_done p r : p <> [] -> (forall z, r <> p ++ z) -> forall k fuel,
  (List.length (List.concat (repeat p k) ++ r) <= fuel)%nat ->
  trim_matches fuel p (List.concat (repeat p k) ++ r) = r.
Proof.
  intros Hp Hr. assert (Hn : strip_prefix p r = None).
  { destruct (strip_prefix p r) as [z|] eqn:E; [|reflexivity]. apply strip_ok in E. now destruct (Hr z). }
  induction k as [|k IH]; intros fuel H.
  - cbn in *. destruct fuel; [reflexivity|]. cbn. now rewrite Hn.
  - cbn [repeat List.concat] in *. rewrite <- app_assoc in *. rewrite app_length in H. destruct p as [|x p]; [congruence|].
    destruct fuel as [|fuel]; [cbn in H; lia|]. cbn [trim_matches].
    rewrite (proj2 (strip_ok (x :: p) _ _) eq_refl). apply IH. cbn in H. lia.
Qed.
Lemma prefixed radix p tok b : 1 <= radix <= 36 -> p <> [] ->
  (forall z v, ~ number radix (p ++ z) v) ->
  parse_u8 radix (trim_start_matches p tok) = Some b <->
  exists k r, tok = List.concat (repeat p k) ++ r /\ number radix r b.
Proof.
  intros Hr Hp Hx. unfold trim_start_matches. rewrite parse_number by exact Hr. split.
  - intros H. destruct (trim_matches_ok p Hp (List.length tok) tok (le_n _)) as (k & E). eauto.
  - intros (k & r & -> & H). rewrite trim_matches_done; [exact H|exact Hp| |lia].
    intros z ->. exact (Hx z b H).
Qed.
Lemma not_number radix a c z v : (forall d, digit c d -> radix <= d) -> c <> 43 -> ~ number radix (a :: c :: z) v.
Proof.
  intros Hd Hc H. apply number_chars in H. apply Forall_inv_tail, Forall_inv in H. destruct H as [H|(d & H & L)]; [congruence|].
  apply Hd in H. lia.
Qed.
Lemma conv_ok kind tok b : kind <> Binary -> (conv kind tok = Ok b <-> byte_text kind tok b).
Proof.
  intros Hk. unfold conv.
  assert (R : forall o : option N, match o with Some n => Ok n | None => Err tt end = Ok b <-> o = Some b).
  { intros [n|]; split; congruence. }
  rewrite R. clear R. destruct kind; cbn [byte_text].
  - congruence.
  - apply parse_number; lia.
  - apply prefixed; [lia|discriminate|]. intros z v. cbn. apply not_number; [|lia]. intros d H. unfold digit in H. lia.
  - apply prefixed; [lia|discriminate|]. intros z v. cbn. apply not_number; [|lia]. intros d H. unfold digit in H. lia.
Qed.
Theorem read_u8_ok s b : read_u8 s = Ok b <-> (exists r, s = T "0x" ++ r /\ number 16 r b) \/ number 10 s b.
Proof.
  unfold read_u8. destruct (strip_prefix (T "0x") s) as [r|] eqn:E.
  - apply strip_ok in E. subst s. transitivity (parse_u8 16 r = Some b).
    { destruct (parse_u8 16 r); split; congruence. }
    rewrite parse_number by lia. split; [intros H; left; eauto|]. intros [(r' & E & H)|H].
    + apply app_inv_head in E. now subst.
    + exfalso. revert H. cbn. apply not_number; [|lia]. intros d H. unfold digit in H. lia.
  - transitivity (parse_u8 10 s = Some b). { destruct (parse_u8 10 s); split; congruence. }
    rewrite parse_number by lia. split; [now right|]. intros [(r & -> & _)|H]; [|exact H].
    rewrite (proj2 (strip_ok (T "0x") _ _) eq_refl) in E. discriminate.
Qed.
Theorem read_u8_calm s : read_u8 s <> Panic.
Proof. unfold read_u8. destruct (strip_prefix _ s) as [r|]; [destruct (parse_u8 16 r)|destruct (parse_u8 10 s)]; discriminate. Qed.

(** ** Loading *)
Lemma conv_calm kind tok : conv kind tok <> Panic.
Proof. unfold conv. now destruct (match kind with Hex => _ | _ => _ end). Qed.
Lemma Forall2_iff {A B} (R S : A -> B -> Prop) l r : (forall x y, R x y <-> S x y) -> (Forall2 R l r <-> Forall2 S l r).
Proof. intros H. split; induction 1; constructor; try assumption; now apply H. Qed.
Theorem load_text cap chunk kind input data : kind <> Binary ->
  load_known_write_data cap chunk kind input = Ok data <->
  writes kind (firstn cap input) data /\ (List.length data <= 128)%nat.
Proof.
  intros Hk. transitivity (match from_utf8 (firstn cap input) with
    | None => Err tt
    | Some buf => data <-? omapM (conv kind) (split_whitespace buf) ;;
        if Nat.leb (List.length data) MAX_BYTES then Ok data else Err tt end = Ok data).
  { destruct kind; [congruence| | |]; reflexivity. }
  unfold writes. split.
  - destruct (from_utf8 _) as [t|] eqn:Eu; [|discriminate]. apply from_utf8_spec in Eu. destruct Eu as (Hs & Hu).
    destruct (omapM _ _) as [d| |] eqn:Em; cbn [obind]; [|discriminate|discriminate].
    destruct (Nat.leb _ _) eqn:El; [|discriminate]. intros [= ->]. apply Nat.leb_le in El. split; [|exact El].
    exists t, (split_whitespace t). repeat split; [exact Hs|exact Hu|now apply split_ws_ok|].
    apply omapM_ok in Em. eapply Forall2_iff; [|exact Em]. intros x y. symmetry. now apply conv_ok.
  - intros ((t & toks & Hs & Hu & Hw & Hf) & L).
    rewrite (proj2 (from_utf8_spec _ t) (conj Hs Hu)). apply split_ws_ok in Hw. rewrite Hw.
    rewrite (proj2 (omapM_ok (conv kind) toks data)); cbn [obind].
    + apply Nat.leb_le in L. unfold MAX_BYTES. now rewrite L.
    + eapply Forall2_iff; [|exact Hf]. intros x y. now apply conv_ok.
Qed.
Theorem load_calm cap chunk kind input : load_known_write_data cap chunk kind input <> Panic.
Proof.
  assert (H : match from_utf8 (firstn cap input) with
    | None => Err tt
    | Some buf => data <-? omapM (conv kind) (split_whitespace buf) ;;
        if Nat.leb (List.length data) MAX_BYTES then Ok data else Err tt end <> Panic).
  { destruct (from_utf8 _) as [t|]; [|discriminate]. pose proof (omapM_calm (conv kind) (split_whitespace t) (conv_calm kind)).
    destruct (omapM _ _); cbn [obind]; [destruct (Nat.leb _ _); discriminate|discriminate|congruence]. }
  destruct kind; [discriminate|exact H|exact H|exact H].
Qed.
Theorem load_binary cap chunk input : load_known_write_data cap chunk Binary input = Ok (firstn (Nat.min chunk 128) input).
Proof. reflexivity. Qed.
Theorem load_binary_whole cap chunk input : (List.length input <= chunk)%nat -> (List.length input <= 128)%nat ->
  load_known_write_data cap chunk Binary input = Ok input.
Proof. intros H1 H2. rewrite load_binary, firstn_all2; [reflexivity|lia]. Qed.

(** ** Autodetection *)
Lemma lead_not_cont c : scalar c -> exists a r, utf8_char c = a :: r /\ is_cont a = false.
Proof.
  intros Hs. unfold utf8_char, is_cont. unfold scalar in Hs.
  destruct (c <? 128) eqn:E1; [exists c, []; split; [reflexivity|lia]|].
  destruct (c <? 2048) eqn:E2; [eexists _, _; split; [reflexivity|lia]|].
  destruct (c <? 65536) eqn:E3; eexists _, _; (split; [reflexivity|lia]).
Qed.
Lemma first_two_two a b t : Forall scalar t -> first_two (a :: b :: utf8 t) = Ok [a; b].
Proof.
  intros H. destruct t as [|c t]; [reflexivity|]. cbn [utf8 flat_map].
  destruct (lead_not_cont c (Forall_inv H)) as (x & r & -> & E). cbn. now rewrite E.
Qed.
Lemma cont_80 x : x < 64 -> is_cont (128 + x) = true.
Proof. unfold is_cont. lia. Qed.
Lemma kind_of_two (a b : N) (r : text) :
  (if text_eqb [a; b] (T "0b") then BinaryString else if text_eqb [a; b] (T "0x") then Hex else Decimal) = announced_kind (a :: b :: r).
Proof.
  destruct (text_eqb [a; b] (T "0b")) eqn:E1; [apply text_eqb_eq in E1; now injection E1 as -> ->|].
  destruct (text_eqb [a; b] (T "0x")) eqn:E2; [apply text_eqb_eq in E2; now injection E2 as -> ->|].
  assert (N1 : ~ (a = 48 /\ b = 98)). { intros [-> ->]. discriminate E1. }
  assert (N2 : ~ (a = 48 /\ b = 120)). { intros [-> ->]. discriminate E2. }
  clear E1 E2. destruct (N.eq_dec a 48) as [->|Ha].
  - assert (Hb : b <> 98 /\ b <> 120) by lia. clear N1 N2. destruct Hb as [B1 B2]. cbn.
    repeat (try congruence; match goal with |- context [match ?x with _ => _ end] => is_var x; destruct x end); reflexivity.
  - clear N1 N2. cbn. repeat (try congruence; match goal with |- context [match ?x with _ => _ end] => is_var x; destruct x end); reflexivity.
Qed.
Lemma announced_big a r : a <> 48 -> announced_kind (a :: r) = Decimal.
Proof.
  intros H. cbn. repeat (try congruence; match goal with |- context [match ?x with _ => _ end] => is_var x; destruct x end); reflexivity.
Qed.
Theorem autodetect cap chunk t : Forall scalar t -> two_bytes t ->
  load_write_data cap chunk None None (utf8 t) = load_known_write_data cap chunk (announced_kind t) (utf8 t).
Proof.
  intros Hs H. unfold load_write_data. rewrite (proj2 (from_utf8_spec (utf8 t) t) (conj Hs eq_refl)).
  destruct H as [(a & b & r & -> & Ha & Hb)|(a & r & -> & Ha)].
  - assert (E : utf8 (a :: b :: r) = a :: b :: utf8 r).
    { cbn [utf8 flat_map]. unfold utf8_char at 1 2. replace (a <? 128) with true by lia. replace (b <? 128) with true by lia. reflexivity. }
    rewrite E. unfold load_write_data_autodetect_kind. rewrite first_two_two.
    + cbn [obind]. rewrite (kind_of_two a b r). reflexivity.
    + now apply Forall_inv_tail, Forall_inv_tail in Hs.
  - assert (E : utf8 (a :: r) = (192 + a / 64) :: (128 + a mod 64) :: utf8 r).
    { cbn [utf8 flat_map]. unfold utf8_char at 1. replace (a <? 128) with false by lia. replace (a <? 2048) with true by lia. reflexivity. }
    rewrite E. unfold load_write_data_autodetect_kind. rewrite first_two_two by now apply Forall_inv_tail in Hs.
    cbn [obind]. rewrite (kind_of_two _ _ (utf8 r)). rewrite !announced_big; [reflexivity|lia|lia].
Qed.
Theorem autodetect_panics cap chunk t : Forall scalar t -> t <> [] -> ~ two_bytes t ->
  load_write_data cap chunk None None (utf8 t) = Panic.
Proof.
  intros Hs Hn H. unfold load_write_data. rewrite (proj2 (from_utf8_spec (utf8 t) t) (conj Hs eq_refl)).
  destruct t as [|a t]; [congruence|]. apply Forall_inv in Hs as Ha.
  assert (Q : utf8 (a :: t) <> []). { cbn. destruct (char_nonempty a) as (x & r & ->). discriminate. }
  assert (P : first_two (utf8 (a :: t)) = Panic).
  { destruct (N.ltb_spec a 128) as [L|L].
    - destruct t as [|b t].
      + unfold utf8, utf8_char; cbn [flat_map]. replace (a <? 128) with true by lia. reflexivity.
      + destruct (N.ltb_spec b 128) as [Lb|Lb]; [exfalso; apply H; left; eauto 8|].
        cbn [utf8 flat_map]. unfold utf8_char at 1 2. replace (a <? 128) with true by lia. replace (b <? 128) with false by lia.
        destruct (b <? 2048); [|destruct (b <? 65536)]; cbn [app first_two]; rewrite cont_80;
          try reflexivity; apply N.mod_lt; lia.
    - destruct (N.ltb_spec a 2048) as [L2|L2]; [exfalso; apply H; right; eauto|].
      cbn [utf8 flat_map]. unfold utf8_char at 1. replace (a <? 128) with false by lia. replace (a <? 2048) with false by lia.
      destruct (a <? 65536); cbn [app first_two]; rewrite cont_80; try reflexivity; apply N.mod_lt; lia. }
  unfold load_write_data_autodetect_kind. rewrite P. destruct (utf8 (a :: t)); [congruence|reflexivity].
Qed.

(** ** Round trips *)
Definition textual (k : InputKind) : Prop := k <> Binary.
Definition longest (k : InputKind) : nat := match k with Hex => 4 | BinaryString => 10 | _ => 3 end.
Definition notation_check (k : InputKind) (p : bool) (b : N) : bool :=
  let s := notation k p b in
  match conv k s with Ok v => v =? b | _ => false end
  && forallb (fun c => (48 <=? c) && (c <=? 122)) s
  && Nat.leb 1 (List.length s) && Nat.leb (List.length s) (longest k).
Lemma notations_check : forallb (fun b => forallb (fun k => notation_check k false b && notation_check k true b) [Decimal; Hex; BinaryString])
  (nrange 0 256) = true.
Proof. vm_compute. reflexivity. Qed.
Lemma in_256 b : b < 256 -> In b (nrange 0 256).
Proof. intros H. apply in_nrange. lia. Qed.
Lemma notation_ok k p b : k <> Binary -> b < 256 ->
  conv k (notation k p b) = Ok b /\ Forall (fun c => 48 <= c <= 122) (notation k p b) /\
  (1 <= List.length (notation k p b) <= longest k)%nat.
Proof.
  intros Hk Hb. pose proof notations_check as H. rewrite forallb_forall in H.
  specialize (H b (in_256 b Hb)). cbv beta in H. rewrite forallb_forall in H.
  assert (I : In k [Decimal; Hex; BinaryString]) by (destruct k; cbn; tauto). apply H in I. clear H.
  apply andb_prop in I. assert (C : notation_check k p b = true) by (destruct p; tauto). clear I. unfold notation_check in C.
  apply andb_prop in C. destruct C as [C C4]. apply andb_prop in C. destruct C as [C C3]. apply andb_prop in C. destruct C as [C1 C2].
  repeat split.
  - destruct (conv k _) as [v| |]; try discriminate. f_equal. lia.
  - apply Forall_forall. intros c Hc. rewrite forallb_forall in C2. apply C2 in Hc. lia.
  - now apply Nat.leb_le.
  - now apply Nat.leb_le.
Qed.
Lemma plain_solid s : Forall (fun c => 48 <= c <= 122) s -> solid s.
Proof. intros H. eapply Forall_impl; [|exact H]. cbv beta. intros c Hc. unfold is_whitespace. lia. Qed.
Lemma printed_words l : Forall (fun s => s <> [] /\ solid s) l -> words_of (join [32] l) l.
Proof.
  induction 1 as [|s l (Hn & Hs) Hl IH]; [constructor; constructor|]. cbn [join]. destruct l as [|s' l].
  - rewrite <- (app_nil_r s) at 1. apply (words_more [] s []); try assumption; [constructor|now left].
  - cbn [app]. apply (words_more [] s (32 :: join [32] (s' :: l))); try assumption; [constructor|right; eauto|].
    apply (words_white [32]); [constructor; [reflexivity|constructor]|exact IH].
Qed.
Lemma printed_ascii l : Forall (Forall (fun c => 48 <= c <= 122)) l -> Forall (fun c => c < 128) (join [32] l).
Proof.
  induction 1 as [|s l Hs Hl IH]; [constructor|].
  assert (Hs' : Forall (fun c => c < 128) s). { eapply Forall_impl; [|exact Hs]. cbv beta. lia. }
  cbn [join]. destruct l as [|s' l]; [exact Hs'|].
  apply Forall_app. split; [exact Hs'|]. cbn [app]. constructor; [lia|exact IH].
Qed.
Lemma printed_length k p data : k <> Binary -> Forall (fun b => b < 256) data ->
  (List.length (printed k p data) <= (longest k + 1) * List.length data - 1)%nat.
Proof.
  intros Hk. unfold printed. induction 1 as [|b l Hb Hl IH]; [cbn; lia|]. cbn [map join List.length].
  destruct (notation_ok k p b Hk Hb) as (_ & _ & L). destruct (map _ l) as [|s r] eqn:E.
  - apply map_eq_nil in E. subst. cbn. lia.
  - rewrite !app_length. cbn [List.length]. assert (1 <= List.length l)%nat by (destruct l; [discriminate|cbn; lia]). nia.
Qed.
Theorem round_trip cap chunk k p data : k <> Binary -> Forall (fun b => b < 256) data -> (List.length data <= 128)%nat ->
  (List.length (printed k p data) <= cap)%nat ->
  load_known_write_data cap chunk k (printed k p data) = Ok data.
Proof.
  intros Hk Hd Hl Hc. apply load_text; [exact Hk|]. split; [|exact Hl]. rewrite firstn_all2 by exact Hc.
  assert (A : Forall (Forall (fun c => 48 <= c <= 122)) (map (notation k p) data)).
  { apply Forall_map. eapply Forall_impl; [|exact Hd]. cbv beta. intros b Hb. now apply (notation_ok k p b Hk Hb). }
  pose proof (printed_ascii _ A) as A'. exists (printed k p data), (map (notation k p) data). repeat split.
  - eapply Forall_impl; [|exact A']. cbv beta. intros c H. left. lia.
  - symmetry. now apply utf8_ascii.
  - apply printed_words. apply Forall_map. eapply Forall_impl; [|exact Hd]. cbv beta. intros b Hb.
    destruct (notation_ok k p b Hk Hb) as (_ & N1 & N2). split; [|now apply plain_solid]. intros E. rewrite E in N2. cbn in N2. lia.
  - clear - Hk Hd. induction Hd as [|b l Hb _ IH]; constructor; [|exact IH]. apply conv_ok; [exact Hk|]. now apply notation_ok.
Qed.
Lemma announced_printed k p data : k <> Binary -> Forall (fun b => b < 256) data -> data <> [] ->
  (2 <= List.length (printed k p data))%nat -> announced_kind (printed k p data) = k.
Proof.
  intros Hk Hd Hn H2. destruct data as [|b data]; [congruence|]. apply Forall_inv in Hd as Hb.
  assert (P : exists r, printed k p (b :: data) = notation k p b ++ r /\ (r = [] \/ exists r', r = 32 :: r')).
  { unfold printed. cbn [map join]. destruct (map _ data); [exists []; rewrite app_nil_r; auto|]. eexists. split; [reflexivity|]. right. cbn. eauto. }
  destruct P as (r & E & Hr). rewrite E in *. destruct k; [congruence| |reflexivity|reflexivity].
  destruct (notation_ok Decimal p b ltac:(discriminate) Hb) as (C & _ & L).
  assert (F : Forall (fun c => 48 <= c <= 57) (notation Decimal p b)).
  { apply conv_ok in C; [|discriminate]. cbn [byte_text] in C. revert C. cbn [notation]. intros C.
    assert (forallb (fun b => forallb (fun c => (48 <=? c) && (c <=? 57)) (digits_of 8 10 b)) (nrange 0 256) = true) as S by (vm_compute; reflexivity).
    rewrite forallb_forall in S. specialize (S b (in_256 b Hb)). cbv beta in S. apply Forall_forall.
    rewrite forallb_forall in S. intros c Hc. apply S in Hc. lia. }
  destruct (notation Decimal p b) as [|c0 [|c1 s]]; [cbn in L; lia| |].
  - destruct Hr as [->|(r' & ->)]; [cbn in H2; lia|]. cbn [app]. rewrite <- (kind_of_two c0 32 r').
    destruct (text_eqb _ _) eqn:T1; [apply text_eqb_eq in T1; discriminate T1|].
    destruct (text_eqb [c0; 32] (T "0x")) eqn:T2; [apply text_eqb_eq in T2; discriminate T2|]. reflexivity.
  - cbn [app]. rewrite <- (kind_of_two c0 c1 (s ++ r)). apply Forall_inv_tail, Forall_inv in F.
    destruct (text_eqb _ _) eqn:T1; [apply text_eqb_eq in T1; injection T1 as _ ->; lia|].
    destruct (text_eqb [c0; c1] (T "0x")) eqn:T2; [apply text_eqb_eq in T2; injection T2 as _ ->; lia|]. reflexivity.
Qed.
Theorem round_trip_auto cap chunk k p data : k <> Binary -> Forall (fun b => b < 256) data -> (List.length data <= 128)%nat ->
  (2 <= List.length (printed k p data) <= cap)%nat ->
  load_write_data cap chunk None None (printed k p data) = Ok data.
Proof.
  intros Hk Hd Hl [H2 Hc].
  assert (Hn : data <> []). { intros ->. cbn in H2. lia. }
  assert (A : Forall (fun c => c < 128) (printed k p data)).
  { apply printed_ascii. apply Forall_map. eapply Forall_impl; [|exact Hd]. cbv beta. intros b Hb. now apply (notation_ok k p b Hk Hb). }
  rewrite <- (utf8_ascii _ A). rewrite autodetect.
  - rewrite (utf8_ascii _ A), announced_printed by assumption. now apply round_trip.
  - eapply Forall_impl; [|exact A]. cbv beta. intros c H. left. lia.
  - left. destruct (printed k p data) as [|x [|y r]]; [cbn in H2; lia|cbn in H2; lia|].
    exists x, y, r. split; [reflexivity|]. split; [exact (Forall_inv A)|exact (Forall_inv (Forall_inv_tail A))].
Qed.
Lemma decimal_trip cap chunk p data : (512 <= cap)%nat -> Forall (fun b => b < 256) data -> (List.length data <= 128)%nat ->
  load_known_write_data cap chunk Decimal (printed Decimal p data) = Ok data.
Proof.
  intros Hc Hb Hl. apply round_trip; try assumption; [discriminate|].
  pose proof (printed_length Decimal p data ltac:(discriminate) Hb) as X. cbn [longest] in X. lia.
Qed.
Lemma short_trip cap chunk k p data : (512 <= cap)%nat -> k <> Binary -> Forall (fun b => b < 256) data ->
  (List.length data <= match k with Hex => 102 | BinaryString => 46 | _ => 128 end)%nat ->
  load_known_write_data cap chunk k (printed k p data) = Ok data /\
  ((2 <= List.length (printed k p data))%nat -> load_write_data cap chunk None None (printed k p data) = Ok data).
Proof.
  intros Hc Hk Hb Hl. pose proof (printed_length k p data Hk Hb) as X.
  assert (Hlen : (List.length data <= 128)%nat) by (destruct k; lia).
  assert (Hfit : (List.length (printed k p data) <= cap)%nat) by (destruct k; cbn [longest] in X; [congruence|lia..]).
  split; [now apply round_trip|]. intros H2. apply round_trip_auto; try assumption. lia.
Qed.
