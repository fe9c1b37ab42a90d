(** Proofs about saving and restoring memory with the tool (C102). *)
From Coq Require Import String Lia.
From Verif Require Export RestoreProofs.
From Verif Require Import Tac Spec ModuleIdProofs ModuleIdProps ResultsProofs DecodeProofs CliProofs CliProofs3 CliProofs5 CliProofs6 MessageProofs LiveProofs LiveProofs2 LiveProofs3 ToolProofs ToolProofs3 ToolProofs4.
Import ListNotations.
Open Scope N_scope.
Local Open Scope list_scope.

Lemma one_entry {A} (l : list (N * A)) i : NoDup (map fst l) -> (forall p, In p l -> fst p = i) -> (exists x, In (i, x) l) -> exists x, l = [(i, x)].
Proof.
  intros D H (x & I). destruct l as [|[j y] [|[k z] l]]; [contradiction|exists y; f_equal; f_equal; exact (H (j, y) (or_introl eq_refl))|].
  exfalso. pose proof (H (j, y) (or_introl eq_refl)) as E1. pose proof (H (k, z) (or_intror (or_introl eq_refl))) as E2. cbn [fst] in E1, E2. subst.
  cbn [map fst] in D. inversion D as [|? ? N ?]. apply N. now left.
Qed.
Lemma area_bytes mem g k n : byte_memory mem -> Forall (fun b => b < 256) (area mem g k n).
Proof. intros H. apply Forall_forall. intros b I. apply in_map_iff in I. destruct I as (o & <- & _). apply H. Qed.
Lemma bytes_forall d : Forall (fun b => b < 256) d -> bytes d = true.
Proof. intros H. apply forallb_forall. intros b I. rewrite Forall_forall in H. apply H in I. unfold u8. lia. Qed.
Lemma area_length mem g k n : List.length (area mem g k n) = n.
Proof. unfold area. now rewrite map_length, nrange_length. Qed.
Lemma area_nth mem g k n o : k <= o < k + N.of_nat n -> nth (N.to_nat (o - k)) (area mem g k n) 0 = mem g o.
Proof.
  intros H. unfold area. revert k H. induction n as [|n IH]; intros k H; [lia|]. cbn [nrange map].
  destruct (N.eq_dec o k) as [->|Ne]; [now rewrite N.sub_diag|].
  replace (N.to_nat (o - k)) with (S (N.to_nat (o - (k + 1)))) by lia. cbn [nth]. apply IH. lia.
Qed.

(** What the read shows. *)
Lemma saved St (a : honest St) view : honest_ok a -> drives a view -> forall show_f32 show g (w w1 w' : world St) m scr i page binary offset len sep,
  ar_cmd g = CRead page binary offset len (data_only sep) -> ar_ignore_errors g = false -> addressing (honest_sp a) g w w1 m -> m < 2 ^ 64 ->
  (forall j, member j m <-> j = i) -> (forall j, byte_memory (sl_cell (view (w_sp w) j))) -> offset < 256 -> 1 <= len < 256 ->
  main (honest_sp a) show_f32 show g w = (w', Ok scr) -> ~ error_line show i scr ->
  exists p, args_page page = Ok p /\ sc_out scr = [Line (data_shown binary (area (sl_cell (view (w_sp w) i)) p offset (N.to_nat len)))].
Proof.
  intros Hok Hd show_f32 show g w w1 w' m scr i page binary offset len sep Hc Hi Ha Hm Hone Hb Ho Hl E Herr.
  assert (R : true_screen show_f32 show (ar_cmd g) m (view (w_sp w)) scr).
  { eapply run_true; try eassumption. intros. rewrite Hc in H. injection H as <- <- <- <- <-. lia. }
  rewrite Hc in R. cbn [true_screen] in R. destruct R as [(Z & _)|(_ & p & Ep & r & Pr & Tr & Al)]; [lia|].
  exists p. split; [exact Ep|]. destruct (one_entry (result_iter r) i) as (x & Ex).
  - apply zip_nodup.
  - intros [j y] I. apply Tr in I. cbn [fst]. now apply Hone.
  - destruct (Al i) as [(x & S)|S]; [now apply Hone| |contradiction]. exists x. exact S.
  - assert (S : succeeds r i x) by (unfold succeeds, at_port; change (In (i, x) (result_iter r)); rewrite Ex; now left).
    apply Tr in S. destruct S as [_ ->]. injection Pr as <-. unfold print_read_data, shown_as, data_only, table. rewrite Ex.
    cbn [pa_parseable pa_omit_header pa_output pa_separator negb map fst snd join app lines display_header]. f_equal. f_equal.
    apply fmt_bytes_ok, bytes_forall, area_bytes, Hb.
Qed.
(** ** Long texts *)
Lemma utf8_same x t : Forall (fun c => c < 128) x -> Forall scalar t -> x = utf8 t -> t = x.
Proof.
  intros A St E. pose proof (utf8_ascii _ A) as U.
  assert (V1 : from_utf8 (utf8 x) = Some x) by (apply from_utf8_spec; split; [now apply scalars|reflexivity]).
  assert (V2 : from_utf8 (utf8 x) = Some t) by (apply from_utf8_spec; split; [exact St|now rewrite U]). congruence.
Qed.
Lemma words_before l rest toks : Forall (fun s => s <> [] /\ solid s) l -> words_of rest toks ->
  words_of (List.concat (map (fun s => s ++ [32]) l) ++ rest) (l ++ toks).
Proof.
  intros H W. induction H as [|s l (Hn & Hs) _ IH]; [exact W|]. cbn [map List.concat app]. rewrite <- !app_assoc.
  apply (words_more [] s ([32] ++ List.concat (map (fun s => s ++ [32]) l) ++ rest)); [constructor|exact Hn|exact Hs| |].
  - right. do 2 eexists. split; reflexivity.
  - apply (words_white [32]); [now repeat constructor|exact IH].
Qed.
Lemma printed_before l s r : join [32] (l ++ s :: r) = List.concat (map (fun s => s ++ [32]) l) ++ join [32] (s :: r).
Proof.
  induction l as [|x l IH]; [reflexivity|]. cbn [map List.concat]. rewrite <- !app_assoc, <- IH.
  cbn [app join]. destruct (l ++ s :: r) eqn:E; [now destruct l|reflexivity].
Qed.
Lemma before_length n l : Forall (fun s : text => List.length s = n) l -> List.length (List.concat (map (fun s => s ++ [32]) l)) = ((n + 1) * List.length l)%nat.
Proof. induction 1 as [|s l Hs _ IH]; [now rewrite Nat.mul_0_r|]. cbn [map List.concat List.length]. rewrite !app_length, IH, Hs. cbn [List.length]. nia. Qed.
Lemma pairs_length {A B} (R : A -> B -> Prop) l r : Forall2 R l r -> List.length l = List.length r.
Proof. induction 1; cbn; congruence. Qed.
(** A text that shows more than eight bytes never loads as eight bytes or fewer. *)
Lemma loads_many cap chunk binary d k d' : (512 <= cap)%nat -> Forall (fun b => b < 256) d -> (9 <= List.length d)%nat ->
  k = None \/ k = Some (kind_shown binary) -> load_write_data cap chunk None k (spaced (data_shown binary d)) = Ok d' -> 9 <= Nlen d' <= 128.
Proof.
  intros Hc H Hl Hk E. rewrite (spaced_data binary _ H) in E.
  assert (Hn : d <> []) by (intros ->; cbn in Hl; lia).
  assert (L : load_known_write_data cap chunk (kind_shown binary) (printed (kind_shown binary) true d ++ [10]) = Ok d').
  { destruct Hk as [->| ->]; [|exact E]. rewrite finds_kind in E; [exact E|exact H|exact Hn|now constructor]. }
  clear E. apply load_text in L; [|apply kind_text]. destruct L as ((t & toks & St & E & W & F) & L).
  assert (A : Forall (fun c => c < 128) (printed (kind_shown binary) true d ++ [10])).
  { apply Forall_app. split; [apply printed_ascii, notations; exact H|now constructor]. }
  assert (U : t = firstn cap (printed (kind_shown binary) true d ++ [10])).
  { apply utf8_same; [|exact St|exact E]. apply Forall_forall. intros c I. rewrite Forall_forall in A. apply A.
    rewrite <- (firstn_skipn cap (printed (kind_shown binary) true d ++ [10])). apply in_or_app. now left. }
  pose proof (firstn_skipn 8 d) as S. destruct (skipn 8 d) as [|b d2] eqn:S2; [assert (X := skipn_length 8 d); rewrite S2 in X; cbn [List.length] in X; lia|].
  assert (L1 : List.length (firstn 8 d) = 8%nat) by (apply firstn_length_le; lia). set (d1 := firstn 8 d) in *.
  rewrite <- S in H. apply Forall_app in H as H'. destruct H' as [H1 H2]. assert (Hb := Forall_inv H2).
  set (f := notation (kind_shown binary) true) in *.
  assert (G : exists z, printed (kind_shown binary) true d ++ [10] = List.concat (map (fun s => s ++ [32]) (map f d1)) ++ (f b ++ z)).
  { rewrite <- S. unfold printed. rewrite map_app. cbn [map]. destruct (join_head (f b) (map f d2)) as (z & Z).
    exists (z ++ [10]). fold f. rewrite printed_before, Z, <- !app_assoc. reflexivity. }
  destruct G as (z & G). rewrite G in U.
  assert (Len : forall x, x < 256 -> List.length (f x) = if binary then 10%nat else 4%nat).
  { intros x Hx. unfold f. rewrite <- byte_notation. now apply shown_length. }
  pose proof (before_length (if binary then 10 else 4) (map f d1)) as B. rewrite map_length, L1 in B.
  specialize (B ltac:(apply Forall_map; eapply Forall_impl; [|exact H1]; cbv beta; exact Len)).
  rewrite firstn_app, firstn_all2 in U by (destruct binary; lia). rewrite B in U.
  rewrite firstn_app, firstn_all2 in U by (rewrite (Len b Hb); destruct binary; lia).
  set (rest := firstn _ z) in U.
  assert (W' : words_of t (map f d1 ++ split_whitespace (f b ++ rest))).
  { rewrite U. apply words_before; [|now apply split_ws_ok].
    apply Forall_map. eapply Forall_impl; [|exact H1]. cbv beta. intros x Hx.
    destruct (notation_ok _ true x (kind_text binary) Hx) as (_ & N1 & N2). split; [|now apply plain_solid].
    intros Z. unfold f in Z. rewrite Z in N2. cbn in N2. lia. }
  assert (W2 : exists y ys, split_whitespace (f b ++ rest) = y :: ys).
  { destruct (split_whitespace (f b ++ rest)) as [|y ys] eqn:Q; [exfalso|eauto]. apply split_ws_ok in Q.
    destruct (notation_ok _ true b (kind_text binary) Hb) as (_ & N1 & N2). fold f in N1, N2.
    destruct (f b) as [|c s]; [cbn in N2; lia|]. apply Forall_inv in N1.
    assert (C : is_whitespace c = false) by (unfold is_whitespace; lia).
    destruct (words_cover _ _ c Q (or_introl eq_refl) C) as (tok & [] & _). }
  destruct W2 as (y & ys & W2). rewrite W2 in W'. apply split_ws_ok in W, W'. rewrite W' in W. subst toks.
  apply pairs_length in F. rewrite app_length, map_length, L1 in F. cbn [List.length] in F. unfold Nlen. lia.
Qed.

(** ** Writing *)
Lemma write_length St (sp : St -> Rpc -> St * reply) show_f32 show g (v v1 v' : world St) m page input offset scr :
  ar_cmd g = CWrite page input offset -> addressing sp g v v1 m -> main sp show_f32 show g v = (v', Ok scr) ->
  exists p d, args_page page = Ok p /\ args_data input = Ok d /\ Nlen d <= write_limit p.
Proof.
  intros Hc Ha E. unfold addressing in Ha. unfold main in E. change (match ar_transceivers g with Some t => t | None => TAll end) with (named g) in E.
  rewrite Ha, Hc in E. cbn [run_cmd] in E. unfold cmd_write in E. destruct (args_data input) as [d| |]; [|discriminate|discriminate].
  destruct (255 <? Nlen d); [discriminate|].
  match type of E with context [cbind ?x ?y v1] => destruct (cbind x y v1) as [w2 o] eqn:Y end.
  destruct o as [r| |]; cbn [omap_err omap] in E; [|discriminate|discriminate].
  apply cbind_inv in Y. destruct Y as (w3 & p & Y1 & Y). unfold cret in Y1. injection Y1 as <- Yp.
  apply cbind_inv in Y. destruct Y as (w4 & wr & Y1 & X). unfold cret in Y1. injection Y1 as <- Yw.
  exists p, d. split; [exact Yp|]. split; [reflexivity|]. destruct (write_new p offset (Nlen d)) as [wr'| |] eqn:Q; [|discriminate|discriminate].
  assert (Q' : write_new p offset (Nlen d) = Ok (mkWrite p offset (Nlen d))).
  { rewrite Q. unfold write_new in Q. destruct (verify_write p offset (Nlen d)); cbn in Q; congruence. }
  apply (proj1 (write_new_spec p offset (Nlen d))) in Q'. unfold access_ok in Q'. lia.
Qed.
Lemma shown_input binary mem p offset len input : byte_memory mem -> 1 <= len < 256 ->
  typed binary (spaced (data_shown binary (area mem p offset (N.to_nat len)))) input ->
  len <= 8 /\ args_data input = Ok (area mem p offset (N.to_nat len)) \/
  8 < len /\ forall d, args_data input = Ok d -> 9 <= Nlen d <= 128.
Proof.
  intros Hb Hl (Hcap & Hf & Hk & Hs). set (d := area mem p offset (N.to_nat len)) in *.
  assert (Fd : Forall (fun b => b < 256) d) by now apply area_bytes.
  assert (Ld : List.length d = N.to_nat len) by apply area_length. unfold args_data. rewrite Hf, Hs.
  destruct (N.le_gt_cases len 8) as [C|C]; [left|right]; (split; [exact C|]).
  - apply RestoreProofs.passed; try assumption; [intros Z; rewrite Z in Ld; cbn in Ld; lia|]. unfold Nlen, can_pass. rewrite Ld. destruct binary; lia.
  - intros d' E. eapply loads_many; try eassumption. rewrite Ld. lia.
Qed.
(** What the write does. *)
Lemma written St (a : honest St) view : honest_ok a -> drives a view -> forall show_f32 show g (v v1 v' : world St) m scr j page input offset binary mem p len,
  ar_cmd g = CWrite page input offset -> ar_ignore_errors g = false -> addressing (honest_sp a) g v v1 m -> m < 2 ^ 64 -> byte_memory mem ->
  args_page page = Ok p -> 1 <= len < 256 -> typed binary (spaced (data_shown binary (area mem p offset (N.to_nat len)))) input ->
  main (honest_sp a) show_f32 show g v = (v', Ok scr) -> member j m -> ~ error_line show j scr ->
  restored p offset len (mkSlot 0 LedOff mem) (view (w_sp v) j) (view (w_sp v') j).
Proof.
  intros Hok Hd show_f32 show g v v1 v' m scr j page input offset binary mem p len Hc Hi Ha Hm Hb Ep Hl Ht E Hj Herr.
  assert (O : obeyed (ar_cmd g) (view (w_sp v) j) (view (w_sp v') j)).
  { eapply run_obeyed; try eassumption. rewrite Hc. discriminate. }
  set (d := area mem p offset (N.to_nat len)) in *.
  assert (Fd : Forall (fun b => b < 256) d) by now apply area_bytes.
  assert (Ld : List.length d = N.to_nat len) by apply area_length.
  assert (A : args_data input = Ok d).
  { destruct (shown_input binary mem p offset len input Hb Hl Ht) as [[_ A]|[C A]]; [exact A|exfalso].
    destruct (write_length _ _ _ _ _ _ _ _ _ _ _ _ _ Hc Ha E) as (p' & d' & _ & X & Y). apply A in X. unfold write_limit in Y. destruct p'; lia. }
  rewrite Hc in O. unfold obeyed in O. destruct (pins (view (w_sp v) j)) as [[? ?] ?].
  destruct O as (p' & d' & Ep' & Ed' & O). rewrite Ep in Ep'. rewrite A in Ed'. injection Ep' as <-. injection Ed' as <-.
  destruct (O (bytes_forall _ Fd)) as (O1 & O2 & O3). assert (Nl : Nlen d = len) by (unfold Nlen; rewrite Ld; lia). rewrite Nl in O3.
  split; [exact O1|]. split; [exact O2|]. intros q o. destruct (O3 q o) as [X Y]. split; [|exact Y]. intros H. rewrite (X H). cbn [sl_cell].
  apply area_nth. destruct H as [_ H]. cbn [wr_offset wr_len] in H. lia.
Qed.
(** Both together. *)
Lemma restore St (a : honest St) view : honest_ok a -> drives a view -> forall show_f32 show g (w w1 w' : world St) m scr i page binary offset len sep,
  ar_cmd g = CRead page binary offset len (data_only sep) -> ar_ignore_errors g = false -> addressing (honest_sp a) g w w1 m -> m < 2 ^ 64 ->
  (forall j, member j m <-> j = i) -> (forall j, byte_memory (sl_cell (view (w_sp w) j))) -> offset < 256 -> 1 <= len < 256 ->
  main (honest_sp a) show_f32 show g w = (w', Ok scr) -> ~ error_line show i scr ->
  exists p t, args_page page = Ok p /\ sc_out scr = [Line t] /\
  forall h (v v1 v' : world St) n scr' j input, ar_cmd h = CWrite page input offset -> typed binary (spaced t) input ->
    ar_ignore_errors h = false -> addressing (honest_sp a) h v v1 n -> n < 2 ^ 64 ->
    main (honest_sp a) show_f32 show h v = (v', Ok scr') -> member j n -> ~ error_line show j scr' ->
    restored p offset len (view (w_sp w) i) (view (w_sp v) j) (view (w_sp v') j).
Proof.
  intros Hok Hd show_f32 show g w w1 w' m scr i page binary offset len sep Hc Hi Ha Hm Hone Hb Ho Hl E Herr.
  destruct (saved St a view Hok Hd show_f32 show g w w1 w' m scr i page binary offset len sep Hc Hi Ha Hm Hone Hb Ho Hl E Herr) as (p & Ep & Es).
  exists p. eexists. split; [exact Ep|]. split; [exact Es|]. intros h v v1 v' n scr' j input Hc' Ht Hi' Ha' Hn E' Hj Herr'.
  exact (written St a view Hok Hd show_f32 show h v v1 v' n scr' j page input offset binary _ p len Hc' Hi' Ha' Hn (Hb i) Ep Hl Ht E' Hj Herr').
Qed.
(** A longer window is never written. *)
Lemma too_long St (sp : St -> Rpc -> St * reply) show_f32 show h (v v1 : world St) n page input offset binary mem p len :
  ar_cmd h = CWrite page input offset -> addressing sp h v v1 n -> args_page page = Ok p -> byte_memory mem ->
  typed binary (spaced (data_shown binary (area mem p offset (N.to_nat len)))) input -> write_limit p < len < 256 ->
  exists e, main sp show_f32 show h v = (v1, Err e).
Proof.
  intros Hc Ha Ep Hb Ht Hl. unfold addressing in Ha. unfold main. change (match ar_transceivers h with Some t => t | None => TAll end) with (named h).
  rewrite Ha, Hc. cbn [run_cmd]. rewrite Ep.
  assert (R : forall d, Nlen d < 256 -> write_limit p < Nlen d -> exists e, cmd_write sp n (Ok p) offset (Ok d) v1 = (v1, Err (Some e))).
  { intros d H1 H2. apply cmd_write_refused; [exact H1|]. unfold access_ok. lia. }
  assert (Hl' : 1 <= len < 256) by (unfold write_limit in Hl; destruct p; lia).
  destruct (shown_input binary mem p offset len input Hb Hl' Ht) as [[C A]|[C A]].
  - rewrite A. destruct (R (area mem p offset (N.to_nat len))) as (e & ->); [| |eexists; reflexivity]; unfold Nlen; rewrite area_length; lia.
  - destruct (args_data input) as [d|[]|] eqn:D.
    + specialize (A d eq_refl). destruct (R d) as (e & ->); [lia|unfold write_limit; destruct p; lia|eexists; reflexivity].
    + eexists. reflexivity.
    + exfalso. destruct Ht as (Hcap & Hf & Hk & Hs). unfold args_data in D. rewrite Hf, Hs in D.
      assert (Fd : Forall (fun b => b < 256) (area mem p offset (N.to_nat len))) by now apply area_bytes.
      rewrite (spaced_data binary _ Fd) in D. destruct Hk as [K|K]; rewrite K in D; [|now apply load_calm in D].
      rewrite finds_kind in D; [now apply load_calm in D|exact Fd| |now constructor].
      intros Z. apply (f_equal (@List.length N)) in Z. rewrite area_length in Z. cbn in Z. lia.
Qed.
