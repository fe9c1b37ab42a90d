(** Proofs about the printed tables (C65): the tables themselves. *)
From Coq Require Import Lia String.
From Verif Require Import Tac Text SpecTable TableProofs CliProofs CliProofs5 ResultsProofs ControllerProofs ModuleIdProofs.
Import ListNotations.
Open Scope N_scope.

Lemma number_u8 n : n < 256 -> show_u8 n = number_shown n.
Proof. apply text_sweep. vm_compute. reflexivity. Qed.
Lemma hex_ok b : b < 256 -> hex02 b = hex_shown b.
Proof. apply text_sweep. vm_compute. reflexivity. Qed.
Lemma dec_digits fuel : forall n, show_dec fuel n = digits_of fuel 10 n.
Proof.
  induction fuel as [|k IH]; intros n; [reflexivity|]. cbn [show_dec digits_of]. rewrite IH. unfold hex_digit.
  pose proof (N.mod_lt n 10 ltac:(lia)). destruct (N.ltb_spec (n mod 10) 10); [reflexivity|lia].
Qed.
Lemma digits_fuel radix : 2 <= radix -> forall a b n, n < radix ^ N.of_nat a -> n < radix ^ N.of_nat b -> (0 < a)%nat -> (0 < b)%nat ->
  digits_of a radix n = digits_of b radix n.
Proof.
  intros Hr. induction a as [|a IH]; intros b n Ha Hb Pa Pb; [lia|]. destruct b as [|b]; [lia|]. cbn [digits_of].
  destruct (N.ltb_spec n radix) as [|Hn]; [reflexivity|]. f_equal.
  assert (Qa : (0 < a)%nat) by (destruct a; [change (radix ^ N.of_nat 1) with (radix * 1) in Ha; lia|lia]).
  assert (Qb : (0 < b)%nat) by (destruct b; [change (radix ^ N.of_nat 1) with (radix * 1) in Hb; lia|lia]).
  rewrite Nat2N.inj_succ, N.pow_succ_r' in Ha, Hb.
  apply IH; try assumption; apply N.div_lt_upper_bound; lia.
Qed.
Lemma plain_number n : plain (number_shown n).
Proof. apply plain_digits. lia. Qed.
Lemma plain_hex n : plain (hex_shown n).
Proof.
  unfold hex_shown, pad. apply plain_app; [|apply plain_digits; lia]. apply Forall_forall. intros c Hc. apply repeat_spec in Hc. lia.
Qed.
Lemma port_len i : i < 64 -> List.length (port_shown i) = 4%nat.
Proof. intros H. assert (X : forallb (fun i => Nat.eqb (List.length (port_shown i)) 4) (nrange 0 64) = true) by (vm_compute; reflexivity).
  apply Nat.eqb_eq. exact (forallb_sweep _ 64 X i H). Qed.
Lemma port_unpad i : unpad (port_shown i) = port_shown i.
Proof.
  unfold port_shown. induction (4 - List.length (digits_of 8 10 i))%nat as [|n IH].
  - apply unpad_plain, (digits_ends 10 i 7). lia.
  - cbn [repeat app unpad]. rewrite IH. destruct n; cbn [repeat app]; [|reflexivity].
    destruct (digits_of 8 10 i) eqn:E; [|reflexivity]. exfalso. cbn [digits_of] in E. now apply app_eq_nil in E as [_ E].
Qed.
Lemma plain_port i : plain (port_shown i).
Proof. apply plain_app; [apply plain_spaces|apply plain_digits; lia]. Qed.
(** A cell padded on the right. *)
Lemma unpad_left w s t : ends_plain s = true -> (exists n, t = repeat 32 n) -> unpad (align_left w s ++ t) = s.
Proof.
  intros H (n & ->). unfold align_left. rewrite <- app_assoc, <- repeat_app, unpad_spaces. now apply unpad_plain.
Qed.
Lemma cells_port r s b i t : i < 64 -> s = (4 + List.length t)%nat -> (exists n, t = repeat 32 n) ->
  cells_from 0 (s :: r) (align_right WIDTH (show_u8 i) ++ t ++ b) = port_shown i :: cells_from s r b.
Proof.
  intros Hi Hs (n & ->). unfold WIDTH. rewrite port_shown_ok by lia. rewrite app_assoc, cells_step.
  - rewrite unpad_spaces, port_unpad. reflexivity.
  - rewrite app_length, port_len by exact Hi. lia.
Qed.
Lemma cells_left from r s b w x t : (List.length x <= w)%nat -> ends_plain x = true -> s = (from + w + List.length t)%nat ->
  (exists n, t = repeat 32 n) -> cells_from from (s :: r) (align_left w x ++ t ++ b) = x :: cells_from s r b.
Proof.
  intros Hw Hx Hs Ht. rewrite app_assoc, cells_step; [now rewrite unpad_left|].
  unfold align_left. rewrite !app_length, repeat_length. lia.
Qed.
Lemma two_spaces : exists n, T "  " = repeat 32 n. Proof. now exists 2%nat. Qed.
Lemma one_space : exists n, T " " = repeat 32 n. Proof. now exists 1%nat. Qed.

Section Told.
  Context {P : Type} (m : N) (f : N -> P + TransceiverError) (r : Result P) (Hm : m < 2 ^ 64) (R : reports m f r).
  Lemma told_iter : result_iter r = told_ports m f.
  Proof. apply iter_told; [now apply mask_ok_lt|now apply rrep_reports]. Qed.
  Lemma told_in i x : In (i, x) (told_ports m f) -> i < 64 /\ member i m /\ f i = inl x.
  Proof. apply told_ports_in. Qed.
End Told.

Lemma names_power f c : c = 10 \/ c = 58 -> ~ In c (power_field_name f).
Proof. intros H. apply plain_no; [|lia]. apply plainb_ok. destruct f; reflexivity. Qed.

Lemma power_table m f r : m < 2 ^ 64 -> reports m f r ->
  columns [6; 13]%nat [T "Port"; T "Power"; T "Software-override"]
    (fun i x => [port_shown i; power_name (pm_state x); override_word (pm_override x)]) (told_ports m f)
    (fun h => print_power_mode r (OutDefault h)) /\
  fields_split power_field_name power_value (told_ports m f) (fun h fs sep => print_power_mode r (OutParseable h fs sep)) /\
  (forall i x f, plain (power_value i x f)).
Proof.
  intros Hm R. unfold print_power_mode. rewrite (told_iter m f r Hm R). split; [|split].
  - apply table_columns; [reflexivity|]. intros i [s o] Hi. apply told_in in Hi as (Hi & _). unfold cells. cbn [pm_state pm_override].
    rewrite cells_port; [|exact Hi|reflexivity|apply two_spaces]. f_equal.
    rewrite cells_left; [|unfold POWER_WIDTH; destruct s; cbn; lia|destruct s; reflexivity|reflexivity|apply two_spaces].
    now destruct s, o as [[]|].
  - apply table_fields. intros i x g Hi. apply told_in in Hi as (Hi & _). destruct g; cbn [power_value].
    + apply number_u8. lia.
    + now destruct (pm_state x).
    + now destruct (pm_override x) as [[]|].
  - intros i x []; cbn [power_value]; [apply plain_number| |]; apply plainb_ok; [now destruct (pm_state x)|now destruct (pm_override x) as [[]|]].
Qed.
Lemma power_lines m f r : m < 2 ^ 64 -> reports m f r -> (forall h, whole_lines (print_power_mode r (OutDefault h))) /\
  (forall h fs sep, ~ In 10 sep -> whole_lines (print_power_mode r (OutParseable h fs sep))).
Proof.
  intros Hm R. unfold print_power_mode. rewrite (told_iter m f r Hm R). split.
  - intros h. apply lines_whole, table_lines.
    + apply plain_no; [|lia]. apply plainb_ok. reflexivity.
    + intros i [s o] Hi. apply told_in in Hi as (Hi & _). apply plain_no; [|lia]. unfold WIDTH. rewrite port_shown_ok by lia.
      apply plain_app; [apply plain_port|]. apply plainb_ok. now destruct s, o as [[]|].
  - intros h fs sep Hs. apply lines_whole, table_lines_parse; [exact Hs|intros g; now apply names_power; left|].
    intros i [s o] g Hi. apply told_in in Hi as (Hi & _). apply plain_no; [|lia]. destruct g.
    + rewrite number_u8 by lia. apply plain_number.
    + apply plainb_ok. now destruct s.
    + apply plainb_ok. now destruct o as [[]|].
Qed.

(** ** Identifiers *)
Lemma ident_sweep (p : benum -> bool) : forallb (fun b => p (ident_of_byte b)) (nrange 0 256) = true -> forall b, b < 256 -> p (ident_of_byte b) = true.
Proof. intros H b Hb. exact (forallb_sweep _ 256 H b Hb). Qed.
Definition ident_ok (id : Identifier) : Prop := exists b, b < 256 /\ id = ident_of_byte b.
Lemma ident_all p : forallb (fun b => p (ident_of_byte b)) (nrange 0 256) = true -> forall id, ident_ok id -> p id = true.
Proof. intros H id (b & Hb & ->). now apply ident_sweep. Qed.
Lemma ident_byte id : ident_ok id -> enum_to_u8 id < 256.
Proof. intros H. apply N.ltb_lt. revert id H. apply ident_all. vm_compute. reflexivity. Qed.
Lemma ident_plain id : ident_ok id -> plain (enum_display tbl_Identifier id).
Proof. intros H. apply plainb_ok. revert id H. apply ident_all. vm_compute. reflexivity. Qed.
Lemma ident_ends id : ident_ok id -> ends_plain (enum_display tbl_Identifier id) = true.
Proof. intros H. revert id H. apply ident_all. vm_compute. reflexivity. Qed.
Lemma names_ident f : plain (ident_field_name f).
Proof. apply plainb_ok. now destruct f. Qed.
Lemma hex_ends b : b < 256 -> ends_plain (T "0x" ++ hex_shown b) = true.
Proof. intros H. assert (X : forallb (fun b => ends_plain (T "0x" ++ hex_shown b)) (nrange 0 256) = true) by (vm_compute; reflexivity).
  exact (forallb_sweep _ 256 X b H). Qed.
Lemma hex_len b : b < 256 -> List.length (hex_shown b) = 2%nat.
Proof. intros H. rewrite <- hex_ok by exact H. reflexivity. Qed.

Lemma ident_table m f r : m < 2 ^ 64 -> reports m f r -> (forall i x, member i m -> f i = inl x -> ident_ok x) ->
  columns [5; 11]%nat [T "Port"; T "Ident"; T "Description"]
    (fun i x => [port_shown i; T "0x" ++ hex_shown (enum_to_u8 x); enum_display tbl_Identifier x]) (told_ports m f)
    (fun h => print_module_identifier r (OutDefault h)) /\
  fields_split ident_field_name ident_value (told_ports m f) (fun h fs sep => print_module_identifier r (OutParseable h fs sep)) /\
  (forall i x f, ident_ok x -> plain (ident_value i x f)).
Proof.
  intros Hm R Hid. unfold print_module_identifier. rewrite (told_iter m f r Hm R). split; [|split].
  - apply table_columns; [reflexivity|]. intros i x Hi. apply told_in in Hi as (Hi & Hx & Hf). pose proof (Hid i x Hx Hf) as H.
    pose proof (ident_byte x H) as Hb. unfold cells. rewrite hex_ok by exact Hb.
    rewrite cells_port; [|exact Hi|reflexivity|apply one_space]. f_equal.
    rewrite cells_left; [|rewrite app_length, hex_len by exact Hb; unfold ID_BYTE_WIDTH; cbn; lia|now apply hex_ends|reflexivity|apply one_space].
    f_equal. cbn [cells_from]. now rewrite unpad_plain by now apply ident_ends.
  - apply table_fields. intros i x g Hi. apply told_in in Hi as (Hi & Hx & Hf). pose proof (ident_byte x (Hid i x Hx Hf)).
    destruct g; cbn [ident_value]; [apply number_u8; lia|now rewrite hex_ok|reflexivity].
  - intros i x g H. destruct g; cbn [ident_value]; [apply plain_number|apply plain_app; [apply plainb_ok; reflexivity|apply plain_hex]|now apply ident_plain].
Qed.
Lemma ident_lines m f r : m < 2 ^ 64 -> reports m f r -> (forall i x, member i m -> f i = inl x -> ident_ok x) ->
  (forall h, whole_lines (print_module_identifier r (OutDefault h))) /\
  (forall h fs sep, ~ In 10 sep -> whole_lines (print_module_identifier r (OutParseable h fs sep))).
Proof.
  intros Hm R Hid. destruct (ident_table m f r Hm R Hid) as (_ & _ & Pl). unfold print_module_identifier. rewrite (told_iter m f r Hm R). split.
  - intros h. apply lines_whole, table_lines.
    + apply plain_no; [|lia]. apply plainb_ok. reflexivity.
    + intros i x Hi. apply told_in in Hi as (Hi & Hx & Hf). pose proof (Hid i x Hx Hf) as H. apply plain_no; [|lia].
      unfold WIDTH. rewrite port_shown_ok by lia. rewrite hex_ok by now apply ident_byte.
      apply plain_app; [apply plain_port|]. apply plain_app; [apply plainb_ok; reflexivity|].
      apply plain_app; [apply plain_app; [apply (Pl i x FIdentIdent H)|apply plain_spaces]|].
      apply plain_app; [apply plainb_ok; reflexivity|apply (Pl i x FIdentDescription H)].
  - intros h fs sep Hs. apply lines_whole, table_lines_parse; [exact Hs|intros g; apply plain_no; [apply names_ident|lia]|].
    intros i x g Hi. apply told_in in Hi as (Hi & Hx & Hf). pose proof (Hid i x Hx Hf) as H. pose proof (ident_byte x H) as Hb.
    apply plain_no; [|lia]. destruct g; [rewrite number_u8 by lia; apply plain_number| |].
    + rewrite hex_ok by exact Hb. apply (Pl i x FIdentIdent H).
    + now apply ident_plain.
Qed.

(** ** LEDs *)
Lemma led_table m f r : m < 2 ^ 64 -> reports m f r ->
  columns [5]%nat [T "Port"; T "LED"] (fun i x => [port_shown i; led_word x]) (told_ports m f)
    (fun h => print_led_state r (OutDefault h)) /\
  fields_split led_field_name led_value (told_ports m f) (fun h fs sep => print_led_state r (OutParseable h fs sep)) /\
  (forall i x f, plain (led_value i x f)).
Proof.
  intros Hm R. unfold print_led_state. rewrite (told_iter m f r Hm R). split; [|split].
  - apply table_columns; [reflexivity|]. intros i s Hi. apply told_in in Hi as (Hi & _). unfold cells.
    rewrite cells_port; [|exact Hi|reflexivity|apply one_space]. f_equal. now destruct s.
  - apply table_fields. intros i x g Hi. apply told_in in Hi as (Hi & _). destruct g; cbn [led_value]; [apply number_u8; lia|now destruct x].
  - intros i x []; cbn [led_value]; [apply plain_number|apply plainb_ok; now destruct x].
Qed.
Lemma led_lines m f r : m < 2 ^ 64 -> reports m f r -> (forall h, whole_lines (print_led_state r (OutDefault h))) /\
  (forall h fs sep, ~ In 10 sep -> whole_lines (print_led_state r (OutParseable h fs sep))).
Proof.
  intros Hm R. unfold print_led_state. rewrite (told_iter m f r Hm R). split.
  - intros h. apply lines_whole, table_lines.
    + apply plain_no; [|lia]. apply plainb_ok. reflexivity.
    + intros i s Hi. apply told_in in Hi as (Hi & _). apply plain_no; [|lia]. unfold WIDTH. rewrite port_shown_ok by lia.
      apply plain_app; [apply plain_port|]. apply plainb_ok. now destruct s.
  - intros h fs sep Hs. apply lines_whole, table_lines_parse; [exact Hs|intros g; apply plain_no; [apply plainb_ok; now destruct g|lia]|].
    intros i s g Hi. apply told_in in Hi as (Hi & _). apply plain_no; [|lia]. destruct g.
    + rewrite number_u8 by lia. apply plain_number.
    + apply plainb_ok. now destruct s.
Qed.
