(** Proofs about the rows that xcvradm shows (C98). *)
From Coq Require Import String.
From Verif Require Export SpecRows.
From Verif Require Import Tac Spec ModuleIdProofs ModuleIdProps ResultsProofs DecodeProofs2 CliProofs5 SpecTable SpecCodes CodesProofs TableProofs2 TableProofs3.
Import ListNotations.
Open Scope N_scope.

Lemma rows_of {P} show m (tr : N -> P -> Prop) print scr head (f : N -> P -> text) row :
  (forall r, print r = Ok (lines (head ++ map (fun p => f (fst p) (snd p)) (result_iter r)))) ->
  (forall i x, i < 256 -> tr i x -> f i x = row i) -> tells_all show m tr print scr -> one_row_each show m head row scr.
Proof.
  intros Hp Hf (r & Ep & Ht & Ha). rewrite Hp in Ep. injection Ep as Ep. exists (map fst (result_iter r)).
  split; [apply zip_sorted|]. split; [|split].
  - intros i Hi. apply in_map_iff in Hi. destruct Hi as ((j & x) & <- & Hx). now apply (Ht _ _ Hx).
  - intros i Hi. destruct (Ha i Hi) as [[x Hx]|H]; [left|now right]. apply in_map_iff. exists (i, x). now split.
  - rewrite <- Ep, map_map. apply (f_equal lines), f_equal2; [reflexivity|]. apply map_ext_in. intros (i & x) Hx. cbn [fst snd].
    apply Hf; [|now apply (Ht _ _ Hx)]. apply in_combine_l, in_to_indices in Hx. lia.
Qed.
Lemma rows_of_each {P} show m (tr : N -> P -> Prop) print scr head (f : N -> P -> text) (row : N -> text -> Prop) :
  (forall r, (forall i x, In (i, x) (result_iter r) -> member i m /\ tr i x) ->
     print r = Ok (lines (head ++ map (fun p => f (fst p) (snd p)) (result_iter r)))) ->
  (forall i x, i < 256 -> member i m -> tr i x -> row i (f i x)) -> tells_all show m tr print scr -> one_row_of_each show m head row scr.
Proof.
  intros Hp Hf (r & Ep & Ht & Ha). rewrite Hp in Ep by exact Ht. injection Ep as Ep. exists (map fst (result_iter r)), (map (fun p => f (fst p) (snd p)) (result_iter r)).
  split; [apply zip_sorted|]. split; [|split; [|split]].
  - intros i Hi. apply in_map_iff in Hi. destruct Hi as ((j & x) & <- & Hx). now apply (Ht _ _ Hx).
  - intros i Hi. destruct (Ha i Hi) as [[x Hx]|H]; [left|now right]. apply in_map_iff. exists (i, x). now split.
  - assert (F : Forall (fun p => row (fst p) (f (fst p) (snd p))) (result_iter r)).
    { apply Forall_forall. intros (i & x) Hx. destruct (Ht _ _ Hx) as [Hm Hr]. apply Hf; [|exact Hm|exact Hr].
      apply in_combine_l, in_to_indices in Hx. cbn [fst]. lia. }
    clear - F. induction F; cbn [map]; constructor; assumption.
  - now rewrite <- Ep.
Qed.
Lemma ident_columns b : b < 256 ->
  (fun b => T " " ++ align_left ID_BYTE_WIDTH (T "0x" ++ hex02 (enum_to_u8 (ident_of_byte b))) ++ T " " ++ enum_display tbl_Identifier (ident_of_byte b)) b =
  (fun b => T " 0x" ++ hex_shown b ++ T "  " ++ (if b =? 0x19 then T "QSFP 8X Pluggable" else std_text std_identifiers b)) b.
Proof. apply text_sweep. vm_compute. reflexivity. Qed.
Section Rows.
  Context (show_f32 : f32 -> text) (show : TransceiverError -> text) (m : N) (V : N -> slot) (scr : screen).
  Lemma power_rows args : pa_parseable args = false -> true_screen show_f32 show (CPower args) m V scr ->
    one_row_each show m (heads (pa_omit_header args) (T "Port  Power  Software-override"))
      (fun i => match slot_mode (V i) with Some x => power_row i x | None => [] end) scr.
  Proof.
    intros Hp. cbn [true_screen]. unfold shown_as. rewrite Hp. apply rows_of with
      (f := fun port md => align_right WIDTH (show_u8 port) ++ T "  " ++ align_left POWER_WIDTH (power_state_debug (pm_state md)) ++ T "  " ++ override_text (pm_override md)).
    - intros r. now destruct (pa_omit_header args).
    - intros i x Hi ->. unfold WIDTH. rewrite port_shown_ok by exact Hi. unfold power_row. now destruct (pm_state x), (pm_override x) as [[|]|].
  Qed.
  Lemma led_rows args : pa_parseable args = false -> true_screen show_f32 show (CLeds args) m V scr ->
    one_row_each show m (heads (pa_omit_header args) (T "Port LED")) (fun i => led_row i (sl_led (V i))) scr.
  Proof.
    intros Hp. cbn [true_screen]. unfold shown_as. rewrite Hp. apply rows_of with (f := fun port s => align_right WIDTH (show_u8 port) ++ T " " ++ led_debug s).
    - intros r. now destruct (pa_omit_header args).
    - intros i x Hi ->. unfold WIDTH. rewrite port_shown_ok by exact Hi. reflexivity.
  Qed.
  Lemma ident_rows args : pa_parseable args = false -> (forall i, byte_memory (sl_cell (V i))) -> true_screen show_f32 show (CIdentify args) m V scr ->
    one_row_each show m (heads (pa_omit_header args) (T "Port Ident Description"))
      (fun i => ident_row i (sl_cell (V i) (PageSff SffLower) 0)) scr.
  Proof.
    intros Hp Hb. cbn [true_screen]. unfold shown_as. rewrite Hp. apply rows_of with
      (f := fun port id => align_right WIDTH (show_u8 port) ++ T " " ++ align_left ID_BYTE_WIDTH (T "0x" ++ hex02 (enum_to_u8 id)) ++ T " " ++ enum_display tbl_Identifier id).
    - intros r. now destruct (pa_omit_header args).
    - intros i x Hi ->. unfold WIDTH. rewrite port_shown_ok by exact Hi. unfold slot_kind, kind_of, ident_row.
      assert (B : sl_cell (V i) (PageSff SffLower) 0 < 256) by apply Hb.
      pose proof (ident_columns _ B) as E. cbv beta in E. change sff_low with (PageSff SffLower). rewrite E. reflexivity.
  Qed.
  Lemma read_rows page binary offset len args : pa_parseable args = false -> (forall i, byte_memory (sl_cell (V i))) -> 1 <= len ->
    true_screen show_f32 show (CRead page binary offset len args) m V scr ->
    exists g, args_page page = Ok g /\ one_row_each show m (heads (pa_omit_header args) (T "Port Data"))
      (fun i => read_line binary i (area (sl_cell (V i)) g offset (N.to_nat len))) scr.
  Proof.
    intros Hp Hb Hl. cbn [true_screen]. intros [[H _]|(_ & g & Eg & H)]; [lia|]. exists g. split; [exact Eg|]. revert H. unfold shown_as. rewrite Hp.
    apply rows_of with (f := fun port d => align_right 4 (show_u8 port) ++ T " [" ++ fmt_bytes binary d ++ T "]").
    - intros r. now destruct (pa_omit_header args).
    - intros i x Hi ->. rewrite port_shown_ok by exact Hi. unfold read_line, fmt_bytes. do 4 f_equal. apply map_ext_in. intros b Hb'. apply fmt_byte_ok.
      pose proof (DecodeProofs2.area_bytes _ g offset (N.to_nat len) (Hb i)) as F. rewrite Forall_forall in F. now apply F.
  Qed.
  Lemma model_rows args : pa_parseable args = false -> true_screen show_f32 show (CMemoryModel args) m V scr ->
    one_row_of_each show m (heads (pa_omit_header args) (T "Port Model")) (fun i => model_row (sl_cell (V i)) i) scr.
  Proof.
    intros Hp. cbn [true_screen]. unfold shown_as. rewrite Hp. apply rows_of_each with
      (f := fun port x => align_right WIDTH (show_u8 port) ++ T " " ++ model_shown x).
    - intros r Ht. unfold print_module_memory_model. rewrite model_items.
      + cbn [obind]. rewrite table_map. now destruct (pa_omit_header args).
      + apply Forall_forall. intros (i & x) Hx. apply (models_printable (sl_cell (V i))). now apply (Ht _ _ Hx).
    - intros i x Hi _ Hx. exists x. split; [exact Hx|]. unfold WIDTH. now rewrite port_shown_ok by exact Hi.
  Qed.
  Lemma vendor_rows args : pa_parseable args = false -> (forall i, member i m -> supported_kind (slot_kind (V i)) = true) ->
    true_screen show_f32 show (CVendorInfo args) m V scr ->
    one_row_of_each show m (heads (pa_omit_header args)
      (vendor_columns (T "Port") (T "Identifier") (T "Vendor") (T "Part") (T "Rev") (T "Serial") (T "Mfg date")))
      (fun i => vendor_row (sl_cell (V i)) i) scr.
  Proof.
    intros Hp Hk. cbn [true_screen]. unfold shown_as. rewrite Hp. apply rows_of_each with
      (f := fun port x => let v := vi_vendor x in vendor_line (align_right WIDTH (show_u8 port)) (vendor_ident x) (v_name v) (v_part v) (v_revision v)
                   (v_serial v) (vendor_date x)).
    - intros r _. now destruct (pa_omit_header args).
    - intros i x Hi Hm (v & -> & Hv). exists v. split; [exact Hv|]. unfold vendor_ident, vendor_date, WIDTH. cbn [vi_vendor vi_identifier].
      rewrite port_shown_ok by exact Hi. destruct (kind_shown _ (Hk i Hm)) as (E & _). unfold slot_kind in E. rewrite E. reflexivity.
  Qed.
End Rows.
