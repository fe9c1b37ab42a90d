(** Theorems for C14-C18. *)
From Verif Require Import Tac Spec SpecMessages SpecResults ModuleIdProofs ModuleIdProps MessageProofs
  LargeAccess AccessProofs ResultsProofs ResultsProofs2.

(** C14: a successful split tiles the requested range, in order, with valid operations. *)
Theorem C14_reads_tile : forall p offset len l, offset < 256 -> len < 256 ->
  build_many_reads p offset len = Ok l ->
  concat (map (fun r => nrange (rd_offset r) (N.to_nat (rd_len r))) l)
    = nrange offset (N.to_nat len) /\
  (forall r, In r l -> rd_page r = p /\ access_ok (read_limit p) p (rd_offset r) (rd_len r) /\
                  rd_len r <= piece_limit p).
Proof. exact build_many_reads_correct. Qed.
Print Assumptions C14_reads_tile.
Theorem C14_writes_tile : forall p offset len l, offset < 256 -> len < 256 ->
  build_many_writes p offset len = Ok l ->
  concat (map (fun r => nrange (wr_offset r) (N.to_nat (wr_len r))) l)
    = nrange offset (N.to_nat len) /\
  (forall r, In r l -> wr_page r = p /\ access_ok (write_limit p) p (wr_offset r) (wr_len r) /\
                  wr_len r <= piece_limit p).
Proof. exact build_many_writes_correct. Qed.
Print Assumptions C14_writes_tile.
(** C14: a request ending past byte 256 is rejected, naming the end; nothing panics. *)
Theorem C14_rejects : forall p offset len, 256 < offset + len ->
  build_many_reads p offset len = Err (EByteOutOfRange (offset + len)) /\
  build_many_writes p offset len = Err (EByteOutOfRange (offset + len)).
Proof. exact (fun p o n H => conj (build_many_too_far _ _ p o n H) (build_many_too_far _ _ p o n H)). Qed.
Print Assumptions C14_rejects.
Theorem C14_no_panic : forall p offset len, offset < 256 -> len < 256 ->
  build_many_reads p offset len <> Panic /\ build_many_writes p offset len <> Panic.
Proof.
  exact (fun p o n H K => conj (build_many_reads_no_panic p o n H K)
                               (build_many_writes_no_panic p o n H K)).
Qed.
Print Assumptions C14_no_panic.
Example C14_witness :
  build_many_reads (PageSff (SffUpper 0)) 128 100
    = Ok [mkRead (PageSff (SffUpper 0)) 128 64; mkRead (PageSff (SffUpper 0)) 192 36] /\
  build_many_writes (PageCmis CmisLower) 0 17
    = Ok [mkWrite (PageCmis CmisLower) 0 8; mkWrite (PageCmis CmisLower) 8 8;
          mkWrite (PageCmis CmisLower) 16 1].
Proof. split; vm_compute; reflexivity. Qed.

(** C15: every access inside the page's window can be split.  Full statement for reads. *)
Theorem C15_reads : forall p offset len, 1 <= len -> len < 256 ->
  (forall k, offset <= k < offset + len -> in_page p k) ->
  exists l, build_many_reads p offset len = Ok l.
Proof. exact build_many_reads_complete. Qed.
Print Assumptions C15_reads.
(** C15 for writes.  Full statement, false for SFF-8636:
    [forall p offset len, 1 <= len -> len < 256 ->
       (forall k, offset <= k < offset + len -> in_page p k) ->
       exists l, build_many_writes p offset len = Ok l]. *)
Theorem C15_writes_refuted : exists p offset len, 1 <= len /\ len < 256 /\
  (forall k, offset <= k < offset + len -> in_page p k) /\
  ~ exists l, build_many_writes p offset len = Ok l.
Proof.
  exists (PageSff SffLower), 0, 5. split; [lia|]. split; [lia|]. split.
  - intros k Hk. split; [lia|]. intros H. exfalso. apply H. now left.
  - intros [l H]. vm_compute in H. discriminate.
Qed.
Print Assumptions C15_writes_refuted.
Theorem C15_writes_partial : forall p offset len, 1 <= len -> len < 256 ->
  (iface p = Sff8636 -> len <= 4) ->
  (forall k, offset <= k < offset + len -> in_page p k) ->
  exists l, build_many_writes p offset len = Ok l.
Proof. exact build_many_writes_complete. Qed.
Print Assumptions C15_writes_partial.
(** The exception is exact: every longer SFF-8636 write fails. *)
Theorem C15_sff_writes_fail : forall q offset len, 4 < len -> offset + len <= 256 -> len < 256 ->
  exists e, build_many_writes (PageSff q) offset len = Err e.
Proof. exact build_many_sff_writes_fail. Qed.
Print Assumptions C15_sff_writes_fail.
Example C15_witness : exists l, build_many_reads (PageCmis CmisLower) 1 127 = Ok l /\ length l = 16%nat.
Proof. eexists. split; [vm_compute; reflexivity|reflexivity]. Qed.

(** C16: merging two results. *)
Theorem C16_merge : forall (E P : Type) (a b : ModuleResult E P), wf_result a -> wf_result b ->
  (result_merge a b = None <->
     (exists i, succeeded a i /\ succeeded b i) \/ (exists i, failed a i /\ failed b i)) /\
  (forall r, result_merge a b = Some r ->
     wf_result r /\
     (forall i x, succeeds r i x <->
        (succeeds a i x \/ succeeds b i x) /\ ~ failed a i /\ ~ failed b i) /\
     (forall i e, fails r i e <-> fails a i e \/ fails b i e)).
Proof. exact @result_merge_correct. Qed.
Print Assumptions C16_merge.

Definition C16_a : ModuleResult N N := mkResult 0x5 [10; 12] (mkFailed 0x8 [63]).
Definition C16_b : ModuleResult N N := mkResult 0xA [21; 23] (mkFailed 0x4 [52]).
Example C16_witness : wf_result C16_a /\ wf_result C16_b /\
  result_merge C16_a C16_b = Some (mkResult 0x3 [10; 21] (mkFailed 0xC [52; 63])).
Proof.
  assert (K : forall a b, N.land a b = 0 -> forall i, ~ (member i a /\ member i b)).
  { intros a b H i [Ha Hb]. rewrite member_testbit in *.
    assert (N.testbit (N.land a b) i = true) as X by now rewrite N.land_spec, Ha, Hb.
    rewrite H, N.bits_0 in X. discriminate. }
  split; [|split; [|vm_compute; reflexivity]]; (split; [|split]);
    try (split; vm_compute; reflexivity); apply K; vm_compute; reflexivity.
Qed.

(** C17: appending reads. *)
Theorem C17_append : forall (E P : Type) (a b : ModuleResult E (list P)), wf_result a -> wf_result b ->
  (result_append a b = None <->
     exists i, (succeeded b i \/ failed b i) /\ ~ succeeded a i) /\
  (forall r, result_append a b = Some r ->
     wf_result r /\
     (forall i x, succeeds r i x <->
        exists xa, succeeds a i xa /\ ~ failed b i /\
          ((exists xb, succeeds b i xb /\ x = xa ++ xb) \/ (~ succeeded b i /\ x = xa))) /\
     (forall i e, fails r i e <-> fails a i e \/ fails b i e)).
Proof. exact @result_append_correct. Qed.
Print Assumptions C17_append.
Example C17_witness :
  result_append (mkResult 0x7 [[1]; [2]; [3]] (mkFailed 0x8 [63]))
                (mkResult 0x5 [[4; 5]; [6]] (mkFailed 0x2 [51]))
  = Some (mkResult 0x5 [[1; 4; 5]; [3; 6]] (mkFailed 0xA [51; 63])).
Proof. vm_compute. reflexivity. Qed.

(** C18: the failure sets. *)
Theorem C18_merge : forall (E : Type) (a b : FailedModules E), wf_failed a -> wf_failed b ->
  wf_failed (failed_merge a b) /\
  (forall i, member i (fm_modules (failed_merge a b)) <->
             member i (fm_modules a) \/ member i (fm_modules b)) /\
  (forall i e, at_port (fm_modules (failed_merge a b)) (fm_errors (failed_merge a b)) i e <->
     at_port (fm_modules b) (fm_errors b) i e \/
     (~ member i (fm_modules b) /\ at_port (fm_modules a) (fm_errors a) i e)).
Proof. exact @failed_merge_correct. Qed.
Print Assumptions C18_merge.
Theorem C18_nth : forall (E : Type) (f : FailedModules E) i e, wf_failed f ->
  (failed_nth f i = Some e <-> at_port (fm_modules f) (fm_errors f) i e) /\
  (failed_nth f i = None <-> ~ member i (fm_modules f)).
Proof. exact @failed_nth_correct. Qed.
Print Assumptions C18_nth.
Theorem C18_success : forall E : Type, wf_failed (@failed_success E) /\
  forall i, ~ member i (fm_modules (@failed_success E)) /\ failed_nth (@failed_success E) i = None.
Proof. exact @failed_success_correct. Qed.
Print Assumptions C18_success.
Example C18_witness : failed_merge (mkFailed 0x24 [1; 2]) (mkFailed 0x25 [3; 4; 5])
  = mkFailed 0x25 [3; 4; 5] /\ failed_nth (mkFailed 0x24 [1; 2]) 5 = Some 2.
Proof. split; vm_compute; reflexivity. Qed.

(** C71: what a result says about a module when asked. *)
Theorem C71_asked : forall (E P : Type) (r : ModuleResult E P) i, wf_result r ->
  (forall x, result_nth r i = Some x <-> succeeds r i x) /\ (result_nth r i = None <-> ~ succeeded r i) /\
  (forall e, result_nth_err r i = Some e <-> fails r i e) /\ (result_nth_err r i = None <-> ~ failed r i).
Proof. exact @result_asked. Qed.
Print Assumptions C71_asked.
(** Walking over a result. *)
Theorem C71_listed : forall (E P : Type) (r : ModuleResult E P), wf_result r ->
  map fst (result_iter r) = to_indices (mr_modules r) /\
  (forall i x, In (i, x) (result_iter r) <-> succeeds r i x) /\
  map fst (result_error_iter r) = to_indices (fm_modules (mr_failures r)) /\
  (forall i e, In (i, e) (result_error_iter r) <-> fails r i e).
Proof. exact @result_listed. Qed.
Print Assumptions C71_listed.
Theorem C71_all_good : forall (E P : Type) (r : ModuleResult E P), wf_result r ->
  (result_is_success r = true <-> forall i, ~ failed r i).
Proof. exact @result_all_good. Qed.
Print Assumptions C71_all_good.
(** Building a result. *)
Theorem C71_success : forall (E P : Type) m (d : list P), m < 2 ^ 64 ->
  (length d <> length (to_indices m) -> result_success (E := E) m d = None) /\
  (length d = length (to_indices m) -> exists r, result_success (E := E) m d = Some r /\ wf_result r /\
     (forall i x, succeeds r i x <-> at_port m d i x) /\ forall i, ~ failed r i).
Proof. exact @result_success_built. Qed.
Print Assumptions C71_success.
Theorem C71_ack : forall (E : Type) m (f : FailedModules E), m < 2 ^ 64 -> wf_failed f ->
  (forall i, ~ (member i m /\ member i (fm_modules f))) ->
  wf_result (ack_new m f) /\ (forall i, succeeded (ack_new m f) i <-> member i m) /\
  (forall i e, fails (ack_new m f) i e <-> at_port (fm_modules f) (fm_errors f) i e).
Proof. exact @result_ack_built. Qed.
Print Assumptions C71_ack.
(** Two results are equal if they say the same about every module. *)
Theorem C71_equal : forall (E P : Type) (eqE : E -> E -> bool) (eqP : P -> P -> bool) (a b : ModuleResult E P),
  decides eqE -> decides eqP -> wf_result a -> wf_result b ->
  (result_eq eqE eqP a b = true <->
   (forall i x, succeeds a i x <-> succeeds b i x) /\ (forall i e, fails a i e <-> fails b i e)).
Proof. exact @result_eq_extensional. Qed.
Print Assumptions C71_equal.
Example C71_witness : result_nth C16_a 2 = Some 12 /\ result_nth C16_a 3 = None /\ result_nth_err C16_a 3 = Some 63 /\
  result_iter C16_b = [(1, 21); (3, 23)] /\ result_is_success C16_a = false /\
  result_success (E := N) 0x5 [10; 12] = Some (mkResult 0x5 [10; 12] failed_success) /\
  result_success (E := N) 0x5 [10] = None /\ result_eq N.eqb N.eqb C16_a C16_a = true /\ decides N.eqb.
Proof. repeat split; try (vm_compute; reflexivity); apply N.eqb_eq. Qed.
