(** Theorems for C99: calls for several modules and calls for one. *)
From Verif Require Import Tac SpecApart ControllerSim ControllerProofs ControllerProofs9 ResultsProofs Queries ApartProofs5.
Import ListNotations.
Open Scope N_scope.

(** C99: the calls that ask the same of every module do to each module, and report of it, what the same call for it alone
    does; a call for two sets is as good as two calls; and a call returns exactly if it does for each module alone. *)
Theorem C99_simple : forall X (b : bay X) (sp := honest_sp (apart b)), bay_ok b ->
  alike same_report (assert_reset sp) /\ alike same_report (deassert_reset sp) /\ alike same_report (assert_lpmode sp) /\
  alike same_report (deassert_lpmode sp) /\ alike same_report (enable_power sp) /\ alike same_report (disable_power sp) /\
  alike same_report (clear_power_fault sp) /\ alike same_report (clear_disable_latch sp) /\
  (forall l, alike same_report (fun m => set_leds sp m l)) /\
  alike same_report (ctl_status sp) /\ alike same_report (extended_status sp) /\ alike same_report (leds sp) /\
  alike same_report (reset sp) /\ alike same_report (fun m => set_power sp m PowerOff) /\ alike same_report (identifier sp).
Proof. exact @simple_alike. Qed.
Print Assumptions C99_simple.
(** C99: so do reads and writes of memory, *)
Theorem C99_memory : forall X (b : bay X) (sp := honest_sp (apart b)), bay_ok b ->
  (forall rd, rd_len rd <= 255 -> alike same_report (fun m => ctl_read sp m rd)) /\
  (forall wr data, alike same_report (fun m => ctl_write sp m wr data)).
Proof. exact @memory_alike. Qed.
Print Assumptions C99_memory.
(** C99: and the queries, up to which error is reported of a module that fails.  The full statement has [same_report] in
    place of [same_data], and [set_power] for every state; both are false, see [C99_errors_refuted] and [C99_power_refuted]. *)
Theorem C99_queries_partial : forall X (b : bay X) (sp := honest_sp (apart b)), bay_ok b ->
  alike same_data (power_control sp) /\ alike same_data (vendor_info sp) /\ alike same_data (memory_model sp) /\
  alike same_data (monitors sp) /\ alike same_data (datapath sp) /\ alike same_data (power sp).
Proof. exact @queries_alike. Qed.
Print Assumptions C99_queries_partial.

(** The modules of a board, each remembering what it was asked. *)
Definition kept (b : board) : bay (list HostRequest) :=
  mkBay (fun i _ q _ => board_verdict b q i) (fun _ x q _ => x ++ [q]).
Lemma kept_ok b : bay_ok (kept b).
Proof.
  intros i x q d. pose proof (board_ok b tt q d i) as K. cbn [kept by_verdict board_sp hs_verdict] in *.
  destruct (board_verdict b q i) as [y|e] eqn:E; [|exact K]. destruct K as (K1 & K2). split; [exact K1|]. split; [exact K2|].
  unfold board_verdict in E. destruct (b_fail b q i); [discriminate|]. destruct q; try exact I; injection E as <-; reflexivity.
Qed.
Definition fresh : world (N -> list HostRequest) := mkWorld (fun _ => []) 0 [].
(** A module whose answers depend on what it was asked before: each read gives one more. *)
Definition counting : bay N :=
  mkBay (fun i x q _ => if (i =? 2) && (x =? 1) then inr 9 else
           match q with HRead _ rd => if rd_offset rd =? 0 then inl (repeat 17 (request_unit q)) else inl (repeat (x mod 256) (request_unit q))
                      | _ => inl (repeat 0 (request_unit q)) end)
        (fun _ x _ _ => x + 1).
Lemma bytes_repeat x n : x < 256 -> bytes (repeat x n) = true.
Proof. intros H. apply forallb_forall. intros y Hy. apply repeat_spec in Hy. subst y. now apply N.ltb_lt. Qed.
Lemma counting_ok : bay_ok counting.
Proof.
  intros i x q d. cbn [counting by_verdict]. destruct ((i =? 2) && (x =? 1)); [reflexivity|].
  destruct q; try (split; [reflexivity|split; [reflexivity|reflexivity || exact I]]).
  match goal with |- context [rd_offset ?r =? 0] => destruct (rd_offset r =? 0) end; (split; [apply repeat_length|]); (split; [apply bytes_repeat; try (apply N.mod_lt; discriminate); reflexivity|exact I]).
Qed.
(** Three modules that were asked 5, 7 and 0 times: the third fails when it is asked the second time. *)
Example C99_witness :
  let sp := honest_sp (apart counting) in
  let w := mkWorld (fun i => if i =? 0 then 5 else if i =? 1 then 7 else 0) 0 [] in
  let rd := mkRead (PageSff SffLower) 100 2 in
  bay_ok counting /\ bay_ok (kept board_mixed) /\
  (exists w', ctl_read sp 7 rd w = (w', Ok (mkResult 3 [[6; 6]; [8; 8]] (mkFailed 4 [hw_fault 2 9]))) /\ map (w_sp w') [0; 1; 2; 3] = [7; 9; 2; 0]) /\
  (exists w', ctl_read sp 1 rd w = (w', Ok (mkResult 1 [[6; 6]] (mkFailed 0 []))) /\ map (w_sp w') [0; 1; 2; 3] = [7; 7; 0; 0]) /\
  (exists w', ctl_read sp 4 rd w = (w', Ok (mkResult 0 [] (mkFailed 4 [hw_fault 2 9]))) /\ map (w_sp w') [0; 1; 2; 3] = [5; 7; 2; 0]).
Proof.
  cbv zeta. split; [exact counting_ok|]. split; [apply kept_ok|].
  split; [|split]; (eexists; split; [vm_compute; reflexivity|vm_compute; reflexivity]).
Qed.
(** Two modules that fail at different times of a query are told with each other's error, *)
Theorem C99_errors_refuted : exists b : bay (list HostRequest), bay_ok b /\ ~ one_by_one same_report (power_control (honest_sp (apart b))).
Proof.
  exists (kept board_silent). split; [apply kept_ok|]. intros H.
  destruct (power_control (honest_sp (apart (kept board_silent))) 3 fresh) as [w' o] eqn:E.
  assert (exists r, o = Ok r /\ result_nth_err r 0 = Some (hw_fault 1 9)) as (r & -> & Er).
  { apply (f_equal snd) in E. cbn [snd] in E. subst o. eexists. split; [vm_compute; reflexivity|vm_compute; reflexivity]. }
  destruct (H 3 fresh w' r eq_refl E 0 fresh) as (w1 & r1 & E1 & _ & _ & S); [apply member_testbit; reflexivity|reflexivity|].
  specialize (S (hw_fault 1 9)). rewrite !fails_get in S. unfold result_nth_err in Er. rewrite failed_nth_get in Er. apply S in Er.
  apply (f_equal (fun x => match snd x with Ok r => result_nth_err r 0 | _ => None end)) in E1. unfold result_nth_err in E1. cbn [snd] in E1.
  rewrite failed_nth_get in E1. unfold rerr in Er. rewrite Er in E1. vm_compute in E1. discriminate.
Qed.
Print Assumptions C99_errors_refuted.
(** and a module that is on is left as it is if it is put into low power mode together with one that is off. *)
Theorem C99_power_refuted : exists b : bay (list HostRequest), bay_ok b /\
  ~ one_by_one same_data (fun m => set_power (honest_sp (apart b)) m PowerLow) /\
  exists w' w1 r r1, set_power (honest_sp (apart b)) 3 PowerLow fresh = (w', Ok r) /\ set_power (honest_sp (apart b)) 1 PowerLow fresh = (w1, Ok r1) /\
    ~ In (HAssertLpMode 0) (w_sp w' 0) /\ In (HAssertLpMode 0) (w_sp w1 0) /\ succeeds r1 0 tt /\ ~ failed r 0 /\ ~ succeeds r 0 tt.
Proof.
  exists (kept board_mixed). split; [apply kept_ok|].
  assert (W : exists w' w1 r r1, set_power (honest_sp (apart (kept board_mixed))) 3 PowerLow fresh = (w', Ok r) /\
    set_power (honest_sp (apart (kept board_mixed))) 1 PowerLow fresh = (w1, Ok r1) /\
    ~ In (HAssertLpMode 0) (w_sp w' 0) /\ In (HAssertLpMode 0) (w_sp w1 0) /\ succeeds r1 0 tt /\ ~ failed r 0 /\ ~ succeeds r 0 tt).
  { destruct (set_power (honest_sp (apart (kept board_mixed))) 3 PowerLow fresh) as [w' o] eqn:E.
    destruct (set_power (honest_sp (apart (kept board_mixed))) 1 PowerLow fresh) as [w1 o1] eqn:E1.
    pose proof (f_equal snd E) as K. pose proof (f_equal snd E1) as K1. vm_compute in K, K1. subst o o1.
    pose proof (f_equal (fun x => w_sp (fst x) 0) E) as K2. pose proof (f_equal (fun x => w_sp (fst x) 0) E1) as K3. cbn [fst] in K2, K3.
    eexists w', w1, _, _. split; [reflexivity|]. split; [reflexivity|]. unfold failed. rewrite <- K2, <- K3, !succeeds_get, member_testbit.
    split; [|split; [|split; [|split]]].
    - vm_compute. intuition discriminate.
    - vm_compute. auto 20.
    - reflexivity.
    - discriminate.
    - discriminate. }
  split; [|exact W]. intros H. destruct W as (w' & w1 & r & r1 & E & E1 & _ & _ & S1 & _ & S).
  destruct (H 3 fresh w' r eq_refl E 0 fresh) as (w2 & r2 & E2 & _ & K & _); [apply member_testbit; reflexivity|reflexivity|].
  change (2 ^ 0) with 1 in E2. rewrite E1 in E2. injection E2 as <- <-. apply S, K, S1.
Qed.
Print Assumptions C99_power_refuted.
