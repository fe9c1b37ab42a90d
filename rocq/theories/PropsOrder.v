(** Properties C35 and C40, exactly: which module is given which error (controller/src/controller.rs). *)
From Verif Require Import Tac Spec ModuleIdProps SpecIo SpecResults SpecController ControllerProofs9 OrderProofs.

(** The errors, in the order in which the query meets the failing modules, are given to these modules in port
    order; with errors that name their module (all but those of the decoder), every module is given its own
    error if and only if failing modules are met in port order. *)
Theorem C40_errors : forall St (a : honest St), honest_ok a ->
  forall P reads (parse : Identifier -> list (list N) -> outcome DecodeError P) mem (w : world St) m,
  m < 2 ^ 64 -> reads_as a (w_sp w) mem -> queryable reads parse mem m ->
  exists r g, snd (parse_modules_by_identifier (honest_sp a) reads parse m w) = Ok r /\
    handed_out mem m (says reads parse mem) g /\ reports m g r /\
    (met_in_order mem m (says reads parse mem) -> reports m (says reads parse mem) r) /\
    ((forall i e, member i m -> says reads parse mem i = inr e -> exists b, e = hw_fault i b) ->
     (reports m (says reads parse mem) r <-> met_in_order mem m (says reads parse mem))).
Proof. exact query_errors. Qed.
Print Assumptions C40_errors.
(** The same of the power modes. *)
Theorem C35_errors : forall St (a : honest St), honest_ok a ->
  forall (w : world St) m mem, let st := hs_verdict a (w_sp w) (HStatus m) None in
  m < 2 ^ 64 -> reads_as a (hs_next a (w_sp w) (HStatus m) None) mem ->
  (forall i id, member i m -> readable st i = true -> ident_told mem i = inl id -> supported_kind id = true) ->
  exists r g, snd (power (honest_sp a) m w) = Ok r /\
    handed_out mem (readable_mask m st) (control_says mem) g /\ reports m (power_says st g) r /\
    (reports m (power_says st (control_says mem)) r <-> met_in_order mem (readable_mask m st) (control_says mem)).
Proof. exact power_errors. Qed.
Print Assumptions C35_errors.

(** Of ports 0-4, port 0 holds a QsfpDD and 1-4 a Qsfp28; ports 0 and 2 refuse the control read, port 3 the
    identifier read and port 4 the status.  Port 0 is given the error of 3, 2 its own, 3 that of 0, 4 its own. *)
Definition deal_board : board :=
  mkBoard (fun _ => 35) (mem_of (fun i => if i =? 0 then 24 else 17) (fun _ => 0) (fun _ => 64))
    (fun q i => match q with
                | HStatus _ => if i =? 4 then Some 6 else None
                | HRead _ rd => if (i =? 3) && (rd_offset rd =? 0) then Some 9
                                else if ((i =? 0) || (i =? 2)) && negb (rd_offset rd =? 0) then Some 8 else None
                | _ => None end).
Example C40_errors_witness :
  reads_as (board_sp deal_board) tt (board_mem deal_board) /\
  queryable power_reads power_parse (board_mem deal_board) 15 /\
  map (says power_reads power_parse (board_mem deal_board)) [0; 1; 2; 3] =
    [inr (TeHardware 0 HwPowerFault None); inl UseLpModePin; inr (TeHardware 2 HwPowerFault None); inr (TeHardware 3 HwNotInitialized None)] /\
  met_before (board_mem deal_board) 3 2 /\ met_before (board_mem deal_board) 2 0 /\
  snd (parse_modules_by_identifier (honest_sp (board_sp deal_board)) power_reads power_parse 15 w0) =
    Ok (mkResult 2 [UseLpModePin] (mkFailed 13 [TeHardware 3 HwNotInitialized None; TeHardware 2 HwPowerFault None; TeHardware 0 HwPowerFault None])) /\
  snd (power (honest_sp (board_sp deal_board)) 31 w0) =
    Ok (mkResult 2 [mkPowerMode PowerHigh (Some false)]
          (mkFailed 29 [TeHardware 3 HwNotInitialized None; TeHardware 2 HwPowerFault None; TeHardware 0 HwPowerFault None;
                        TeHardware 4 HwNotPresent None])).
Proof.
  split; [apply board_reads; intros m m' rd i; reflexivity|]. split.
  - intros i Hi. assert (Hc : i = 0 \/ i = 1 \/ i = 2 \/ i = 3).
    { apply member_testbit in Hi. destruct (N.lt_ge_cases i 4) as [|Hge]; [lia|].
      rewrite N.bits_above_log2 in Hi; [discriminate|]. change (N.log2 15) with 3. lia. }
    destruct Hc as [->|[->|[->| ->]]]; (split; [vm_compute; discriminate|]); vm_compute; intros id [= <-];
      eexists; (split; [reflexivity|]); repeat constructor; vm_compute; discriminate.
  - repeat (split; [vm_compute; first [reflexivity|exact I|now left]|]). vm_compute. reflexivity.
Qed.
