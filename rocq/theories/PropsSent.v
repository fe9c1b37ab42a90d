(** Property C80: every request is well made. *)
From Verif Require Import SentProofs ControllerSim PropsScope.

(** C80: if what the caller names is in range, then whatever the SP answers, in range, and at whatever
    point the call fails: every field of every request is in the range of its type, a write carries
    exactly the bytes it announces, and no other request carries any. *)
Theorem C80_requests : forall St (sp : St -> Rpc -> St * reply), answers_in_range sp -> forall m, m < 2 ^ 64 ->
  makes_well (leds sp m) /\ makes_well (ctl_status sp m) /\ makes_well (extended_status sp m) /\
  makes_well (identifier sp m) /\ makes_well (reset sp m) /\ makes_well (power sp m) /\ makes_well (mac_addrs sp) /\
  (forall q, wf_host_request q = true -> (forall m wr, q <> HWrite m wr) -> makes_well (no_payload_request sp q)) /\
  (forall rd, wf_read rd = true -> makes_well (ctl_read sp m rd)) /\
  (forall wr data, wf_write wr = true -> makes_well (ctl_write sp m wr data)) /\
  (forall st, makes_well (set_power sp m st)) /\
  (forall P reads (parse : Identifier -> list (list N) -> outcome DecodeError P), reads_in_range reads ->
     makes_well (parse_modules_by_identifier sp reads parse m)).
Proof. exact @all_well_made. Qed.
Print Assumptions C80_requests.
(** The reads of all queries are in range. *)
Theorem C80_queries : Forall reads_in_range [vendor_reads; memory_reads; power_reads; monitor_reads; datapath_reads].
Proof. exact queries_in_range. Qed.
Print Assumptions C80_queries.
Theorem C80_honest : forall St (a : honest St), answers_in_range (honest_sp a).
Proof. exact @honest_in_range. Qed.
Print Assumptions C80_honest.
(** A write of two bytes, and one whose bytes do not match, which sends nothing but the read of the identifier. *)
Example C80_witness : answers_in_range ex_sp /\
  (exists q d, In (DRequest q d) (deeds (ctl_write ex_sp 7 (mkWrite (PageSff SffLower) 100 2) [8; 9]) (mkWorld tt 0 [])) /\ d = Some [8; 9]) /\
  deeds (ctl_write ex_sp 7 (mkWrite (PageSff SffLower) 100 2) [8; 9; 10]) (mkWorld tt 0 []) =
    [DRequest (HRead 7 (mkRead (PageSff SffLower) 0 1)) None].
Proof.
  split; [|split; [eexists _, _; split; [vm_compute; right; left; reflexivity|reflexivity]|vm_compute; reflexivity]].
  apply honest_in_range.
Qed.
