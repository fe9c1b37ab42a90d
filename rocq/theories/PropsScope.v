(** Properties C62-C63: what calls may touch (controller/src/controller.rs). *)
From Verif Require Import Tac Spec SpecScope ScopeProofs2 ControllerSim ControllerProofs9.

(** C62: whatever the SP answers, and at whatever point the call fails: queries send only requests
    that change nothing. *)
Theorem C62_queries : forall St (sp : St -> Rpc -> St * reply) m,
  just_looks (leds sp m) /\ just_looks (ctl_status sp m) /\
  just_looks (extended_status sp m) /\ just_looks (mac_addrs sp) /\
  just_looks (identifier sp m) /\ just_looks (power sp m) /\
  (forall rd, just_looks (ctl_read sp m rd)) /\
  (forall P reads (parse : Identifier -> list (list N) -> outcome DecodeError P),
     just_looks (parse_modules_by_identifier sp reads parse m)).
Proof. exact @queries_look. Qed.
Print Assumptions C62_queries.
(** A write sends, besides, only the requested write with the given bytes. *)
Theorem C62_write : forall St (sp : St -> Rpc -> St * reply) m wr data,
  asks_only (fun q d => looking q = true /\ d = None \/ exists m', q = HWrite m' wr /\ d = Some data) false
    (ctl_write sp m wr data).
Proof. exact @writes_only. Qed.
Print Assumptions C62_write.
(** Setting the power state sets power and reset pins and writes only a power word of that state. *)
Theorem C62_power : forall St (sp : St -> Rpc -> St * reply) m st,
  asks_only (fun q d => looking q = true /\ d = None \/ is_power_pin q = true /\ d = None \/
                        software_power_write st q d) true (set_power sp m st).
Proof. exact @power_only. Qed.
Print Assumptions C62_power.
Theorem C62_reset : forall St (sp : St -> Rpc -> St * reply) m,
  asks_only (fun q d => d = None /\ match q with HAssertReset _ | HDeassertReset _ => True | _ => False end) true
    (reset sp m).
Proof. exact @reset_only. Qed.
Print Assumptions C62_reset.
(** Every call that sets one pin or LED, or clears faults, sends exactly its own request, once. *)
Theorem C62_pins : forall St (sp : St -> Rpc -> St * reply) m s c q w, In (c, q) (simple_calls sp m s) ->
  deeds c w = [DRequest q None].
Proof. exact simple_exact. Qed.
Print Assumptions C62_pins.
(** So do the queries with one request. *)
Theorem C62_asks : forall St (sp : St -> Rpc -> St * reply) m w,
  deeds (leds sp m) w = [DRequest (HLedState m) None] /\ deeds (mac_addrs sp) w = [DRequest HMacAddrs None] /\
  deeds (ctl_status sp m) w = [DRequest (HStatus m) None] /\ deeds (extended_status sp m) w = [DRequest (HExtendedStatus m) None].
Proof. exact query_exact. Qed.
Print Assumptions C62_asks.

(** Qsfp28 modules at ports 0 and 2 and a module at port 1 that does not answer reads. *)
Definition ex_sp : unit -> Rpc -> unit * reply :=
  honest_sp (board_sp (mkBoard (fun _ => 35) (mem_of (fun _ => 17) (fun _ => 2) (fun _ => 0))
    (fun q i => match q with HRead _ _ => if i =? 1 then Some 8 else None | _ => None end))).
Example C62_witness :
  (exists m', In (DRequest (HWrite m' (mkWrite (PageSff SffLower) 93 1)) (Some [0]))
                 (deeds (set_power ex_sp 7 PowerHigh) (mkWorld tt 0 []))) /\
  In (DRequest (HWrite 5 (mkWrite (PageSff SffLower) 100 2)) (Some [8; 9]))
     (deeds (ctl_write ex_sp 7 (mkWrite (PageSff SffLower) 100 2) [8; 9]) (mkWorld tt 0 [])).
Proof. split; [exists 5|]; vm_compute; tauto. Qed.

(** C63: if the SP answers about modules it was asked about, then every request of a call addresses
    only modules the caller named, and the result is about these modules only. *)
Theorem C63_confined : forall St (sp : St -> Rpc -> St * reply), scoped sp -> forall m,
  confined m (leds sp m) /\ confined m (ctl_status sp m) /\ confined m (extended_status sp m) /\
  confined m (identifier sp m) /\ confined m (reset sp m) /\ confined m (power sp m) /\
  (forall q, request_modules q = m -> confined m (no_payload_request sp q)) /\
  (forall rd, confined m (ctl_read sp m rd)) /\ (forall wr data, confined m (ctl_write sp m wr data)) /\
  (forall st, confined m (set_power sp m st)) /\
  (forall P reads (parse : Identifier -> list (list N) -> outcome DecodeError P),
     confined m (parse_modules_by_identifier sp reads parse m)).
Proof. exact @all_confined. Qed.
Print Assumptions C63_confined.
Theorem C63_scoped : forall St (a : honest St), scoped (honest_sp a).
Proof. exact @honest_scoped. Qed.
Print Assumptions C63_scoped.
(** Without the condition on the SP the claim is false: the code does not compare the answer's modules with the
    request's. *)
Theorem C63_unchecked : exists (sp : unit -> Rpc -> unit * reply), ~ about 1 (ctl_status sp 1).
Proof.
  exists (fun s r => (s, Ok (mkRpc (rpc_header r) (message_new (BSpResponse (SStatus 2 0))) (Some [35])))).
  intros H. specialize (H (mkWorld tt 0 []) (mkResult 2 [35] (mkFailed 0 [])) 1).
  assert (K : member 1 1) by (apply H; [vm_compute; reflexivity|left; vm_compute; reflexivity]).
  vm_compute in K. discriminate.
Qed.
Print Assumptions C63_unchecked.
Example C63_witness : scoped ex_sp /\
  (exists r, snd (set_power ex_sp 7 PowerHigh (mkWorld tt 0 [])) = Ok r /\ mr_modules r = 5 /\ fm_modules (mr_failures r) = 2).
Proof. split; [apply honest_scoped|]. eexists. split; [vm_compute; reflexivity|]. vm_compute. tauto. Qed.
