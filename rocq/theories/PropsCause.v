(** C77: when calls fail as a whole, and because of what. *)
From Verif Require Import CauseProofs ControllerSim.

(** C77, for any SP: a call succeeds only when each of its requests got an answer of the kind asked
    for.  When it fails, nothing is sent after the request to blame, and the error says what the
    reply was; these calls have no other reason to fail. *)
Theorem C77_simple : forall St (sp : St -> Rpc -> St * reply) w m,
  accounted sp none (leds sp m) w /\ accounted sp none (ctl_status sp m) w /\
  accounted sp none (extended_status sp m) w /\ accounted sp none (identifier sp m) w /\
  accounted sp none (reset sp m) w /\ accounted sp none (mac_addrs sp) w /\
  (forall q, (forall x y, answers q (SAck x y) = true) -> accounted sp none (no_payload_request sp q) w).
Proof. exact @simple_accounted. Qed.
Print Assumptions C77_simple.

(** Reads fail also for a module of another interface than the page's, writes also for data of
    another length. *)
Theorem C77_read : forall St (sp : St -> Rpc -> St * reply) m rd w,
  accounted sp (other_interface (rd_page rd)) (ctl_read sp m rd) w.
Proof. exact @acc_read. Qed.
Print Assumptions C77_read.
Theorem C77_write : forall St (sp : St -> Rpc -> St * reply) m wr data w,
  accounted sp (fun e => other_interface (wr_page wr) e \/ bad_length wr data e) (ctl_write sp m wr data) w.
Proof. exact @acc_write. Qed.
Print Assumptions C77_write.

(** Queries fail also for a module whose identifier is not supported. *)
Theorem C77_query : forall St (sp : St -> Rpc -> St * reply) P reads
    (parse : Identifier -> list (list N) -> outcome DecodeError P) w m,
  In reads [vendor_reads; memory_reads; power_reads; monitor_reads; datapath_reads] ->
  accounted sp unsupported (parse_modules_by_identifier sp reads parse m) w.
Proof. exact @query_accounted. Qed.
Print Assumptions C77_query.
Theorem C77_power : forall St (sp : St -> Rpc -> St * reply) w m, accounted sp unsupported (power sp m) w.
Proof. exact @power_accounted. Qed.
Print Assumptions C77_power.

(** A change of power fails also when high power is asked for a module that is off. *)
Theorem C77_set_power : forall St (sp : St -> Rpc -> St * reply) m st w,
  accounted sp (fun e => unsupported e \/ high_while_off sp w m st e) (set_power sp m st) w.
Proof. exact @acc_set_power. Qed.
Print Assumptions C77_set_power.

(** C37, the converse: if the I/O loop does not itself fail with this error, nothing else is refused as
    an invalid transition. *)
Theorem C37_only_off : forall St (sp : St -> Rpc -> St * reply) w m st,
  (forall s r, snd (sp s r) <> Err EInvalidPowerStateTransition) ->
  snd (set_power sp m st w) = Err EInvalidPowerStateTransition ->
  st = PowerHigh /\ exists r, snd (power sp m w) = Ok r /\ Exists (fun x => pm_state x = PowerOff) (mr_data r).
Proof. exact @refused_only. Qed.
Print Assumptions C37_only_off.

(** An SP that is lost after its first answer: the reset stops after the second request. *)
Definition ex_lost : N -> Rpc -> N * reply :=
  fun n r => (n + 1, if n =? 0 then snd (honest_sp (board_sp (mkBoard (fun _ => 0) (fun _ _ _ => 0) (fun _ _ => None))) tt r)
                     else Err (EMaxRetries 3)).
Example C77_witness :
  snd (reset ex_lost 3 (mkWorld 0 0 [])) = Err (EMaxRetries 3) /\
  deeds (reset ex_lost 3) (mkWorld 0 0 []) =
    [DRequest (HAssertReset 3) None; DSleep 10; DRequest (HDeassertReset 3) None].
Proof. split; vm_compute; reflexivity. Qed.
