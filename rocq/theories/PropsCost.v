(** Property C85: what calls cost. *)
From Coq Require Import String.
From Verif Require Import CostProofs ControllerSim PropsScope.
Import ListNotations.
Open Scope N_scope.

(** C85: whatever the SP answers, in range or not, each call makes at most this many requests and pauses
    this long. *)
Theorem C85_calls : forall St (sp : St -> Rpc -> St * reply) m,
  costs (leds sp m) 1 0 /\ costs (ctl_status sp m) 1 0 /\ costs (extended_status sp m) 1 0 /\
  costs (mac_addrs sp) 1 0 /\ (forall q, costs (no_payload_request sp q) 1 0) /\
  costs (identifier sp m) 1 0 /\
  (forall rd, rd_len rd <= 255 -> costs (ctl_read sp m rd) (1 + rounds (rd_len rd)) 0) /\
  (forall wr data, costs (ctl_write sp m wr data) 2 0) /\
  costs (reset sp m) 2 2000010 /\ costs (power sp m) 6 0 /\
  costs (set_power sp m PowerOff) 3 0 /\ (forall st, costs (set_power sp m st) 20 2000010) /\
  costs (vendor_info sp m) 27 0 /\ costs (memory_model sp m) 9 0 /\ costs (monitors sp m) 33 0 /\
  costs (datapath sp m) 41 0.
Proof. exact @calls_cost. Qed.
Print Assumptions C85_calls.
(** C85: so does each run of the tool: the selection of modules and the command. *)
Theorem C85_tool : forall St (sp : St -> Rpc -> St * reply) show_f32 show a d w,
  takes d (deeds_of (main sp show_f32 show a) w) <=
    (selecting (match ar_transceivers a with Some t => t | None => TAll end) + fst (commanding (ar_cmd a))) * d +
    snd (commanding (ar_cmd a)).
Proof. exact @cost_main. Qed.
Print Assumptions C85_tool.
(** Bounds that are reached: 64 bytes of 64 modules in four messages after one for the identifiers, and a
    reset. *)
Example C85_witness :
  takes 1 (deeds (ctl_read ex_sp (2 ^ 64 - 1) (mkRead (PageSff SffLower) 0 64)) (mkWorld tt 0 [])) = 1 + rounds 64 /\
  rounds 64 = 4 /\ takes 7 (deeds (reset ex_sp 5) (mkWorld tt 0 [])) = 2 * 7 + 2000010.
Proof. vm_compute. auto. Qed.
