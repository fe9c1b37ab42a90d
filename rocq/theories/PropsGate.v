(** Property C31, for any SP: no page of another interface is read or written (controller/src/controller.rs). *)
From Verif Require Import Tac Spec SpecIo SpecResults SpecController GateProofs PropsController.

(** C31: whatever the SP does, honest or not: if it told the kinds of the modules and one of them does not speak the
    interface of the page, then the read and the write of that page end in the world that asking for the kinds left
    (nothing further was sent), with an error that names a port, its kind and the interface wanted.  Reads of no
    bytes and reads from no modules do not ask at all. *)
Theorem C31_gate : forall St (sp : St -> Rpc -> St * reply) (w w1 : world St) m page ids,
  m < 2 ^ 64 -> m <> 0 ->
  identifier sp m w = (w1, Ok ids) ->
  (exists i id, at_port (mr_modules ids) (mr_data ids) i id /\ ~ speaks id page) ->
  exists i id, at_port (mr_modules ids) (mr_data ids) i id /\ ~ speaks id page /\
    (forall off len, len <> 0 ->
       ctl_read sp m (mkRead page off len) w =
         (w1, Err (ETransceiver (TeInvalidInterfaceForModule i id (page_interface page))))) /\
    (forall off len data,
       ctl_write sp m (mkWrite page off len) data w =
         (w1, Err (ETransceiver (TeInvalidInterfaceForModule i id (page_interface page))))).
Proof. exact @gate_correct. Qed.
Print Assumptions C31_gate.
(** The Qsfp28 modules of [ex_board] do not speak CMIS. *)
Example C31_gate_witness : exists w1 ids,
  identifier ex_sp 7 w0 = (w1, Ok ids) /\ length (deeds (identifier ex_sp 7) w0) = 1%nat /\
  (exists i id, at_port (mr_modules ids) (mr_data ids) i id /\ ~ speaks id (PageCmis CmisLower)) /\
  ctl_write ex_sp 7 (mkWrite (PageCmis CmisLower) 26 1) [64] w0 =
    (w1, Err (ETransceiver (TeInvalidInterfaceForModule 0 Qsfp28 Cmis))).
Proof.
  eexists. eexists. split; [vm_compute; reflexivity|]. split; [vm_compute; reflexivity|]. split.
  - exists 0, Qsfp28. split; [vm_compute; left; reflexivity|]. discriminate.
  - vm_compute. reflexivity.
Qed.
