(** Property C72: the layout of datagrams. *)
From Verif Require Import Tac Spec SpecWire Wf WireProofs.
Import ListNotations.
Open Scope N_scope.

(** C72: every request, response and protocol error is laid out as documented, with fixed codes. *)
Theorem C72_request : forall h v q d, wf_header h = true -> wf_host_request q = true ->
  let bs := enc_header h ++ enc_message (mkMessage v (BHostRequest q)) ++ d in
  starts_with_header bs h /\ lays_out_request bs v q d.
Proof. exact request_layout. Qed.
Print Assumptions C72_request.
Theorem C72_response : forall h v r d, wf_header h = true -> wf_sp_response r = true ->
  let bs := enc_header h ++ enc_message (mkMessage v (BSpResponse r)) ++ d in
  starts_with_header bs h /\ lays_out_response bs v r d.
Proof. exact response_layout. Qed.
Print Assumptions C72_response.
Theorem C72_error : forall h v e d, wf_header h = true -> wf_protocol_error e = true ->
  let bs := enc_header h ++ enc_message (mkMessage v (BError e)) ++ d in
  starts_with_header bs h /\ lays_out_error bs v e d.
Proof. exact error_layout. Qed.
Print Assumptions C72_error.
(** What is understood of a datagram is what is at those places. *)
Theorem C72_received : forall bs h rx v b rest, bytes bs = true ->
  dec_header bs = Some (h, rx) -> dec_message rx = Some (mkMessage v b, rest) ->
  starts_with_header bs h /\
  (forall r, b = BSpResponse r -> lays_out_response bs v r rest) /\
  (forall q, b = BHostRequest q -> lays_out_request bs v q rest) /\
  (forall e, b = BError e -> lays_out_error bs v e rest).
Proof. exact received_layout. Qed.
Print Assumptions C72_received.
(** Every request the controller makes goes out as one datagram with versions 1 and 7. *)
Theorem C72_sent : forall St (sp : St -> Rpc -> St * reply) q d (w : world St),
  w_counter w < 2 ^ 64 -> wf_host_request q = true -> (length (data_bytes d) <= 1024)%nat ->
  exists r bs, w_log (fst (rpc sp q d w)) = w_log w ++ [ASend r] /\ request_packet r = Some bs /\
    starts_with_header bs (mkHeader 1 (w_counter w) KHostRequest) /\ lays_out_request bs 7 q (data_bytes d).
Proof. exact @sent_layout. Qed.
Print Assumptions C72_sent.
(** The kind that [Message::kind] tells, which goes into the header, has the code that the message
    itself begins with after its version. *)
Theorem C72_kind : forall m, nth_error (enc_message m) 1 = nth_error (enc_kind (message_kind m)) 0.
Proof. exact kind_layout. Qed.
Print Assumptions C72_kind.
(** A write of two bytes to modules 0 and 33 with request id 258. *)
Example C72_witness :
  let q := HWrite 0x200000001 (mkWrite (PageCmis (CmisUpper (mkCmisUpper (Some 1) 0x11))) 128 2) in
  let bs := [1; 2; 1; 0; 0; 0; 0; 0; 0; 1; 7; 1; 1; 1; 0; 0; 0; 2; 0; 0; 0; 1; 1; 1; 1; 0x11; 128; 2; 0xab; 0xcd] in
  wf_host_request q = true /\ starts_with_header bs (mkHeader 1 258 KHostRequest) /\
  lays_out_request bs 7 q [0xab; 0xcd] /\
  request_packet (mkRpc (mkHeader 1 258 KHostRequest) (mkMessage 7 (BHostRequest q)) (Some [0xab; 0xcd])) = Some bs.
Proof. repeat split; vm_compute; reflexivity. Qed.
