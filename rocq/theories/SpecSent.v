(** What calls put into their requests (C80). *)
From Verif Require Export SpecScope Wf.

(** Every field is in the range of its type; a write carries as many bytes as it says, and no other
    request carries any. *)
Definition well_made (q : HostRequest) (d : option (list N)) : Prop :=
  wf_host_request q = true /\
  match q with
  | HWrite _ wr => exists data, d = Some data /\ Nlen data = wr_len wr
  | _ => d = None
  end.
(** The fields of the SP's answers to requests in range are in the range of their types. *)
Definition answers_in_range {St} (sp : St -> Rpc -> St * reply) : Prop :=
  forall s r resp, wf_message (rpc_message r) = true -> snd (sp s r) = Ok resp -> wf_body (msg_body (rpc_message resp)) = true.
(** Whatever the SP answers, and at whatever point the call fails: each of its requests is well made. *)
Definition makes_well {St A} (c : ctl (St := St) A) : Prop :=
  forall w q d, In (DRequest q d) (deeds c w) -> well_made q d.
(** The reads of a query are in range. *)
Definition reads_in_range (reads : Identifier -> outcome DecodeError (list MemoryRead)) : Prop :=
  forall id rds rd, reads id = Ok rds -> In rd rds -> wf_read rd = true.
