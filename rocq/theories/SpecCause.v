(** When a call fails as a whole, and because of what (C77). *)
From Verif Require Export SpecController Queries.

Section Causes.
  Context {St : Type} (sp : St -> Rpc -> St * reply).

  (** The SP's state after the acts of a call. *)
  Fixpoint state_after (s : St) (l : list act) : St :=
    match l with
    | [] => s
    | ASend r :: rest => state_after (fst (sp s r)) rest
    | ASleep _ :: rest => state_after s rest
    end.
  (** Each request among the acts got an answer of the kind it asks for. *)
  Fixpoint all_answered (s : St) (l : list act) : Prop :=
    match l with
    | [] => True
    | ASend r :: rest =>
        (exists q resp v, msg_body (rpc_message r) = BHostRequest q /\ snd (sp s r) = Ok resp /\
           msg_body (rpc_message resp) = BSpResponse v /\ answers q v = true) /\
        all_answered (fst (sp s r)) rest
    | ASleep _ :: rest => all_answered s rest
    end.
  (** The reply [x] to the request [q] makes the call fail with [e]: the request failed with [e]; or it
      was answered with another kind of message; or the answer's error list does not decode; or the SP
      says that it has no MAC addresses. *)
  Definition blames (q : HostRequest) (x : reply) (e : Error) : Prop :=
    x = Err e \/
    exists resp, x = Ok resp /\
      (((forall v, msg_body (rpc_message resp) = BSpResponse v -> answers q v = false) /\
        e = EUnexpectedMessage (msg_body (rpc_message resp))) \/
       (exists v pe, msg_body (rpc_message resp) = BSpResponse v /\ answers q v = true /\ e = EProtocol pe) \/
       (exists b, q = HMacAddrs /\ msg_body (rpc_message resp) = BSpResponse (SMacAddrs (MacError b)) /\
          e = EMac b)).
  (** A call succeeds only when all its requests were answered.  If it fails, all its requests but the
      last were answered, and the last one is to blame; or all were answered and [own] is the cause. *)
  Definition accounted {A} (own : Error -> Prop) (c : ctl A) (w : world St) : Prop :=
    exists l, w_log (fst (c w)) = w_log w ++ l /\ w_sp (fst (c w)) = state_after (w_sp w) l /\
      match snd (c w) with
      | Ok _ => all_answered (w_sp w) l
      | Err e =>
          (all_answered (w_sp w) l /\ own e) \/
          (exists l' r q, l = l' ++ [ASend r] /\ all_answered (w_sp w) l' /\
             msg_body (rpc_message r) = BHostRequest q /\ blames q (snd (sp (state_after (w_sp w) l') r)) e)
      | Panic => True
      end.

  (** Own causes of failure. *)
  Definition none (_ : Error) : Prop := False.
  Definition other_interface (p : Page) (e : Error) : Prop :=
    exists i id, ~ speaks id p /\ e = ETransceiver (TeInvalidInterfaceForModule i id (page_interface p)).
  Definition bad_length (wr : MemoryWrite) (data : list N) (e : Error) : Prop :=
    wr_len wr <> Nlen data /\ e = EInvalidWriteData (wr_len wr) (Nlen data).
  Definition undecodable (reads : Identifier -> outcome DecodeError (list MemoryRead)) (e : Error) : Prop :=
    exists id d, reads id = Err d /\ e = ETransceiver (TeDecode d).
  Definition unsupported (e : Error) : Prop :=
    exists id, supported_kind id = false /\ e = ETransceiver (TeDecode (DeUnsupportedIdentifier id)).
  (** High power asked for, and the power query says that a module is off. *)
  Definition high_while_off (w : world St) (m : ModuleId) (st : PowerState) (e : Error) : Prop :=
    e = EInvalidPowerStateTransition /\ st = PowerHigh /\
    exists r x, snd (power sp m w) = Ok r /\ In x (mr_data r) /\ pm_state x = PowerOff.
End Causes.
