(** Specification vocabulary for the controller API (C28-C40). *)
From Verif Require Export SpecIo SpecResults Controller.

(** ** What a call did *)
Inductive done := DRequest (q : HostRequest) (data : option (list N)) | DSleep (micros : N).
Definition deed (a : act) : list done :=
  match a with
  | ASend r => match msg_body (rpc_message r) with BHostRequest q => [DRequest q (rpc_data r)] | _ => [] end
  | ASleep t => [DSleep t]
  end.
(** What call [c] does from world [w]: the new part of the log. *)
Definition deeds {St A} (c : ctl (St := St) A) (w : world St) : list done :=
  flat_map deed (skipn (length (w_log w)) (w_log (fst (c w)))).

(** ** An SP that answers for each module *)
(** The verdict on one module: data, or an error code. *)
Definition verdict := (list N + N)%type.
Definition is_good (v : verdict) : bool := match v with inl _ => true | inr _ => false end.
Definition good_data (v : verdict) : list N := match v with inl d => d | inr _ => [] end.
Definition bad_code (v : verdict) : N := match v with inl _ => 0 | inr e => e end.

(** The mask of a list of ports. *)
Definition port_mask (l : list N) : N := fold_right (fun i m => N.setbit m i) 0 l.
Definition good_ports (m : N) (f : N -> verdict) : list N := filter (fun i => is_good (f i)) (to_indices m).
Definition bad_ports (m : N) (f : N -> verdict) : list N :=
  filter (fun i => negb (is_good (f i))) (to_indices m).
Definition good_mask (m : N) (f : N -> verdict) : N := port_mask (good_ports m f).

(** The modules a request addresses and the number of bytes it asks of each. *)
Definition request_modules (q : HostRequest) : N :=
  match q with
  | HRead m _ | HWrite m _ | HStatus m | HAssertReset m | HDeassertReset m | HAssertLpMode m
  | HDeassertLpMode m | HEnablePower m | HDisablePower m | HClearPowerFault m | HLedState m
  | HExtendedStatus m | HClearDisableLatch m | HManagementInterface m _ | HSetLedState m _ => m
  | HMacAddrs => 0
  end.
Definition request_unit (q : HostRequest) : nat :=
  match q with
  | HRead _ rd => N.to_nat (rd_len rd)
  | HStatus _ | HLedState _ => 1
  | HExtendedStatus _ => 4
  | _ => 0
  end.
(** The response to [q] with these successful and failed modules. *)
Definition response_to (q : HostRequest) (good bad : N) : SpResponse :=
  match q with
  | HRead _ rd => SRead good bad rd
  | HWrite _ wr => SWrite good bad wr
  | HStatus _ => SStatus good bad
  | HLedState _ => SLedState good bad
  | HExtendedStatus _ => SExtendedStatus good bad
  | _ => SAck good bad
  end.
Definition honest_reply (h : Header) (q : HostRequest) (f : N -> verdict) : reply :=
  let m := request_modules q in
  Ok (mkRpc (header_new (h_id h) KSpResponse)
        (message_new (BSpResponse (response_to q (port_mask (good_ports m f))
                                                 (port_mask (bad_ports m f)))))
        (Some (concat (map (fun i => good_data (f i)) (good_ports m f))
               ++ map (fun i => bad_code (f i)) (bad_ports m f)))).

(** An SP given by its verdicts and its state changes, both arbitrary. *)
Record honest (St : Type) := mkHonest
  { hs_verdict : St -> HostRequest -> option (list N) -> N -> verdict;
    hs_next : St -> HostRequest -> option (list N) -> St }.
Arguments hs_verdict {St}. Arguments hs_next {St}. Arguments mkHonest {St}.
Definition honest_sp {St} (a : honest St) (s : St) (r : Rpc) : St * reply :=
  match msg_body (rpc_message r) with
  | BHostRequest q =>
      (hs_next a s q (rpc_data r),
       honest_reply (rpc_header r) q (hs_verdict a s q (rpc_data r)))
  | _ => (s, Err EIo)
  end.
(** Verdicts have the size asked for and consist of bytes. *)
Definition honest_ok {St} (a : honest St) : Prop :=
  forall s q d i, match hs_verdict a s q d i with
                  | inl x => length x = request_unit q /\ bytes x = true
                  | inr e => e < 256
                  end.

(** In state [s], and after any further reads, reading module [i] gives [mem i]. *)
Definition reads_as {St} (a : honest St) (s : St) (mem : N -> MemoryRead -> verdict) : Prop :=
  forall (before : list (N * MemoryRead)) m rd i,
    hs_verdict a (fold_left (fun s c => hs_next a s (HRead (fst c) (snd c)) None) before s)
               (HRead m rd) None i = mem i rd.

(** ** What a call reports *)
(** The error of module [i] for code [b] (codes: C13). *)
Definition hw_fault (i b : N) : TransceiverError :=
  TeHardware i (fst (decode_hw_error b)) (snd (decode_hw_error b)).

(** The result says, for every module of [m] and no other, what [f] says. *)
Definition reports {P} (m : N) (f : N -> P + TransceiverError) (r : Result P) : Prop :=
  wf_result r /\
  (forall i x, succeeds r i x <-> member i m /\ f i = inl x) /\
  (forall i e, fails r i e <-> member i m /\ f i = inr e).

(** Verdicts as reported values. *)
Definition told {P} (dec : list N -> P) (f : N -> verdict) (i : N) : P + TransceiverError :=
  match f i with inl d => inl (dec d) | inr b => inr (hw_fault i b) end.
(** First [f], then, for modules that passed, [g]. *)
Definition and_then {P Q} (f : N -> P + TransceiverError) (g : N -> Q + TransceiverError) (i : N)
    : Q + TransceiverError :=
  match f i with inr e => inr e | inl _ => g i end.

(** The read of a module's identifier, and the identifier of a module. *)
Definition ident_read : MemoryRead := mkRead (PageSff SffLower) 0 1.
Definition ident_told (mem : N -> MemoryRead -> verdict) (i : N) : Identifier + TransceiverError :=
  told (fun d => ident_of_byte (hd 0 d)) (fun i => mem i ident_read) i.

(** ** Raw responses *)
(** What the I/O loop answers to request [q] made from world [w]. *)
Definition answer {St} (sp : St -> Rpc -> St * reply) (w : world St) (q : HostRequest)
    (d : option (list N)) : reply :=
  snd (sp (w_sp w) (mkRpc (header_new (w_counter w) KHostRequest) (message_new (BHostRequest q)) d)).
(** The reply is the response [r] followed by the per-module [items] (each of [r]'s unit size) in
    port order and one error byte per failed module in port order. *)
Definition documented_reply (x : reply) (r : SpResponse) (items : list (list N)) (errs : list N) : Prop :=
  exists h msg,
    x = Ok (mkRpc h msg (Some (concat items ++ errs))) /\ msg_body msg = BSpResponse r /\
    resp_modules r < 2 ^ 64 /\ resp_failed r < 2 ^ 64 /\
    documented r (to_indices (resp_modules r)) (to_indices (resp_failed r)) items errs.
(** The result carries value [dec x] for the item [x] of each responding port, and the fault of the
    error byte of each failed port. *)
Definition attaches {P} (r : SpResponse) (dec : list N -> P) (items : list (list N)) (errs : list N)
    (res : Result P) : Prop :=
  mr_modules res = resp_modules r /\ fm_modules (mr_failures res) = resp_failed r /\
  one_each (mr_modules res) (mr_data res) /\ wf_failed (mr_failures res) /\
  (forall i v, succeeds res i v <-> exists x, at_port (resp_modules r) items i x /\ v = dec x) /\
  (forall i e, fails res i e <-> exists b, at_port (resp_failed r) errs i b /\ e = hw_fault i b).

(** Decoded items. *)
Definition led_of (x : list N) : LedState :=
  match x with [1] => LedOn | [2] => LedBlink | _ => LedOff end.
Definition le_value (x : list N) : N := fold_right (fun b v => b + 256 * v) 0 x.

(** ** Identifiers and interfaces *)
(** The identifier answers to the identifier read made from [w], and that read. *)
Definition ids_seen {St} (a : honest St) (w : world St) (m : N) : N -> Identifier + TransceiverError :=
  told (fun d => ident_of_byte (hd 0 d)) (hs_verdict a (w_sp w) (HRead m ident_read) None).
Definition ident_request (m : N) : list done :=
  if m =? 0 then [] else [DRequest (HRead m ident_read) None].
(** The module speaks the management interface of the page. *)
Definition speaks (id : Identifier) (p : Page) : Prop := management_interface id = Ok (page_interface p).
Definition all_speak (m : N) (ids : N -> Identifier + TransceiverError) (p : Page) : Prop :=
  forall i id, member i m -> ids i = inl id -> speaks id p.
(** Port [i] is the lowest one whose identifier does not match. *)
Definition lowest_other (m : N) (ids : N -> Identifier + TransceiverError) (p : Page)
    (i : N) (id : Identifier) : Prop :=
  member i m /\ ids i = inl id /\ ~ speaks id p /\
  forall j id', j < i -> member j m -> ids j = inl id' -> speaks id' p.
(** The ports of [m] whose answer is a value. *)
Definition passed {P} (m : N) (f : N -> P + TransceiverError) : N :=
  port_mask (filter (fun i => match f i with inl _ => true | inr _ => false end) (to_indices m)).
Definition is_page_write (x : done) : bool := match x with DRequest (HWrite _ _) _ => true | _ => false end.

(** ** Queries that parse module memory *)
Section Query.
  Context {P : Type} (reads : Identifier -> outcome DecodeError (list MemoryRead))
          (parse : Identifier -> list (list N) -> outcome DecodeError P)
          (mem : N -> MemoryRead -> verdict).
  (** The contents of module [i] at these places, or the first error. *)
  Fixpoint gather (i : N) (rds : list MemoryRead) : list (list N) + TransceiverError :=
    match rds with
    | [] => inl []
    | rd :: rest =>
        match mem i rd with
        | inr b => inr (hw_fault i b)
        | inl d => match gather i rest with inl ds => inl (d :: ds) | inr e => inr e end
        end
    end.
  (** What module [i], of kind [id], has to say. *)
  Definition own (id : Identifier) (i : N) : outcome TransceiverError P :=
    match reads id with
    | Ok rds =>
        match gather i rds with
        | inr e => Err e
        | inl ds => match parse id ds with
                    | Ok x => Ok x
                    | Err e => Err (TeDecode e)
                    | Panic => Panic
                    end
        end
    | Err e => Err (TeDecode e)
    | Panic => Panic
    end.
  Definition said (i : N) : outcome TransceiverError P :=
    match ident_told mem i with inl id => own id i | inr e => Err e end.
  (** As a report entry; panics are excluded by the hypotheses of the theorems. *)
  Definition says (i : N) : P + TransceiverError :=
    match said i with Ok x => inl x | Err e => inr e | Panic => inr (TeDecode DeParseFailed) end.

  (** Every module of [m] that answers has a kind the query supports, and its parse does not
      crash. *)
  Definition queryable (m : N) : Prop :=
    forall i, member i m ->
      said i <> Panic /\
      forall id, ident_told mem i = inl id ->
        exists rds, reads id = Ok rds /\ Forall (fun rd => 1 <= rd_len rd <= 255) rds.

  (** The failing modules of [m], in port order, are also in the order in which the query meets
      them: identifier failures, then kind by kind. *)
  Definition fails_in_order (m : N) : Prop :=
    forall i j x y, i < j -> member i m -> member j m -> says i = inr x -> says j = inr y ->
      match ident_told mem i, ident_told mem j with
      | inr _, _ => True
      | inl _, inr _ => False
      | inl a, inl b => a = b \/ benum_ltb a b = true
      end.
End Query.
(** A query meets module [i] before [j]: identifier failures first, then kind by kind, each in port order. *)
Definition met_before (mem : N -> MemoryRead -> verdict) (i j : N) : Prop :=
  match ident_told mem i, ident_told mem j with
  | inr _, inr _ => i < j
  | inr _, inl _ => True
  | inl _, inr _ => False
  | inl x, inl y => benum_ltb x y = true \/ (x = y /\ i < j)
  end.
(** The errors of [f] are taken in the order in which a query meets the failing modules of [m], and given to
    these modules in port order: [g]. *)
Definition handed_out {P} (mem : N -> MemoryRead -> verdict) (m : N) (f g : N -> P + TransceiverError) : Prop :=
  (forall i x, member i m -> (g i = inl x <-> f i = inl x)) /\
  exists order, StronglySorted (met_before mem) order /\
    (forall i, In i order <-> member i m /\ exists e, f i = inr e) /\
    Forall2 (fun i o => exists e, g i = inr e /\ f o = inr e)
      (filter (fun i => match f i with inl _ => false | inr _ => true end) (to_indices m)) order.
(** Failing modules of [m] are met in port order. *)
Definition met_in_order {P} (mem : N -> MemoryRead -> verdict) (m : N) (f : N -> P + TransceiverError) : Prop :=
  forall i j x y, i < j -> member i m -> member j m -> f i = inr x -> f j = inr y -> met_before mem i j.

(** ** Power *)
(** Status bits: 1 supply enabled, 2 in reset, 3 low-power pin, 5 supply good. *)
Definition supplied (s : N) : bool := N.testbit s 1 && N.testbit s 5.
Definition held_in_reset (s : N) : bool := N.testbit s 2.
Definition lpmode_pin (s : N) : bool := N.testbit s 3.
(** A module whose memory can be read: supplied and not in reset. *)
Definition readable (st : N -> verdict) (i : N) : bool :=
  match st i with inl d => supplied (hd 0 d) && negb (held_in_reset (hd 0 d)) | inr _ => false end.

(** The modules of [m] whose memory can be read. *)
Definition readable_mask (m : N) (st : N -> verdict) : N := port_mask (filter (readable st) (to_indices m)).

Definition sff_kind (id : Identifier) : bool := benum_eqb id QsfpPlusSff8636 || benum_eqb id Qsfp28.
Definition cmis_kind (id : Identifier) : bool := benum_eqb id QsfpPlusCmis || benum_eqb id QsfpDD.
Definition supported_kind (id : Identifier) : bool := sff_kind id || cmis_kind id.

(** The software power control of a module: SFF-8636 lower page byte 93, bit 0 overrides the pin
    and bit 1 asks for low power; CMIS lower page byte 26, bit 6 leaves the pin in control and bit 4
    asks for low power. *)
Definition control_says (mem : N -> MemoryRead -> verdict) (i : N) : PowerControl + TransceiverError :=
  match ident_told mem i with
  | inr e => inr e
  | inl id =>
      if sff_kind id then
        told (fun d => let b := hd 0 d in
                       if N.testbit b 0 then OverrideLpModePin (N.testbit b 1) else UseLpModePin)
             (fun i => mem i (mkRead (PageSff SffLower) 93 1)) i
      else
        told (fun d => let b := hd 0 d in
                       if N.testbit b 6 then UseLpModePin else OverrideLpModePin (N.testbit b 4))
             (fun i => mem i (mkRead (PageCmis CmisLower) 26 1)) i
  end.
Definition low_or_high (low : bool) : PowerState := if low then PowerLow else PowerHigh.
(** The power mode of a module with this status and control. *)
Definition power_says (st : N -> verdict) (control : N -> PowerControl + TransceiverError) (i : N)
    : PowerMode + TransceiverError :=
  match st i with
  | inr b => inr (hw_fault i b)
  | inl d =>
      let s := hd 0 d in
      if negb (supplied s) || held_in_reset s then inl (mkPowerMode PowerOff None)
      else match control i with
           | inr e => inr e
           | inl (OverrideLpModePin low) => inl (mkPowerMode (low_or_high low) (Some true))
           | inl UseLpModePin => inl (mkPowerMode (low_or_high (lpmode_pin s)) (Some false))
           end
  end.

(** ** Replies of the right shape (C33) *)
(** The response is of the type the request asks for. *)
Definition answers (q : HostRequest) (r : SpResponse) : bool :=
  match q, r with
  | HRead _ _, SRead _ _ _ | HWrite _ _, SWrite _ _ _ | HStatus _, SStatus _ _
  | HLedState _, SLedState _ _ | HExtendedStatus _, SExtendedStatus _ _ | HMacAddrs, SMacAddrs _ => true
  | (HRead _ _ | HWrite _ _ | HStatus _ | HLedState _ | HExtendedStatus _ | HMacAddrs), _ => false
  | _, SAck _ _ => true
  | _, _ => false
  end.
(** The item has a defined value. *)
Definition in_range (q : HostRequest) (x : list N) : Prop :=
  bytes x = true /\
  match q with
  | HLedState _ => hd 0 x < 3
  | HExtendedStatus _ => le_value x < 512
  | _ => True
  end.
(** [m] is split into [good] and [bad]. *)
Definition splits (m good bad : N) : Prop :=
  forall i, N.testbit m i = N.testbit good i || N.testbit bad i /\
            (N.testbit good i && N.testbit bad i = false).
(** A reply to [q]: an error, or another kind of message, or an answer of the documented shape about
    the modules asked for, with defined values. *)
Definition sane_reply (q : HostRequest) (x : reply) : Prop :=
  match x with
  | Panic => False
  | Err _ => True
  | Ok resp =>
      match msg_body (rpc_message resp) with
      | BSpResponse r =>
          answers q r = true -> q <> HMacAddrs ->
          exists items errs, documented_reply x r items errs /\ unit_size r = request_unit q /\
            splits (request_modules q) (resp_modules r) (resp_failed r) /\ Forall (in_range q) items
      | _ => True
      end
  end.
Definition sane {St} (sp : St -> Rpc -> St * reply) : Prop :=
  forall s h q d, request_modules q < 2 ^ 64 ->
    sane_reply q (snd (sp s (mkRpc h (message_new (BHostRequest q)) d))).
(** The call does not crash. *)
Definition calm {St A} (c : ctl (St := St) A) : Prop := forall w, snd (c w) <> Panic.

(** ** Requests that only look (C37) *)
Definition only_looks (x : done) : Prop :=
  match x with DRequest (HStatus _) _ | DRequest (HRead _ _) _ => True | _ => False end.
(** The answer is of another kind than the request asks for. *)
Definition wrong_kind {St} (sp : St -> Rpc -> St * reply) (w : world St) (q : HostRequest)
    (d : option (list N)) (b : MessageBody) : Prop :=
  exists resp, answer sp w q d = Ok resp /\ msg_body (rpc_message resp) = b /\
    forall r, b = BSpResponse r -> answers q r = false.

(** ** Changing the power state (C38) *)
(** The SP's verdicts do not change during the call. *)
Definition steady {St} (a : honest St) (v : HostRequest -> option (list N) -> N -> verdict) : Prop :=
  forall s q d i, hs_verdict a s q d i = v q d i.
(** All modules of [m] that answer are of kind [k]. *)
Definition all_kind (k : Identifier) (m : N) (mem : N -> MemoryRead -> verdict) : Prop :=
  forall i id, member i m -> ident_told mem i = inl id -> id = k.
Definition lpmode_request (st : PowerState) (m : N) : HostRequest :=
  match st with PowerLow => HAssertLpMode m | _ => HDeassertLpMode m end.
(** The word that leaves the pin in control and asks for [st], and where it goes (C39). *)
Definition soft_place (k : Identifier) : MemoryWrite :=
  mkWrite (PageSff SffLower) (if sff_kind k then 93 else 26) 1.
Definition soft_word (k : Identifier) (override : bool) (st : PowerState) : N :=
  let low := match st with PowerLow => true | _ => false end in
  if sff_kind k then (if low then 2 else 0) + (if override then 1 else 0)
  else (if low then 16 else 0) + (if override then 0 else 64).
(** Modules [good] succeed, all others of [m] fail with one error each. *)
Definition accounts (m good : N) (r : Result unit) : Prop :=
  mr_modules r = good /\ (forall i, member i good -> member i m) /\
  one_each (mr_modules r) (mr_data r) /\ wf_failed (mr_failures r) /\
  (forall i, failed r i <-> member i m /\ ~ member i good).
(** What the software part does to modules [m]: a write to no module, then the write. *)
Definition software_deeds (k : Identifier) (st : PowerState) (m : N) : list done :=
  if m =? 0 then []
  else [DRequest (HWrite 0 (soft_place k)) (Some [soft_word k true st]);
        DRequest (HWrite m (soft_place k)) (Some [soft_word k false st])].
(** Every status answer says the module is supplied and not in reset; or that it is off. *)
Definition all_on (m : N) (v : HostRequest -> option (list N) -> N -> verdict) : Prop :=
  forall mm i d, member i m -> v (HStatus mm) None i = inl d ->
    supplied (hd 0 d) = true /\ held_in_reset (hd 0 d) = false.
Definition all_off (m : N) (v : HostRequest -> option (list N) -> N -> verdict) : Prop :=
  forall mm i d, member i m -> v (HStatus mm) None i = inl d ->
    supplied (hd 0 d) = false \/ held_in_reset (hd 0 d) = true.
(** The modules of [m] whose status says in reset. *)
Definition reset_ports (m : N) (f : N -> verdict) : N :=
  port_mask (filter (fun i => match f i with inl d => held_in_reset (hd 0 d) | inr _ => false end) (to_indices m)).
(** Every pin request that raises a module out of off is obeyed by the modules of [m]. *)
Definition pins_obey (m : N) (v : HostRequest -> option (list N) -> N -> verdict) : Prop :=
  forall mm i, member i m ->
    v (HAssertReset mm) None i = inl [] /\ v (HEnablePower mm) None i = inl [] /\
    v (HAssertLpMode mm) None i = inl [] /\ v (HDeassertReset mm) None i = inl [].
(** The pins of modules [m], of which [r] are in reset, on the way from off to low power. *)
Definition raise_deeds (m r : N) : list done :=
  (if m_remove m r =? 0 then []
   else [DRequest (HAssertReset (m_remove m r)) None; DSleep 10]) ++
  (if m =? 0 then [] else [DRequest (HEnablePower m) None]) ++
  [DRequest (HAssertLpMode m) None] ++
  (if m =? 0 then [] else [DRequest (HDeassertReset m) None; DSleep 2000000]).

(** The calls that send one request without data and expect an acknowledgement, with their request. *)
Definition simple_calls {St} (sp : St -> Rpc -> St * reply) (m : N) (s : LedState) : list (ctl (St := St) (Result unit) * HostRequest) :=
  [(set_leds sp m s, HSetLedState m s); (enable_power sp m, HEnablePower m); (disable_power sp m, HDisablePower m);
   (assert_reset sp m, HAssertReset m); (deassert_reset sp m, HDeassertReset m);
   (clear_disable_latch sp m, HClearDisableLatch m); (assert_lpmode sp m, HAssertLpMode m);
   (deassert_lpmode sp m, HDeassertLpMode m); (clear_power_fault sp m, HClearPowerFault m)].
