(** Model of controller/src/controller.rs: the controller's API, over an arbitrary I/O loop and SP.

    An API call is a sequential program that issues RPCs.  Everything outside the controller (the
    I/O loop of IoLoop.v, the network, the SP and the modules) is one state machine [sp]: it gets a
    request and produces the reply that [rpc] returns, in any state type [St].  Calls record what
    they do in a log: requests handed to the I/O loop and sleeps.  Logging is not modelled.
    Concurrent API calls on one controller interleave in the code; here one call runs at a time, and
    another caller's effects are part of [sp]. *)
From Verif Require Export Results IoLoop DecodePower.

(** controller/src/controller.rs:66-68, in microseconds. *)
Definition T_RESET : N := 2000000.
Definition T_RESET_INIT : N := 10.

Inductive act := ASend (r : Rpc) | ASleep (micros : N).

(** [w_counter] is [message_id] (controller.rs:86). *)
Record world (St : Type) := mkWorld { w_sp : St; w_counter : N; w_log : list act }.
Arguments mkWorld {St}. Arguments w_sp {St}. Arguments w_counter {St}. Arguments w_log {St}.

Definition Failures := FailedModules TransceiverError.
Definition Result := ModuleResult TransceiverError.

(** controller/src/controller.rs:321-344 *)
Definition ctl_hw_errors (failed : ModuleId) (data : list N) : outcome Error Failures :=
  errs <-? omap_err EProtocol (deserialize_hw_errors failed data) ;;
  Ok (mkFailed failed
        (map (fun p => TeHardware (snd p) (fst (fst p)) (snd (fst p)))
             (combine errs (to_indices failed)))).

(** [slice.split_at(n)]: panics when [n] is too large. *)
Definition split_at {E} (n : nat) (l : list N) : outcome E (list N * list N) :=
  if Nat.leb n (length l) then Ok (firstn n l, skipn n l) else Panic.

(** controller/src/controller.rs:223-235: [hubpack::deserialize(chunk).unwrap().0]. *)
Definition led_of_chunk (chunk : list N) : outcome Error LedState :=
  match dec_led chunk with Some (l, _) => Ok l | None => Panic end.

(** messages/src/message.rs:967-1014: [visit_u32] accepts defined bits only. *)
Definition dec_ext_status : decoder N :=
  dbind dec_u32 (fun v bs => match ext_status_from_bits v with
                             | Some s => Some (s, bs)
                             | None => None
                             end).
(** controller/src/controller.rs:981-985: [n] iterations of the loop. *)
Fixpoint ext_status_loop (n : nat) (data : list N) : outcome Error (list N) :=
  match n with
  | O => Ok []
  | S k => match dec_ext_status data with
           | None => Panic
           | Some (d, rest) => ds <-? ext_status_loop k rest ;; Ok (d :: ds)
           end
  end.

(** [BTreeMap::entry(k).or_insert_with(..)] then [set]: an association list sorted by key. *)
Fixpoint ident_insert (k : Identifier) (port : N) (l : list (Identifier * ModuleId))
    : list (Identifier * ModuleId) :=
  match l with
  | [] => [(k, N.lor m_empty (N.shiftl 1 port))]
  | (k', m) :: r =>
      if benum_eqb k k' then (k', N.lor m (N.shiftl 1 port)) :: r
      else if benum_ltb k k' then (k, N.lor m_empty (N.shiftl 1 port)) :: l
      else (k', m) :: ident_insert k port r
  end.
(** controller/src/controller.rs:195-208.  [set(port).unwrap()] cannot fail: ports come from
    [to_indices]. *)
Definition split_modules_by_identifier (modules : ModuleId) (ids : list Identifier)
    : outcome Error (list (Identifier * ModuleId)) :=
  if Nat.eqb (m_count modules) (length ids)
  then Ok (fold_left (fun o p => ident_insert (snd p) (fst p) o) (zip_data modules ids) [])
  else Panic.

(** controller/src/controller.rs:1326-1334.  Division by a zero length panics; [from_index_iter]
    cannot fail on indices of a mask. *)
Definition split_large_reads (modules : ModuleId) (read : MemoryRead)
    : outcome Error (list ModuleId) :=
  if rd_len read =? 0 then Panic
  else omapM (fun c => ounwrap (from_indices c))
             (chunks (Nat.div MAX_PAYLOAD_SIZE (N.to_nat (rd_len read))) (to_indices modules)).

(** controller/src/controller.rs:1338-1341 *)
Definition fits_in_one_message (modules : ModuleId) (read : MemoryRead) : bool :=
  Nat.leb (m_count modules * N.to_nat (rd_len read)) MAX_PAYLOAD_SIZE.

(** controller/src/controller.rs:1343-1379.  [Page::management_interface] is never [Unknown]. *)
Definition ident_matches (i : ManagementInterface) (ident : Identifier) : bool :=
  match i with
  | Sff8636 => benum_eqb ident Qsfp28 || benum_eqb ident QsfpPlusSff8636
  | Cmis => benum_eqb ident QsfpDD || benum_eqb ident QsfpPlusCmis
  | UnknownInterface _ => false
  end.
Definition verify_ids_for_page (page : Page) (modules : ModuleId) (ids : list Identifier)
    : outcome Error unit :=
  let interface := page_interface page in
  match interface with
  | UnknownInterface _ => Panic
  | _ =>
      match find (fun p => negb (ident_matches interface (snd p))) (zip_data modules ids) with
      | None => Ok tt
      | Some (ix, ident) => Err (ETransceiver (TeInvalidInterfaceForModule ix ident interface))
      end
  end.

(** controller/src/controller.rs:409-444 *)
Definition power_mode_of (c : PowerControl) (status : N) : PowerMode :=
  match c with
  | OverrideLpModePin low => mkPowerMode (if low then PowerLow else PowerHigh) (Some true)
  | UseLpModePin =>
      mkPowerMode (if st_contains status ST_LOW_POWER_MODE then PowerLow else PowerHigh) (Some false)
  end.
Definition is_off (m : PowerMode) : bool := match pm_state m with PowerOff => true | _ => false end.
Definition overridden (m : PowerMode) : bool :=
  match pm_override m with Some true => true | _ => false end.

(** controller/src/controller.rs:771-818: the word and where it goes. *)
Definition power_word (ident : Identifier) (with_override : bool) (state : PowerState)
    : outcome Error (MemoryWrite * N) :=
  let low := match state with PowerLow => true | _ => false end in
  if benum_eqb ident QsfpPlusSff8636 || benum_eqb ident Qsfp28 then
    write <-? omap_err error_of_mgmt (write_new (PageSff SffLower) 93 1) ;;
    Ok (write, N.lor (if low then 2 else 0) (if with_override then 1 else 0))
  else if benum_eqb ident QsfpPlusCmis || benum_eqb ident QsfpDD then
    write <-? omap_err error_of_mgmt (write_new (PageSff SffLower) 26 1) ;;
    Ok (write, N.lor (if low then 16 else 0) (if with_override then 0 else 64))
  else Err (error_of_decode (DeUnsupportedIdentifier ident)).

(** [BTreeMap<u8, P>::insert]: sorted by index, replacing an equal key. *)
Fixpoint index_insert {P} (k : N) (x : P) (l : list (N * P)) : list (N * P) :=
  match l with
  | [] => [(k, x)]
  | (k', x') :: r => if k =? k' then (k, x) :: r
                     else if k <? k' then (k, x) :: l
                     else (k', x') :: index_insert k x r
  end.

(** The result under construction in [parse_modules_by_identifier] and its map. *)
Record parsing (P : Type) := mkParsing
  { ps_modules : ModuleId; ps_failed : ModuleId; ps_errors : list TransceiverError;
    ps_data : list (N * P) }.
Arguments mkParsing {P}. Arguments ps_modules {P}. Arguments ps_failed {P}.
Arguments ps_errors {P}. Arguments ps_data {P}.
Definition parse_fail {P} (s : parsing P) (i : N) (e : TransceiverError) : outcome Error (parsing P) :=
  m <-? ounwrap (m_clear (ps_modules s) i) ;;
  f <-? ounwrap (m_set (ps_failed s) i) ;;
  Ok (mkParsing m f (ps_errors s ++ [e]) (ps_data s)).
Fixpoint first_err {P} (rs : list (Result P)) (i : N) : option TransceiverError :=
  match rs with
  | [] => None
  | r :: rest => match result_nth_err r i with Some e => Some e | None => first_err rest i end
  end.

Section Decodable.
  (** A [ParseFromModule] implementation. *)
  Context {P : Type} (reads : Identifier -> outcome DecodeError (list MemoryRead))
          (parse : Identifier -> list (list N) -> outcome DecodeError P).

  (** controller/src/controller.rs:1235-1291: one module.  In the code the [nth(..).expect(..)]
      are evaluated lazily by [parse]; here all are evaluated. *)
  Definition parse_one (id : Identifier) (rs : list (Result (list N))) (s : parsing P) (i : N)
      : outcome Error (parsing P) :=
    match first_err rs i with
    | Some e => parse_fail s i e
    | None =>
        data <-? omapM (fun r => opt_unwrap (result_nth r i)) rs ;;
        match parse id data with
        | Ok x => Ok (mkParsing (ps_modules s) (ps_failed s) (ps_errors s)
                                (index_insert i x (ps_data s)))
        | Err e => parse_fail s i (TeDecode e)
        | Panic => Panic
        end
    end.
  Fixpoint parse_each (id : Identifier) (rs : list (Result (list N))) (l : list N) (s : parsing P)
      : outcome Error (parsing P) :=
    match l with
    | [] => Ok s
    | i :: r => s' <-? parse_one id rs s i ;; parse_each id rs r s'
    end.
End Decodable.

Section Controller.
  Context {St : Type} (sp : St -> Rpc -> St * reply).

  (** A call: changes the world and ends with a value, an error, or a panic. *)
  Definition ctl (A : Type) := world St -> world St * outcome Error A.
  Definition cret {A} (x : outcome Error A) : ctl A := fun w => (w, x).
  Definition cbind {A B} (c : ctl A) (f : A -> ctl B) : ctl B := fun w =>
    match c w with
    | (w', Ok a) => f a w'
    | (w', Err e) => (w', Err e)
    | (w', Panic) => (w', Panic)
    end.
  Notation "x <-! c ;; f" := (cbind c (fun x => f))
    (at level 61, c at next level, right associativity).

  Definition sleep (t : N) : ctl unit := fun w =>
    (mkWorld (w_sp w) (w_counter w) (w_log w ++ [ASleep t]), Ok tt).

  (** controller/src/controller.rs:185-187, 1301-1316 *)
  Definition rpc (q : HostRequest) (data : option (list N)) : ctl Rpc := fun w =>
    let (counter, h) := next_header (w_counter w) KHostRequest in
    let r := mkRpc h (message_new (BHostRequest q)) data in
    let (s, answer) := sp (w_sp w) r in
    (mkWorld s counter (w_log w ++ [ASend r]), answer).

  Definition unexpected {A} (r : Rpc) : ctl A := cret (Err (EUnexpectedMessage (msg_body (rpc_message r)))).

  (** controller/src/controller.rs:211-241 *)
  Definition leds (modules : ModuleId) : ctl (Result LedState) :=
    response <-! rpc (HLedState modules) None ;;
    match msg_body (rpc_message response) with
    | BSpResponse (SLedState m f as st) =>
        cret (data <-? opt_unwrap (rpc_data response) ;;
              n <-? opt_unwrap (sp_expected_data_len st) ;;
              p <-? split_at n data ;;
              state <-? omapM led_of_chunk (chunks 1 (fst p)) ;;
              failures <-? ctl_hw_errors f (snd p) ;;
              Ok (mkResult m state failures))
    | _ => unexpected response
    end.

  (** controller/src/controller.rs:907-926 *)
  Definition no_payload_request (q : HostRequest) : ctl (Result unit) :=
    response <-! rpc q None ;;
    match msg_body (rpc_message response) with
    | BSpResponse (SAck m f) =>
        cret (data <-? opt_unwrap (rpc_data response) ;;
              failures <-? ctl_hw_errors f data ;;
              Ok (ack_new m failures))
    | _ => unexpected response
    end.
  (** controller/src/controller.rs:244-247, 841-903 *)
  Definition set_leds (m : ModuleId) (s : LedState) := no_payload_request (HSetLedState m s).
  Definition enable_power (m : ModuleId) := no_payload_request (HEnablePower m).
  Definition disable_power (m : ModuleId) := no_payload_request (HDisablePower m).
  Definition assert_reset (m : ModuleId) := no_payload_request (HAssertReset m).
  Definition deassert_reset (m : ModuleId) := no_payload_request (HDeassertReset m).
  Definition clear_disable_latch (m : ModuleId) := no_payload_request (HClearDisableLatch m).
  Definition assert_lpmode (m : ModuleId) := no_payload_request (HAssertLpMode m).
  Definition deassert_lpmode (m : ModuleId) := no_payload_request (HDeassertLpMode m).
  Definition clear_power_fault (m : ModuleId) := no_payload_request (HClearPowerFault m).

  (** controller/src/controller.rs:250-265 *)
  Definition mac_addrs : ctl MacAddrs :=
    response <-! rpc HMacAddrs None ;;
    match msg_body (rpc_message response) with
    | BSpResponse (SMacAddrs (MacOk macs)) => cret (Ok macs)
    | BSpResponse (SMacAddrs (MacError e)) => cret (Err (EMac e))
    | _ => unexpected response
    end.

  (** controller/src/controller.rs:929-960 *)
  Definition ctl_status (modules : ModuleId) : ctl (Result N) :=
    response <-! rpc (HStatus modules) None ;;
    match msg_body (rpc_message response) with
    | BSpResponse (SStatus m f as st) =>
        cret (data <-? opt_unwrap (rpc_data response) ;;
              n <-? opt_unwrap (sp_expected_data_len st) ;;
              p <-? split_at n data ;;
              status <-? omapM (fun x => opt_unwrap (status_from_bits x)) (fst p) ;;
              failures <-? ctl_hw_errors f (snd p) ;;
              Ok (mkResult m status failures))
    | _ => unexpected response
    end.

  (** controller/src/controller.rs:963-995 *)
  Definition extended_status (modules : ModuleId) : ctl (Result N) :=
    response <-! rpc (HExtendedStatus modules) None ;;
    match msg_body (rpc_message response) with
    | BSpResponse (SExtendedStatus m f as st) =>
        cret (data <-? opt_unwrap (rpc_data response) ;;
              n <-? opt_unwrap (sp_expected_data_len st) ;;
              p <-? split_at n data ;;
              status <-? ext_status_loop (m_count m) (fst p) ;;
              failures <-? ctl_hw_errors f (snd p) ;;
              Ok (mkResult m status failures))
    | _ => unexpected response
    end.

  (** controller/src/controller.rs:1107-1150 *)
  Definition read_impl_one_message (modules : ModuleId) (read : MemoryRead)
      : ctl (Result (list N)) :=
    if negb (fits_in_one_message modules read) then cret Panic
    else
      response <-! rpc (HRead modules read) None ;;
      match msg_body (rpc_message response) with
      | BSpResponse (SRead m f _ as rd) =>
          cret (data <-? opt_unwrap (rpc_data response) ;;
                n <-? opt_unwrap (sp_expected_data_len rd) ;;
                p <-? split_at n data ;;
                (* chunks_exact(0) panics *)
                if rd_len read =? 0 then Panic
                else
                  let d := chunks_exact (N.to_nat (rd_len read)) (fst p) in
                  if negb (Nat.eqb (length d) (m_count m)) then Panic
                  else
                    failures <-? ctl_hw_errors f (snd p) ;;
                    Ok (mkResult m d failures))
      | _ => unexpected response
      end.

  (** controller/src/controller.rs:1093-1097 *)
  Fixpoint read_rest (l : list ModuleId) (read : MemoryRead) (response : Result (list N))
      : ctl (Result (list N)) :=
    match l with
    | [] => cret (Ok response)
    | m :: rest =>
        next <-! read_impl_one_message m read ;;
        merged <-! cret (opt_unwrap (result_merge response next)) ;;
        read_rest rest read merged
    end.
  (** controller/src/controller.rs:1082-1099 *)
  Definition read_impl (modules : ModuleId) (read : MemoryRead) : ctl (Result (list N)) :=
    if Nat.eqb (m_count modules) 0 || (rd_len read =? 0)
    then cret (opt_unwrap (result_success modules []))
    else
      split <-! cret (split_large_reads modules read) ;;
      match split with
      | [] => cret Panic
      | m :: rest => first <-! read_impl_one_message m read ;; read_rest rest read first
      end.

  (** controller/src/controller.rs:268-281.  [v[0]] panics on an empty vector. *)
  Definition identifier (modules : ModuleId) : ctl (Result Identifier) :=
    read <-! cret (ounwrap (read_new (PageSff SffLower) 0 1)) ;;
    r <-! read_impl modules read ;;
    cret (ids <-? omapM (fun v => match v with b :: _ => Ok (ident_of_byte b) | [] => Panic end)
                        (mr_data r) ;;
          Ok (mkResult (mr_modules r) ids (mr_failures r))).

  (** controller/src/controller.rs:1066-1078 *)
  Definition ctl_read (modules : ModuleId) (rd : MemoryRead) : ctl (Result (list N)) :=
    if Nat.eqb (m_count modules) 0 || (rd_len rd =? 0)
    then cret (opt_unwrap (result_success modules []))
    else
      ident <-! identifier modules ;;
      _ <-! cret (verify_ids_for_page (rd_page rd) (mr_modules ident) (mr_data ident)) ;;
      r <-! read_impl (mr_modules ident) rd ;;
      cret (Ok (mkResult (mr_modules r) (mr_data r) (failed_merge (mr_failures ident) (mr_failures r)))).

  (** controller/src/controller.rs:1024-1056 *)
  Definition write_impl (modules : ModuleId) (wr : MemoryWrite) (data : list N) : ctl (Result unit) :=
    if negb (wr_len wr =? Nlen data)
    then cret (Err (EInvalidWriteData (wr_len wr) (Nlen data)))
    else
      response <-! rpc (HWrite modules wr) (Some data) ;;
      match msg_body (rpc_message response) with
      | BSpResponse (SWrite m f _) =>
          cret (data <-? opt_unwrap (rpc_data response) ;;
                failures <-? ctl_hw_errors f data ;;
                Ok (ack_new m failures))
      | _ => unexpected response
      end.

  (** controller/src/controller.rs:1005-1020 *)
  Definition ctl_write (modules : ModuleId) (wr : MemoryWrite) (data : list N) : ctl (Result unit) :=
    ident <-! identifier modules ;;
    _ <-! cret (verify_ids_for_page (wr_page wr) (mr_modules ident) (mr_data ident)) ;;
    r <-! write_impl (mr_modules ident) wr data ;;
    cret (Ok (ack_new (mr_modules r) (failed_merge (mr_failures ident) (mr_failures r)))).

  (** controller/src/controller.rs:290-307 *)
  Definition reset (modules : ModuleId) : ctl (Result unit) :=
    a <-! assert_reset modules ;;
    _ <-! sleep T_RESET_INIT ;;
    d <-! deassert_reset (mr_modules a) ;;
    _ <-! sleep T_RESET ;;
    cret (Ok (ack_new (mr_modules d) (failed_merge (mr_failures a) (mr_failures d)))).

  (** controller/src/controller.rs:1216-1222 *)
  Fixpoint read_each (modules : ModuleId) (rds : list MemoryRead) : ctl (list (Result (list N))) :=
    match rds with
    | [] => cret (Ok [])
    | rd :: rest =>
        r <-! read_impl modules rd ;;
        rs <-! read_each modules rest ;;
        cret (Ok (r :: rs))
    end.

  Section Parse.
    Context {P : Type} (reads : Identifier -> outcome DecodeError (list MemoryRead))
            (parse : Identifier -> list (list N) -> outcome DecodeError P).
    (** controller/src/controller.rs:1198-1292 *)
    Fixpoint parse_groups (groups : list (Identifier * ModuleId)) (s : parsing P)
        : ctl (parsing P) :=
      match groups with
      | [] => cret (Ok s)
      | (id, m) :: rest =>
          rds <-! cret (omap_err (fun e => ETransceiver (TeDecode e)) (reads id)) ;;
          rs <-! read_each m rds ;;
          s' <-! cret (parse_each parse id rs (to_indices m) s) ;;
          parse_groups rest s'
      end.
    (** controller/src/controller.rs:1177-1298 *)
    Definition parse_modules_by_identifier (modules : ModuleId) : ctl (Result P) :=
      ident <-! identifier modules ;;
      groups <-! cret (split_modules_by_identifier (mr_modules ident) (mr_data ident)) ;;
      s <-! parse_groups groups
              (mkParsing (mr_modules ident) (fm_modules (mr_failures ident))
                         (fm_errors (mr_failures ident)) []) ;;
      cret (Ok (mkResult (ps_modules s) (map snd (ps_data s))
                         (mkFailed (ps_failed s) (ps_errors s)))).
  End Parse.

  (** controller/src/controller.rs:310-313 *)
  Definition power_control (modules : ModuleId) : ctl (Result PowerControl) :=
    parse_modules_by_identifier power_reads power_parse modules.

  (** controller/src/controller.rs:351-473.  [iter::repeat] is cut to the length of the mask. *)
  Definition power (modules : ModuleId) : ctl (Result PowerMode) :=
    st <-! ctl_status modules ;;
    let (powered, powered_status) :=
      filter_module_data (mr_modules st) (mr_data st)
        (fun _ s => st_contains s (N.lor ST_POWER_GOOD ST_ENABLED)) in
    let unpowered := m_remove (mr_modules st) powered in
    let (in_reset, _) :=
      filter_module_data powered powered_status (fun _ s => st_contains s ST_RESET) in
    let (readable, readable_status) := remove_module_data powered powered_status in_reset in
    r <-! (if Nat.eqb (m_count readable) 0 then cret (Ok result_default)
           else
             control <-! power_control readable ;;
             let (_, rs) := filter_module_data readable readable_status
                              (fun i _ => m_contains (mr_modules control) i) in
             cret (Ok (mkResult (mr_modules control)
                         (map (fun p => power_mode_of (fst p) (snd p))
                              (combine (mr_data control) rs))
                         (mr_failures control)))) ;;
    let failures := failed_merge (mr_failures r) (mr_failures st) in
    let known_off := m_merge unpowered in_reset in
    let (all_modules, all_modes) :=
      merge_module_data known_off (repeat power_mode_default 64) (mr_modules r) (mr_data r) in
    cret (Ok (mkResult all_modules all_modes failures)).

  (** controller/src/controller.rs:765-833: one subgroup of one identifier group.  The state is
      [success_modules], [power_mode], [failures]. *)
  Definition soft := (ModuleId * list PowerMode * Failures)%type.
  Definition soft_write (ident : Identifier) (state : PowerState) (with_override : bool)
      (modules : ModuleId) (s : soft) : ctl soft :=
    let '(_, modes, failures) := s in
    ww <-! cret (power_word ident with_override state) ;;
    r <-! write_impl modules (fst ww) [snd ww] ;;
    let (m', modes') := remove_module_data modules modes (fm_modules (mr_failures r)) in
    cret (Ok (m', modes', failed_merge failures (mr_failures r))).
  Fixpoint soft_groups (state : PowerState) (groups : list (Identifier * ModuleId)) (s : soft)
      : ctl soft :=
    match groups with
    | [] => cret (Ok s)
    | (ident, modules) :: rest =>
        let '(success, modes, _) := s in
        let (with_override, _) := filter_module_data success modes
          (fun i m => m_contains modules i && overridden m) in
        let (without_override, _) := filter_module_data modules modes
          (fun i m => m_contains modules i && negb (overridden m)) in
        s1 <-! soft_write ident state true with_override s ;;
        s2 <-! soft_write ident state false without_override s1 ;;
        soft_groups state rest s2
    end.
  (** controller/src/controller.rs:705-835 *)
  Definition set_software_power_state (pr : Result PowerMode) (state : PowerState)
      : ctl (Result unit) :=
    match state with
    | PowerOff => cret Panic
    | _ =>
        ident <-! identifier (mr_modules pr) ;;
        groups <-! cret (split_modules_by_identifier (mr_modules ident) (mr_data ident)) ;;
        let (success, modes) := keep_module_data (mr_modules pr) (mr_data pr) (mr_modules ident) in
        let failures := failed_merge (mr_failures pr) (mr_failures ident) in
        s <-! soft_groups state groups (success, modes, failures) ;;
        cret (Ok (ack_new (fst (fst s)) (snd s)))
    end.

  (** controller/src/controller.rs:479-696 *)
  Definition set_power_off (modules : ModuleId) : ctl (Result unit) :=
    a <-! deassert_lpmode modules ;;
    b <-! assert_reset (mr_modules a) ;;
    let failures := failed_merge (mr_failures a) (mr_failures b) in
    c <-! disable_power (mr_modules b) ;;
    cret (Ok (mkResult (mr_modules c) (mr_data c) (failed_merge failures (mr_failures c)))).
  Definition set_power_on (modules : ModuleId) (state : PowerState) : ctl (Result unit) :=
    p <-! power modules ;;
    let start_modules := mr_modules p in
    let power_modes := mr_data p in
    if (match state with PowerHigh => true | _ => false end) && existsb is_off power_modes
    then cret (Err EInvalidPowerStateTransition)
    else
      st <-! ctl_status start_modules ;;
      let failures := failed_merge (mr_failures p) (mr_failures st) in
      let modules := mr_modules st in
      let (need_power_enabled, _) := filter_module_data modules (mr_data st)
        (fun _ s => negb (st_contains s (N.lor ST_POWER_GOOD ST_ENABLED))
                    || st_contains s ST_RESET) in
      let (need_reset_deasserted, _) := filter_module_data modules (mr_data st)
        (fun _ s => st_contains s ST_RESET) in
      let need_power_but_not_reset := m_remove need_power_enabled need_reset_deasserted in
      s1 <-! (if Nat.ltb 0 (m_count need_power_but_not_reset)
              then a <-! assert_reset need_power_but_not_reset ;;
                   _ <-! sleep T_RESET_INIT ;;
                   cret (Ok (mr_modules a, failed_merge failures (mr_failures a)))
              else cret (Ok (modules, failures))) ;;
      s2 <-! (if Nat.ltb 0 (m_count need_power_enabled)
              then a <-! enable_power need_power_enabled ;;
                   cret (Ok (mr_modules a, failed_merge (snd s1) (mr_failures a)))
              else cret (Ok s1)) ;;
      l <-! (match state with PowerLow => assert_lpmode (fst s2)
                            | _ => deassert_lpmode (fst s2) end) ;;
      let failures3 := failed_merge (snd s2) (mr_failures l) in
      s4 <-! (if Nat.ltb 0 (m_count need_power_enabled)
              then a <-! deassert_reset need_power_enabled ;;
                   _ <-! sleep T_RESET ;;
                   cret (Ok (mr_modules a, failed_merge failures3 (mr_failures a)))
              else cret (Ok (mr_modules l, failures3))) ;;
      let (_, modes) := keep_module_data start_modules power_modes (fst s4) in
      set_software_power_state (mkResult (fst s4) modes (snd s4)) state.
  Definition set_power (modules : ModuleId) (state : PowerState) : ctl (Result unit) :=
    match state with
    | PowerOff => set_power_off modules
    | _ => set_power_on modules state
    end.
End Controller.
