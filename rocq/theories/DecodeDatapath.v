(** Model of decode/src/datapath.rs. *)
From Verif Require Export DecodeVendor DecodeMemory.

(** decode/src/utils.rs:11-17 *)
Definition extract_bit (word bit : N) : outcome DecodeError bool :=
  if 7 <? bit then Err DeBitOutOfRange else Ok (negb (N.land word (2 ^ bit) =? 0)).

(** The total [From<u8>] of a table whose last catch-all matches everything (C44). *)
Definition enum_of (t : enum_table) (b : N) : benum :=
  match enum_from_u8 t b with Some e => e | None => Other 0 b end.

(** decode/src/datapath.rs:87-126.  [EthernetComplianceCode] is its byte. *)
Inductive SffComplianceCode := SccExtended (e : benum) | SccEthernet (b : N).
Definition compliance_new (specification extended : N) : SffComplianceCode :=
  if specification =? 0x80
  then SccExtended (enum_of tbl_ExtendedSpecificationComplianceCode extended)
  else SccEthernet specification.

(** decode/src/datapath.rs:675-731 *)
Record Sff8636Datapath := mkSffLane
  { sl_tx_enabled : bool; sl_tx_los : bool; sl_rx_los : bool; sl_tx_adaptive_eq_fault : bool;
    sl_tx_fault : bool; sl_tx_lol : bool; sl_rx_lol : bool; sl_tx_cdr_enabled : bool;
    sl_rx_cdr_enabled : bool }.

(** decode/src/ident.rs:484-520 *)
Inductive MediaInterfaceId :=
| MiMmf (e : benum) | MiSmf (e : benum) | MiPassiveCopper (e : benum) | MiActiveCable (e : benum)
| MiBaseT (e : benum).
Definition media_interface_from_u8 (media_type : benum) (x : N) : option MediaInterfaceId :=
  match media_type with
  | Named 1 => Some (MiMmf (enum_of tbl_MmfMediaInterfaceId x))
  | Named 2 => Some (MiSmf (enum_of tbl_SmfMediaInterfaceId x))
  | Named 3 => Some (MiPassiveCopper (enum_of tbl_PassiveCopperMediaInterfaceId x))
  | Named 4 => Some (MiActiveCable (enum_of tbl_ActiveCableMediaInterfaceId x))
  | Named 5 => Some (MiBaseT (enum_of tbl_BaseTMediaInterfaceId x))
  | _ => None
  end.

(** decode/src/datapath.rs:924-978 *)
Record ApplicationDescriptor := mkApp
  { ap_host_id : benum; ap_media_id : MediaInterfaceId; ap_host_lane_count : N;
    ap_media_lane_count : N; ap_host_lane_options : N; ap_media_lane_options : N }.
Definition app_from_bytes (media_type : benum) (b : N * N * N * N) (media_options : N)
    : option ApplicationDescriptor :=
  let '(b0, b1, b2, b3) := b in
  match media_interface_from_u8 media_type b1 with
  | None => None
  | Some media_id =>
      Some (mkApp (enum_of tbl_HostElectricalInterfaceId b0) media_id
                  (N.shiftr (N.land b2 0xf0) 4) (N.land b2 0x0f) b3 media_options)
  end.

(** decode/src/datapath.rs:989-1025 *)
Record LaneDatapathConfig := mkLaneConfig
  { lc_app_select_code : N; lc_data_path_id : N; lc_explicit_control : bool }.
Definition lane_config_from (x : N) : LaneDatapathConfig :=
  mkLaneConfig (N.shiftr (N.land x 0xf0) 4) (N.shiftr (N.land x 14) 1) (negb (N.land x 1 =? 0)).
Definition is_assigned (c : LaneDatapathConfig) : bool := negb (lc_app_select_code c =? 0).

(** decode/src/datapath.rs:877-913, 758-861 *)
Inductive LanePolarity := PolNormal | PolFlipped.
Inductive OutputStatus := OutValid | OutInvalid.
Record CmisLaneStatus := mkLaneStatus
  { ls_state : CmisDatapathState;
    ls_tx_input_polarity : option LanePolarity;
    ls_tx_output_enabled : option bool;
    ls_tx_auto_squelch_disable : option bool;
    ls_tx_force_squelch : option bool;
    ls_rx_output_polarity : option LanePolarity;
    ls_rx_output_enabled : option bool;
    ls_rx_auto_squelch_disable : option bool;
    ls_rx_output_status : OutputStatus;
    ls_tx_output_status : OutputStatus;
    ls_tx_failure : option bool;
    ls_tx_los : option bool;
    ls_tx_lol : option bool;
    ls_tx_adaptive_eq_fail : option bool;
    ls_rx_los : option bool;
    ls_rx_lol : option bool }.

(** decode/src/datapath.rs:747-756, 34-63.  [BTreeMap]s are association lists sorted by key. *)
Record CmisDatapath := mkCmisDatapath
  { cd_application : ApplicationDescriptor; cd_lane_status : list (N * CmisLaneStatus) }.
Inductive Datapath :=
| DpCmis (connector : benum) (supported_lanes : N) (datapaths : list (N * CmisDatapath))
| DpSff (connector : benum) (specification : SffComplianceCode) (lanes : list Sff8636Datapath).

(** decode/src/datapath.rs:225-383 *)
Definition datapath_reads (id : Identifier) : outcome DecodeError (list MemoryRead) :=
  if is_sff id then
    tx_enable <-? mgmt (read_new (PageSff SffLower) 86 1) ;;
    los <-? mgmt (read_new (PageSff SffLower) 3 3) ;;
    cdr <-? mgmt (read_new (PageSff SffLower) 98 1) ;;
    p <-? mgmt (sff_upper_new 0) ;;
    compliance <-? mgmt (read_new (PageSff p) 130 2) ;;
    extended_compliance <-? mgmt (read_new (PageSff p) 192 1) ;;
    Ok [tx_enable; los; cdr; compliance; extended_compliance]
  else if is_cmis id then
    p00 <-? mgmt (cmis_new_unbanked 0x00) ;;
    connector_type <-? mgmt (read_new (PageCmis (CmisUpper p00)) 203 7) ;;
    p11 <-? mgmt (cmis_new_banked 0x11 0) ;;
    lane_config <-? mgmt (read_new (PageCmis (CmisUpper p11)) 206 8) ;;
    media_type <-? mgmt (read_new (PageCmis CmisLower) 85 1) ;;
    p01 <-? mgmt (cmis_new_unbanked 0x01) ;;
    media_assignments <-? mgmt (read_new (PageCmis (CmisUpper p01)) 176 8) ;;
    descriptors <-? omapM (fun start => mgmt (read_new (PageCmis CmisLower) start 8))
                          (step_by 86 118 8) ;;
    control_support <-? mgmt (read_new (PageCmis (CmisUpper p01)) 155 4) ;;
    p10 <-? mgmt (cmis_new_banked 0x10 0) ;;
    controls0 <-? mgmt (read_new (PageCmis (CmisUpper p10)) 129 4) ;;
    controls1 <-? mgmt (read_new (PageCmis (CmisUpper p10)) 134 6) ;;
    datapath_state <-? mgmt (read_new (PageCmis (CmisUpper p11)) 128 4) ;;
    lane_status <-? mgmt (read_new (PageCmis (CmisUpper p11)) 132 2) ;;
    tx_lane_flags <-? mgmt (read_new (PageCmis (CmisUpper p11)) 135 4) ;;
    rx_lane_flags <-? mgmt (read_new (PageCmis (CmisUpper p11)) 147 2) ;;
    Ok ([connector_type; lane_config; media_type; media_assignments] ++ descriptors
        ++ [control_support; controls0; controls1; datapath_state; lane_status; tx_lane_flags;
            rx_lane_flags])
  else Err (DeUnsupportedIdentifier id).

(** [reads.next().expect(..)] for the [k]th read, and [l[k]]: panic when absent. *)
Definition read_at (reads : list (list N)) (k : nat) : outcome DecodeError (list N) :=
  opt_unwrap (nth_error reads k).
Definition byte_at (l : list N) (k : nat) : outcome DecodeError N := opt_unwrap (nth_error l k).
(** [assert_eq!(l.len(), n)] *)
Definition assert_len (l : list N) (n : nat) : outcome DecodeError unit :=
  if Nat.eqb (length l) n then Ok tt else Panic.

(** decode/src/datapath.rs:413-451: one lane *)
Definition sff_lane (tx_enable los0 los1 los2 cdr : N) (lane : N) : outcome DecodeError Sff8636Datapath :=
  tx_disabled <-? extract_bit tx_enable lane ;;
  let tx_lane := lane + 4 in
  tx_los <-? extract_bit los0 tx_lane ;;
  tx_adaptive_eq_fault <-? extract_bit los1 tx_lane ;;
  tx_fault <-? extract_bit los1 lane ;;
  tx_lol <-? extract_bit los2 tx_lane ;;
  rx_los <-? extract_bit los0 lane ;;
  rx_lol <-? extract_bit los2 lane ;;
  tx_cdr_enabled <-? extract_bit cdr tx_lane ;;
  rx_cdr_enabled <-? extract_bit cdr lane ;;
  Ok (mkSffLane (negb tx_disabled) tx_los rx_los tx_adaptive_eq_fault tx_fault tx_lol rx_lol
                tx_cdr_enabled rx_cdr_enabled).

(** decode/src/datapath.rs:387-459.  The range [0..4] yields four lanes, so [try_into] succeeds. *)
Definition sff_datapath (reads : list (list N)) : outcome DecodeError Datapath :=
  tx_enable <-? read_at reads 0 ;; _ <-? assert_len tx_enable 1 ;;
  los <-? read_at reads 1 ;; _ <-? assert_len los 3 ;;
  cdr <-? read_at reads 2 ;; _ <-? assert_len cdr 1 ;;
  compliance <-? read_at reads 3 ;; _ <-? assert_len compliance 2 ;;
  extended_compliance <-? read_at reads 4 ;; _ <-? assert_len extended_compliance 1 ;;
  c0 <-? byte_at compliance 0 ;;
  c1 <-? byte_at compliance 1 ;;
  e0 <-? byte_at extended_compliance 0 ;;
  t0 <-? byte_at tx_enable 0 ;;
  l0 <-? byte_at los 0 ;; l1 <-? byte_at los 1 ;; l2 <-? byte_at los 2 ;;
  d0 <-? byte_at cdr 0 ;;
  lanes <-? omapM (sff_lane t0 l0 l1 l2 d0) (nrange 0 4) ;;
  Ok (DpSff (enum_of tbl_ConnectorType c0) (compliance_new c1 e0) lanes).

(** [.chunks_exact(4)], each as [[u8; 4]] *)
Fixpoint quads (l : list N) : list (N * N * N * N) :=
  match l with a :: b :: c :: d :: r => (a, b, c, d) :: quads r | _ => [] end.

(** decode/src/datapath.rs:506-522: the applications up to the end of the list.  [i] is the
    position in [media_assignments]. *)
Fixpoint supported_applications (media_type : benum) (media_assignments : list N) (i : nat)
    (ds : list (N * N * N * N)) : outcome DecodeError (list ApplicationDescriptor) :=
  match ds with
  | [] => Ok []
  | d :: rest =>
      assignment <-? byte_at media_assignments i ;;
      app <-? opt_unwrap (app_from_bytes media_type d assignment) ;;
      if benum_eqb (ap_host_id app) (Named 0xff) then Ok []
      else apps <-? supported_applications media_type media_assignments (S i) rest ;; Ok (app :: apps)
  end.

(** [map.entry(k).or_insert_with(|| x)] followed by an update of the value, on a sorted
    association list. *)
Fixpoint entry_update {A} (k : N) (new : A) (f : A -> A) (l : list (N * A)) : list (N * A) :=
  match l with
  | [] => [(k, f new)]
  | (k', x) :: r => if k =? k' then (k, f x) :: r
                    else if k <? k' then (k, f new) :: l
                    else (k', x) :: entry_update k new f r
  end.
(** [BTreeMap::insert] *)
Definition entry_set {A} (k : N) (x : A) (l : list (N * A)) : list (N * A) :=
  entry_update k x (fun _ => x) l.

(** decode/src/datapath.rs:530-545: AppSel code to (application, lanes). *)
Definition active := list (N * (ApplicationDescriptor * list N)).
Fixpoint active_applications (apps : list ApplicationDescriptor) (lane : N)
    (configs : list LaneDatapathConfig) (m : active) : outcome DecodeError active :=
  match configs with
  | [] => Ok m
  | c :: rest =>
      m' <-? (if is_assigned c then
                app <-? opt_unwrap (nth_error apps (N.to_nat (lc_app_select_code c - 1))) ;;
                Ok (entry_update (lc_app_select_code c) (app, [])
                                 (fun x => (fst x, snd x ++ [lane])) m)
              else Ok m) ;;
      active_applications apps (lane + 1) rest m'
  end.

(** decode/src/datapath.rs:547-558 *)
Definition supported_bit_is_set (support bit control lane : N) : option bool :=
  match extract_bit support bit with
  | Ok true => match extract_bit control lane with Ok b => Some b | _ => None end
  | _ => None
  end.
Definition polarity (x : bool) : LanePolarity := if x then PolFlipped else PolNormal.
(** [word & (1 << lane) != 0] *)
Definition output_status (w lane : N) : OutputStatus :=
  if negb (N.land w (2 ^ lane) =? 0) then OutValid else OutInvalid.

(** decode/src/datapath.rs:571-651: one lane *)
Definition cmis_lane (support controls0 controls1 datapath_state lane_status tx_flags rx_flags : list N)
    (lane : N) : outcome DecodeError CmisLaneStatus :=
  s0 <-? byte_at support 0 ;; s1 <-? byte_at support 1 ;;
  a0 <-? byte_at controls0 0 ;; a1 <-? byte_at controls0 1 ;;
  a2 <-? byte_at controls0 2 ;; a3 <-? byte_at controls0 3 ;;
  c3 <-? byte_at controls1 3 ;; c4 <-? byte_at controls1 4 ;; c5 <-? byte_at controls1 5 ;;
  l0 <-? byte_at lane_status 0 ;; l1 <-? byte_at lane_status 1 ;;
  s2 <-? byte_at support 2 ;;
  t0 <-? byte_at tx_flags 0 ;; t1 <-? byte_at tx_flags 1 ;;
  t2 <-? byte_at tx_flags 2 ;; t3 <-? byte_at tx_flags 3 ;;
  s3 <-? byte_at support 3 ;;
  r0 <-? byte_at rx_flags 0 ;;
  let shift := if N.modulo lane 2 =? 1 then 0 else 4 in
  d <-? byte_at datapath_state (N.to_nat (lane / 2)) ;;
  let nibble := N.shiftr (N.land d (N.shiftl 0x0f shift)) shift in
  state <-? dps_try_from nibble ;;
  r1 <-? byte_at rx_flags 1 ;;
  Ok (mkLaneStatus state
        (option_map polarity (supported_bit_is_set s0 0 a0 lane))
        (option_map negb (supported_bit_is_set s0 1 a1 lane))
        (supported_bit_is_set s0 2 a2 lane)
        (supported_bit_is_set s0 3 a3 lane)
        (option_map polarity (supported_bit_is_set s1 0 c3 lane))
        (option_map negb (supported_bit_is_set s1 1 c4 lane))
        (supported_bit_is_set s1 2 c5 lane)
        (output_status l0 lane)
        (output_status l1 lane)
        (supported_bit_is_set s2 0 t0 lane)
        (supported_bit_is_set s2 1 t1 lane)
        (supported_bit_is_set s2 2 t2 lane)
        (supported_bit_is_set s2 3 t3 lane)
        (supported_bit_is_set s3 1 r0 lane)
        (supported_bit_is_set s3 2 r1 lane)).

(** decode/src/datapath.rs:569-666: the lanes of one application are added one by one. *)
Fixpoint add_lanes (status : N -> outcome DecodeError CmisLaneStatus) (app_sel : N)
    (app : ApplicationDescriptor) (lanes : list N) (m : list (N * CmisDatapath))
    : outcome DecodeError (list (N * CmisDatapath)) :=
  match lanes with
  | [] => Ok m
  | lane :: rest =>
      st <-? status lane ;;
      add_lanes status app_sel app rest
        (entry_update app_sel (mkCmisDatapath app [])
           (fun d => mkCmisDatapath (cd_application d) (entry_set (1 + lane) st (cd_lane_status d))) m)
  end.
Fixpoint add_applications (status : N -> outcome DecodeError CmisLaneStatus) (l : active)
    (m : list (N * CmisDatapath)) : outcome DecodeError (list (N * CmisDatapath)) :=
  match l with
  | [] => Ok m
  | (app_sel, (app, lanes)) :: rest =>
      m' <-? add_lanes status app_sel app lanes m ;; add_applications status rest m'
  end.

(** decode/src/datapath.rs:460-672 *)
Definition cmis_datapath (reads : list (list N)) : outcome DecodeError Datapath :=
  connector_type <-? read_at reads 0 ;; _ <-? assert_len connector_type 7 ;;
  c0 <-? byte_at connector_type 0 ;;
  c6 <-? byte_at connector_type 6 ;;
  let supported_lanes := N.lxor c6 0xff in
  lane_config <-? read_at reads 1 ;; _ <-? assert_len lane_config 8 ;;
  let lane_configs := map lane_config_from lane_config in
  media <-? (l <-? read_at reads 2 ;; byte_at l 0) ;;
  let media_type := enum_of tbl_MediaType media in
  media_assignments <-? read_at reads 3 ;;
  q0 <-? read_at reads 4 ;; q1 <-? read_at reads 5 ;;
  q2 <-? read_at reads 6 ;; q3 <-? read_at reads 7 ;;
  let descriptors := quads q0 ++ quads q1 ++ quads q2 ++ quads q3 in
  apps <-? supported_applications media_type media_assignments 0 descriptors ;;
  act <-? active_applications apps 0 lane_configs [] ;;
  support <-? read_at reads 8 ;; controls0 <-? read_at reads 9 ;; controls1 <-? read_at reads 10 ;;
  datapath_state <-? read_at reads 11 ;; lane_status <-? read_at reads 12 ;;
  tx_lane_flags <-? read_at reads 13 ;; rx_lane_flags <-? read_at reads 14 ;;
  datapaths <-? add_applications (cmis_lane support controls0 controls1 datapath_state lane_status
                                    tx_lane_flags rx_lane_flags) act [] ;;
  Ok (DpCmis (enum_of tbl_ConnectorType c0) supported_lanes datapaths).

(** decode/src/datapath.rs:385-673 *)
Definition datapath_parse (id : Identifier) (reads : list (list N)) : outcome DecodeError Datapath :=
  if is_sff id then sff_datapath reads
  else if is_cmis id then cmis_datapath reads
  else Err (DeUnsupportedIdentifier id).
