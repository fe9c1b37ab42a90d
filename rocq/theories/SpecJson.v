(** Statement of C83: where each item stands in the JSON forms, told by paths, and what readers of
    objects have to accept. *)
From Coq Require Import String Permutation.
From Verif Require Export Json SpecDecode.
Import ListNotations.
Local Open Scope string_scope.
Local Open Scope N_scope.

Inductive step := F (name : string) | I (n : nat).
Fixpoint member (name : text) (l : list (text * json)) : option json :=
  match l with
  | [] => None
  | (t, j) :: r => if list_eq_dec N.eq_dec t name then Some j else member name r
  end.
Fixpoint at_path (p : list step) (j : json) : option json :=
  match p, j with
  | [], _ => Some j
  | F name :: q, JObject l => match member (T name) l with Some x => at_path q x | None => None end
  | I n :: q, JArray l => match nth_error l n with Some x => at_path q x | None => None end
  | _, _ => None
  end.

(** Vendor information. *)
Definition vendor_paths (v : VendorInfo) : Prop :=
  let j := vendor_info_json v in
  let w := vi_vendor v in
  at_path [F "identifier"] j = Some (JString (enum_display tbl_Identifier (vi_identifier v))) /\
  at_path [F "vendor"; F "name"] j = Some (JString (v_name w)) /\
  at_path [F "vendor"; F "oui"; I 0] j = Some (JInt (oui0 (v_oui w))) /\
  at_path [F "vendor"; F "oui"; I 1] j = Some (JInt (oui1 (v_oui w))) /\
  at_path [F "vendor"; F "oui"; I 2] j = Some (JInt (oui2 (v_oui w))) /\
  at_path [F "vendor"; F "oui"; I 3] j = None /\
  at_path [F "vendor"; F "part"] j = Some (JString (v_part w)) /\
  at_path [F "vendor"; F "revision"] j = Some (JString (v_revision w)) /\
  at_path [F "vendor"; F "serial"] j = Some (JString (v_serial w)) /\
  at_path [F "vendor"; F "date"] j = Some (match v_date w with Some d => JString d | None => JNull end).

(** Monitors: what is absent has no member. *)
Definition number (x : f32) : json := JFloat x.
Definition bytes2 (w : word) : json := JArray [JInt (fst w); JInt (snd w)].
Definition named (name : string) (j : json) : json := JObject [(T name, j)].
Definition monitor_paths (m : Monitors) : Prop :=
  let j := monitors_json m in
  at_path [F "temperature"] j = option_map number (mo_temperature m) /\
  at_path [F "supply_voltage"] j = option_map number (mo_supply_voltage m) /\
  at_path [F "receiver_power"] j = option_map (fun l => JArray (map (fun p => match p with
      | Average x => named "average" (number x)
      | PeakToPeak x => named "peak_to_peak" (number x) end) l)) (mo_receiver_power m) /\
  at_path [F "transmitter_bias_current"] j =
    option_map (fun l => JArray (map number l)) (mo_bias_current m) /\
  at_path [F "transmitter_power"] j =
    option_map (fun l => JArray (map number l)) (mo_transmitter_power m) /\
  (mo_aux m = None -> at_path [F "aux_monitors"] j = None) /\
  (forall a, mo_aux m = Some a ->
    at_path [F "aux_monitors"; F "aux1"] j = option_map (fun x => match x with
      | Aux1Custom w => named "custom" (bytes2 w)
      | Aux1TecCurrent x => named "tec_current" (number x) end) (am_aux1 a) /\
    at_path [F "aux_monitors"; F "aux2"] j = option_map (fun x => match x with
      | Aux2LaserTemperature x => named "laser_temperature" (number x)
      | Aux2TecCurrent x => named "tec_current" (number x) end) (am_aux2 a) /\
    at_path [F "aux_monitors"; F "aux3"] j = option_map (fun x => match x with
      | Aux3LaserTemperature x => named "laser_temperature" (number x)
      | Aux3AdditionalSupplyVoltage x => named "additional_supply_voltage" (number x) end) (am_aux3 a) /\
    at_path [F "aux_monitors"; F "custom"] j = option_map bytes2 (am_custom a)).

(** SFF-8636 datapaths. *)
Definition sff_paths (c : benum) (s : SffComplianceCode) (lanes : list Sff8636Datapath) : Prop :=
  let j := datapath_json (DpSff c s lanes) in
  at_path [F "cmis"] j = None /\
  at_path [F "sff8636"; F "connector"] j = Some (JString (enum_display tbl_ConnectorType c)) /\
  at_path [F "sff8636"; F "specification"; F "type"] j =
    Some (JString (match s with SccExtended _ => T "extended" | SccEthernet _ => T "ethernet" end)) /\
  at_path [F "sff8636"; F "specification"; F "code"] j =
    Some (JString (match s with
                   | SccExtended e => enum_display tbl_ExtendedSpecificationComplianceCode e
                   | SccEthernet b => eth_display b end)) /\
  (forall n, nth_error lanes n = None -> at_path [F "sff8636"; F "lanes"; I n] j = None) /\
  (forall n x, nth_error lanes n = Some x ->
    let flag name b := at_path [F "sff8636"; F "lanes"; I n; F name] j = Some (JBool b) in
    flag "tx_enabled" (sl_tx_enabled x) /\ flag "tx_los" (sl_tx_los x) /\
    flag "rx_los" (sl_rx_los x) /\ flag "tx_adaptive_eq_fault" (sl_tx_adaptive_eq_fault x) /\
    flag "tx_fault" (sl_tx_fault x) /\ flag "tx_lol" (sl_tx_lol x) /\ flag "rx_lol" (sl_rx_lol x) /\
    flag "tx_cdr_enabled" (sl_tx_cdr_enabled x) /\ flag "rx_cdr_enabled" (sl_rx_cdr_enabled x)).

(** CMIS datapaths: objects keyed by the application and the lane numbers in decimal. *)
Definition decimal_keys : list string :=
  ["0"; "1"; "2"; "3"; "4"; "5"; "6"; "7"; "8"; "9"; "10"; "11"; "12"; "13"; "14"; "15"].
Definition decimal (n : N) : string := nth (N.to_nat n) decimal_keys "".
Definition flag_or_null (o : option bool) : json := match o with Some b => JBool b | None => JNull end.
Definition polarity_or_null (o : option LanePolarity) : json :=
  match o with
  | Some PolNormal => JString (T "normal")
  | Some PolFlipped => JString (T "flipped")
  | None => JNull
  end.
Definition valid_text (o : OutputStatus) : json :=
  JString (match o with OutValid => T "valid" | OutInvalid => T "invalid" end).
Definition media_kind (m : MediaInterfaceId) : string :=
  match m with
  | MiMmf _ => "mmf" | MiSmf _ => "smf" | MiPassiveCopper _ => "passive_copper"
  | MiActiveCable _ => "active_cable" | MiBaseT _ => "base_t"
  end.
Definition lane_paths (pre : list step) (j : json) (x : CmisLaneStatus) : Prop :=
  let is name v := at_path (pre ++ [F name]) j = Some v in
  is "state" (JString (dps_display (ls_state x))) /\
  is "tx_input_polarity" (polarity_or_null (ls_tx_input_polarity x)) /\
  is "tx_output_enabled" (flag_or_null (ls_tx_output_enabled x)) /\
  is "tx_auto_squelch_disable" (flag_or_null (ls_tx_auto_squelch_disable x)) /\
  is "tx_force_squelch" (flag_or_null (ls_tx_force_squelch x)) /\
  is "rx_output_polarity" (polarity_or_null (ls_rx_output_polarity x)) /\
  is "rx_output_enabled" (flag_or_null (ls_rx_output_enabled x)) /\
  is "rx_auto_squelch_disable" (flag_or_null (ls_rx_auto_squelch_disable x)) /\
  is "rx_output_status" (valid_text (ls_rx_output_status x)) /\
  is "tx_output_status" (valid_text (ls_tx_output_status x)) /\
  is "tx_failure" (flag_or_null (ls_tx_failure x)) /\
  is "tx_los" (flag_or_null (ls_tx_los x)) /\
  is "tx_lol" (flag_or_null (ls_tx_lol x)) /\
  is "tx_adaptive_eq_fail" (flag_or_null (ls_tx_adaptive_eq_fail x)) /\
  is "rx_los" (flag_or_null (ls_rx_los x)) /\
  is "rx_lol" (flag_or_null (ls_rx_lol x)).
Definition cmis_paths (c : benum) (lanes : N) (dps : list (N * CmisDatapath)) : Prop :=
  let j := datapath_json (DpCmis c lanes dps) in
  at_path [F "sff8636"] j = None /\
  at_path [F "cmis"; F "connector"] j = Some (JString (enum_display tbl_ConnectorType c)) /\
  at_path [F "cmis"; F "supported_lanes"] j = Some (JInt lanes) /\
  (forall a, a < 16 -> lookup a dps = None -> at_path [F "cmis"; F "datapaths"; F (decimal a)] j = None) /\
  (forall a d, a < 16 -> lookup a dps = Some d ->
    let pre := [F "cmis"; F "datapaths"; F (decimal a)] in
    let is p v := at_path (pre ++ F "application" :: p) j = Some v in
    let app := cd_application d in
    is [F "host_id"] (JString (enum_display tbl_HostElectricalInterfaceId (ap_host_id app))) /\
    is [F "media_id"; F "type"] (JString (T (media_kind (ap_media_id app)))) /\
    is [F "media_id"; F "id"] (JString (match ap_media_id app with
        | MiMmf e => enum_display tbl_MmfMediaInterfaceId e
        | MiSmf e => enum_display tbl_SmfMediaInterfaceId e
        | MiPassiveCopper e => enum_display tbl_PassiveCopperMediaInterfaceId e
        | MiActiveCable e => enum_display tbl_ActiveCableMediaInterfaceId e
        | MiBaseT e => enum_display tbl_BaseTMediaInterfaceId e end)) /\
    is [F "host_lane_count"] (JInt (ap_host_lane_count app)) /\
    is [F "media_lane_count"] (JInt (ap_media_lane_count app)) /\
    is [F "host_lane_assignment_options"] (JInt (ap_host_lane_options app)) /\
    is [F "media_lane_assignment_options"] (JInt (ap_media_lane_options app)) /\
    (forall n, n < 16 -> lookup n (cd_lane_status d) = None ->
       at_path (pre ++ [F "lane_status"; F (decimal n)]) j = None) /\
    (forall n x, n < 16 -> lookup n (cd_lane_status d) = Some x ->
       lane_paths (pre ++ [F "lane_status"; F (decimal n)]) j x)).

(** A reader of objects with the members [needed] and possibly [others]: the order of members does
    not matter, other members are ignored, a needed one must be there, none may be repeated. *)
Definition object_reader {A} (needed others : list string) (f : json -> option A) : Prop :=
  (forall l l', Permutation l l' -> f (JObject l) = f (JObject l')) /\
  (forall t j l, ~ In t (map T (needed ++ others)) -> f (JObject ((t, j) :: l)) = f (JObject l)) /\
  (forall n l, In n needed -> (forall j, ~ In (T n, j) l) -> f (JObject l) = None) /\
  (forall n l1 l2 l3 a b, In n (needed ++ others) ->
     f (JObject (l1 ++ (T n, a) :: l2 ++ (T n, b) :: l3)) = None) /\
  (forall j, (forall l, j <> JObject l) -> f j = None).
Definition all_object_readers : Prop :=
  object_reader ["identifier"; "vendor"] [] vendor_info_of_json /\
  object_reader ["name"; "oui"; "part"; "revision"; "serial"] ["date"] vendor_of_json /\
  object_reader [] ["temperature"; "supply_voltage"; "receiver_power"; "transmitter_bias_current";
                    "transmitter_power"; "aux_monitors"] monitors_of_json /\
  object_reader [] ["aux1"; "aux2"; "aux3"; "custom"] aux_of_json /\
  object_reader ["connector"; "specification"; "lanes"] [] sff_of_json /\
  object_reader ["connector"; "supported_lanes"; "datapaths"] [] cmis_of_json /\
  object_reader ["application"; "lane_status"] [] cmis_datapath_of_json /\
  object_reader ["host_id"; "media_id"; "host_lane_count"; "media_lane_count";
                 "host_lane_assignment_options"; "media_lane_assignment_options"] [] app_of_json /\
  object_reader ["tx_enabled"; "tx_los"; "rx_los"; "tx_adaptive_eq_fault"; "tx_fault"; "tx_lol"; "rx_lol";
                 "tx_cdr_enabled"; "rx_cdr_enabled"] [] sff_lane_of_json /\
  object_reader ["state"; "rx_output_status"; "tx_output_status"]
    ["tx_input_polarity"; "tx_output_enabled"; "tx_auto_squelch_disable"; "tx_force_squelch";
     "rx_output_polarity"; "rx_output_enabled"; "rx_auto_squelch_disable"; "tx_failure"; "tx_los"; "tx_lol";
     "tx_adaptive_eq_fail"; "rx_los"; "rx_lol"] lane_of_json.

(** A reader refuses objects whose member [name] is [bad]. *)
Definition refuses {A} (f : json -> option A) (name : string) (bad : json -> Prop) : Prop :=
  forall j l l', bad j -> f (JObject (l ++ (T name, j) :: l')) = None.
Definition no_text (j : json) : Prop := match j with JString _ => False | _ => True end.
Definition no_flag (j : json) : Prop := match j with JBool _ => False | _ => True end.
Definition no_number (j : json) : Prop := match j with JFloat _ | JInt _ => False | _ => True end.
Definition no_byte (j : json) : Prop := forall n, j = JInt n -> 256 <= n.
Definition not_null (bad : json -> Prop) (j : json) : Prop := bad j /\ j <> JNull.
(** An array of another length, or with a bad item; an object with a bad value. *)
Definition no_bytes (n : nat) (j : json) : Prop := forall l, j = JArray l -> List.length l <> n \/ exists x, In x l /\ no_byte x.
Definition no_list (bad : json -> Prop) (j : json) : Prop := forall l, j = JArray l -> exists x, In x l /\ bad x.
Definition no_map (bad : json -> Prop) (j : json) : Prop := forall l, j = JObject l -> exists t x, In (t, x) l /\ bad x.
Definition picky_readers : Prop :=
  Forall (fun n => refuses vendor_of_json n no_text) ["name"; "part"; "revision"; "serial"] /\
  refuses vendor_of_json "date" (not_null no_text) /\ refuses vendor_of_json "oui" (no_bytes 3) /\
  Forall (fun n => refuses monitors_of_json n (not_null no_number)) ["temperature"; "supply_voltage"] /\
  Forall (fun n => refuses monitors_of_json n (not_null (no_list no_number))) ["transmitter_bias_current"; "transmitter_power"] /\
  refuses monitors_of_json "receiver_power" (not_null (no_list (fun x => power_of_json x = None))) /\
  refuses monitors_of_json "aux_monitors" (not_null (fun x => aux_of_json x = None)) /\
  refuses aux_of_json "custom" (not_null (no_bytes 2)) /\
  refuses sff_of_json "lanes" (no_list (fun x => sff_lane_of_json x = None)) /\
  refuses sff_of_json "lanes" (fun j => forall l, j = JArray l -> List.length l <> 4%nat) /\
  Forall (fun n => refuses sff_lane_of_json n no_flag) ["tx_enabled"; "tx_los"; "rx_los"; "tx_adaptive_eq_fault"; "tx_fault"; "tx_lol"; "rx_lol";
                 "tx_cdr_enabled"; "rx_cdr_enabled"] /\
  refuses cmis_of_json "supported_lanes" no_byte /\
  refuses cmis_of_json "datapaths" (no_map (fun x => cmis_datapath_of_json x = None)) /\
  refuses cmis_datapath_of_json "application" (fun x => app_of_json x = None) /\
  refuses cmis_datapath_of_json "lane_status" (no_map (fun x => lane_of_json x = None)) /\
  Forall (fun n => refuses app_of_json n no_byte) ["host_lane_count"; "media_lane_count"; "host_lane_assignment_options"; "media_lane_assignment_options"] /\
  Forall (fun n => refuses lane_of_json n (not_null no_flag))
    ["tx_output_enabled"; "tx_auto_squelch_disable"; "tx_force_squelch"; "rx_output_enabled"; "rx_auto_squelch_disable"; "tx_failure"; "tx_los"; "tx_lol";
     "tx_adaptive_eq_fail"; "rx_los"; "rx_lol"].

(** SFF-8636 modules whose Ethernet compliance byte (00h:131) is none of the eight single bits. *)
Definition unnamed_compliance (id : Identifier) (mem : memory) : Prop :=
  sff_kind id = true /\ ~ In (mem (sff_up 0) 131) [1; 2; 4; 8; 16; 32; 64; 128].
