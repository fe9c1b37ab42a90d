(** Model of the JSON forms that the derived serde instances of the decode crate (features
    [api-traits]) give to vendor information, monitors and datapaths.  A JSON text is modelled by
    its tree; numbers by their value.  The arrays serde accepts in place of objects for structs are
    not modelled. *)
From Coq Require Import String SpecFloat.
From Verif Require Export DecodeVendor DecodeMonitors DecodeDatapath CodeText.
Import ListNotations.
Local Open Scope string_scope.

Inductive json :=
| JNull
| JBool (b : bool)
| JInt (n : N)
| JFloat (x : f32)
| JString (s : text)
| JArray (l : list json)
| JObject (l : list (text * json)).

(** ** serde's rules *)

(** A float that is no number is written as [null]. *)
Definition float_json (x : f32) : json :=
  match x with S754_finite _ _ _ | S754_zero _ => JFloat x | _ => JNull end.
Definition float_of_json (j : json) : option f32 :=
  match j with JFloat x => Some x | JInt n => Some (f32_of_Z (Z.of_N n)) | _ => None end.
Definition bool_of_json (j : json) : option bool := match j with JBool b => Some b | _ => None end.
Definition u8_of_json (j : json) : option N :=
  match j with JInt n => if (n <? 256)%N then Some n else None | _ => None end.
Definition text_of_json (j : json) : option text := match j with JString s => Some s | _ => None end.

(** [Option<T>] *)
Definition option_json {A} (f : A -> json) (o : option A) : json :=
  match o with Some x => f x | None => JNull end.
Definition option_of_json {A} (f : json -> option A) (j : json) : option (option A) :=
  match j with JNull => Some None | _ => option_map Some (f j) end.

(** [Vec<T>]; arrays and tuples are read as vectors of the right length. *)
Fixpoint sequence {A} (l : list (option A)) : option (list A) :=
  match l with
  | [] => Some []
  | Some x :: r => option_map (cons x) (sequence r)
  | None :: _ => None
  end.
Definition list_of_json {A} (f : json -> option A) (j : json) : option (list A) :=
  match j with JArray l => sequence (map f l) | _ => None end.

(** A struct is an object; other fields are ignored, a repeated field is an error. *)
Definition fields (name : string) (l : list (text * json)) : list json :=
  map snd (filter (fun e => text_eqb (fst e) (T name)) l).
Definition required {A} (name : string) (f : json -> option A) (l : list (text * json)) : option A :=
  match fields name l with [j] => f j | _ => None end.
(** A missing field of type [Option] is [None]. *)
Definition optional {A} (name : string) (f : json -> option A) (l : list (text * json)) : option (option A) :=
  match fields name l with
  | [] => Some None
  | [j] => option_of_json f j
  | _ => None
  end.
Definition of_object {A} (f : list (text * json) -> option A) (j : json) : option A :=
  match j with JObject l => f l | _ => None end.
(** [skip_serializing_if = "Option::is_none"] *)
Definition skip_none {A} (name : string) (f : A -> json) (o : option A) : list (text * json) :=
  match o with Some x => [(T name, f x)] | None => [] end.

(** Enums: [{"variant": content}]; a variant without content also as a string. *)
Definition variant (name : string) (j : json) : json := JObject [(T name, j)].
Definition of_variant {A} (cases : list (string * (json -> option A))) (j : json) : option A :=
  match j with
  | JObject [(t, c)] =>
      match find (fun x => text_eqb (T (fst x)) t) cases with Some (_, f) => f c | None => None end
  | _ => None
  end.
Definition of_unit_variant {A} (cases : list (string * A)) (j : json) : option A :=
  match j with
  | JString t | JObject [(t, JNull)] =>
      match find (fun x => text_eqb (T (fst x)) t) cases with Some (_, a) => Some a | None => None end
  | _ => None
  end.
(** [tag = "type", content = c] *)
Definition tagged (content name : string) (j : json) : json :=
  JObject [(T "type", JString (T name)); (T content, j)].
Definition of_tagged {A} (content : string) (cases : list (string * (json -> option A))) : json -> option A :=
  of_object (fun l =>
    match required "type" text_of_json l with
    | None => None
    | Some t => match find (fun x => text_eqb (T (fst x)) t) cases with
                | Some (_, f) => required content f l
                | None => None
                end
    end).

(** [BTreeMap<u8, T>]: the keys are written as decimal strings. *)
Definition key_text (n : N) : text :=
  if (n <? 10)%N then [48 + n]%N
  else if (n <? 100)%N then [48 + n / 10; 48 + n mod 10]%N
  else [48 + n / 100; 48 + n / 10 mod 10; 48 + n mod 10]%N.
Definition key_of_text (t : text) : option N := find (fun n => text_eqb (key_text n) t) (nrange 0 256).
Definition map_json {A} (f : A -> json) (m : list (N * A)) : json :=
  JObject (map (fun e => (key_text (fst e), f (snd e))) m).
Fixpoint map_entries {A} (f : json -> option A) (l : list (text * json)) (m : list (N * A))
    : option (list (N * A)) :=
  match l with
  | [] => Some m
  | (t, j) :: r =>
      match key_of_text t, f j with
      | Some k, Some x => map_entries f r (entry_set k x m)
      | _, _ => None
      end
  end.
Definition map_of_json {A} (f : json -> option A) : json -> option (list (N * A)) :=
  of_object (fun l => map_entries f l []).

(** [into = "String", try_from = "String"] (decode/src/utils.rs:95-98, 166-181, 238-241) *)
Definition enum_json (t : enum_table) (e : benum) : json := JString (enum_display t e).
Definition enum_of_json (t : enum_table) (j : json) : option benum :=
  match j with JString s => enum_from_str t s | _ => None end.
Definition dps_json (s : CmisDatapathState) : json := JString (dps_display s).
Definition dps_of_json (j : json) : option CmisDatapathState :=
  match j with JString s => dps_from_str s | _ => None end.

Notation "x <-! e ;; f" := (match e with Some x => f | None => None end)
  (at level 61, e at next level, right associativity).

(** ** decode/src/ident.rs *)

(** decode/src/ident.rs:76-82: a newtype around an array. *)
Definition oui_json (o : Oui) : json := JArray [JInt (oui0 o); JInt (oui1 o); JInt (oui2 o)].
Definition oui_of_json (j : json) : option Oui :=
  match list_of_json u8_of_json j with Some [a; b; c] => Some (mkOui a b c) | _ => None end.

(** decode/src/ident.rs:130-155 *)
Definition vendor_json (v : Vendor) : json :=
  JObject [(T "name", JString (v_name v)); (T "oui", oui_json (v_oui v));
           (T "part", JString (v_part v)); (T "revision", JString (v_revision v));
           (T "serial", JString (v_serial v)); (T "date", option_json JString (v_date v))].
Definition vendor_of_json : json -> option Vendor :=
  of_object (fun l =>
    name <-! required "name" text_of_json l ;;
    oui <-! required "oui" oui_of_json l ;;
    part <-! required "part" text_of_json l ;;
    revision <-! required "revision" text_of_json l ;;
    serial <-! required "serial" text_of_json l ;;
    date <-! optional "date" text_of_json l ;;
    Some (mkVendor name oui part revision serial date)).
Definition vendor_info_json (v : VendorInfo) : json :=
  JObject [(T "identifier", enum_json tbl_Identifier (vi_identifier v));
           (T "vendor", vendor_json (vi_vendor v))].
Definition vendor_info_of_json : json -> option VendorInfo :=
  of_object (fun l =>
    id <-! required "identifier" (enum_of_json tbl_Identifier) l ;;
    v <-! required "vendor" vendor_of_json l ;;
    Some (mkVendorInfo id v)).

(** decode/src/ident.rs:476-490 *)
Definition media_json (m : MediaInterfaceId) : json :=
  match m with
  | MiMmf e => tagged "id" "mmf" (enum_json tbl_MmfMediaInterfaceId e)
  | MiSmf e => tagged "id" "smf" (enum_json tbl_SmfMediaInterfaceId e)
  | MiPassiveCopper e => tagged "id" "passive_copper" (enum_json tbl_PassiveCopperMediaInterfaceId e)
  | MiActiveCable e => tagged "id" "active_cable" (enum_json tbl_ActiveCableMediaInterfaceId e)
  | MiBaseT e => tagged "id" "base_t" (enum_json tbl_BaseTMediaInterfaceId e)
  end.
Definition media_of_json : json -> option MediaInterfaceId :=
  of_tagged "id"
    [("mmf", fun j => option_map MiMmf (enum_of_json tbl_MmfMediaInterfaceId j));
     ("smf", fun j => option_map MiSmf (enum_of_json tbl_SmfMediaInterfaceId j));
     ("passive_copper", fun j => option_map MiPassiveCopper (enum_of_json tbl_PassiveCopperMediaInterfaceId j));
     ("active_cable", fun j => option_map MiActiveCable (enum_of_json tbl_ActiveCableMediaInterfaceId j));
     ("base_t", fun j => option_map MiBaseT (enum_of_json tbl_BaseTMediaInterfaceId j))].

(** ** decode/src/monitors.rs *)

(** decode/src/monitors.rs:93-105 *)
Definition power_json (p : ReceiverPower) : json :=
  match p with
  | Average x => variant "average" (float_json x)
  | PeakToPeak x => variant "peak_to_peak" (float_json x)
  end.
Definition power_of_json : json -> option ReceiverPower :=
  of_variant [("average", fun j => option_map Average (float_of_json j));
              ("peak_to_peak", fun j => option_map PeakToPeak (float_of_json j))].

(** [[u8; 2]] *)
Definition word_json (w : word) : json := JArray [JInt (fst w); JInt (snd w)].
Definition word_of_json (j : json) : option word :=
  match list_of_json u8_of_json j with Some [a; b] => Some (a, b) | _ => None end.

(** decode/src/monitors.rs:155-209 *)
Definition aux1_json (a : Aux1Monitor) : json :=
  match a with
  | Aux1Custom w => variant "custom" (word_json w)
  | Aux1TecCurrent x => variant "tec_current" (float_json x)
  end.
Definition aux1_of_json : json -> option Aux1Monitor :=
  of_variant [("custom", fun j => option_map Aux1Custom (word_of_json j));
              ("tec_current", fun j => option_map Aux1TecCurrent (float_of_json j))].
Definition aux2_json (a : Aux2Monitor) : json :=
  match a with
  | Aux2LaserTemperature x => variant "laser_temperature" (float_json x)
  | Aux2TecCurrent x => variant "tec_current" (float_json x)
  end.
Definition aux2_of_json : json -> option Aux2Monitor :=
  of_variant [("laser_temperature", fun j => option_map Aux2LaserTemperature (float_of_json j));
              ("tec_current", fun j => option_map Aux2TecCurrent (float_of_json j))].
Definition aux3_json (a : Aux3Monitor) : json :=
  match a with
  | Aux3LaserTemperature x => variant "laser_temperature" (float_json x)
  | Aux3AdditionalSupplyVoltage x => variant "additional_supply_voltage" (float_json x)
  end.
Definition aux3_of_json : json -> option Aux3Monitor :=
  of_variant [("laser_temperature", fun j => option_map Aux3LaserTemperature (float_of_json j));
              ("additional_supply_voltage",
               fun j => option_map Aux3AdditionalSupplyVoltage (float_of_json j))].

(** decode/src/monitors.rs:118-153 *)
Definition aux_json (a : AuxMonitors) : json :=
  JObject (skip_none "aux1" aux1_json (am_aux1 a) ++ skip_none "aux2" aux2_json (am_aux2 a) ++
           skip_none "aux3" aux3_json (am_aux3 a) ++ skip_none "custom" word_json (am_custom a)).
Definition aux_of_json : json -> option AuxMonitors :=
  of_object (fun l =>
    a1 <-! optional "aux1" aux1_of_json l ;;
    a2 <-! optional "aux2" aux2_of_json l ;;
    a3 <-! optional "aux3" aux3_of_json l ;;
    c <-! optional "custom" word_of_json l ;;
    Some (mkAux a1 a2 a3 c)).

(** decode/src/monitors.rs:20-74 *)
Definition floats_json (l : list f32) : json := JArray (map float_json l).
Definition monitors_json (m : Monitors) : json :=
  JObject (skip_none "temperature" float_json (mo_temperature m) ++
           skip_none "supply_voltage" float_json (mo_supply_voltage m) ++
           skip_none "receiver_power" (fun l => JArray (map power_json l)) (mo_receiver_power m) ++
           skip_none "transmitter_bias_current" floats_json (mo_bias_current m) ++
           skip_none "transmitter_power" floats_json (mo_transmitter_power m) ++
           skip_none "aux_monitors" aux_json (mo_aux m)).
Definition monitors_of_json : json -> option Monitors :=
  of_object (fun l =>
    t <-! optional "temperature" float_of_json l ;;
    v <-! optional "supply_voltage" float_of_json l ;;
    rp <-! optional "receiver_power" (list_of_json power_of_json) l ;;
    bc <-! optional "transmitter_bias_current" (list_of_json float_of_json) l ;;
    tp <-! optional "transmitter_power" (list_of_json float_of_json) l ;;
    a <-! optional "aux_monitors" aux_of_json l ;;
    Some (mkMonitors t v rp bc tp a)).

(** ** decode/src/datapath.rs *)

(** decode/src/datapath.rs:89-103, 131-191 *)
Definition compliance_json (c : SffComplianceCode) : json :=
  match c with
  | SccExtended e => tagged "code" "extended" (enum_json tbl_ExtendedSpecificationComplianceCode e)
  | SccEthernet b => tagged "code" "ethernet" (JString (eth_display b))
  end.
Definition eth_of_json (j : json) : option N :=
  match j with JString s => eth_from_str s | _ => None end.
Definition compliance_of_json : json -> option SffComplianceCode :=
  of_tagged "code"
    [("extended", fun j => option_map SccExtended (enum_of_json tbl_ExtendedSpecificationComplianceCode j));
     ("ethernet", fun j => option_map SccEthernet (eth_of_json j))].

(** decode/src/datapath.rs:675-731 *)
Definition sff_lane_json (x : Sff8636Datapath) : json :=
  JObject [(T "tx_enabled", JBool (sl_tx_enabled x)); (T "tx_los", JBool (sl_tx_los x));
           (T "rx_los", JBool (sl_rx_los x));
           (T "tx_adaptive_eq_fault", JBool (sl_tx_adaptive_eq_fault x));
           (T "tx_fault", JBool (sl_tx_fault x)); (T "tx_lol", JBool (sl_tx_lol x));
           (T "rx_lol", JBool (sl_rx_lol x)); (T "tx_cdr_enabled", JBool (sl_tx_cdr_enabled x));
           (T "rx_cdr_enabled", JBool (sl_rx_cdr_enabled x))].
Definition sff_lane_of_json : json -> option Sff8636Datapath :=
  of_object (fun l =>
    a <-! required "tx_enabled" bool_of_json l ;;
    b <-! required "tx_los" bool_of_json l ;;
    c <-! required "rx_los" bool_of_json l ;;
    d <-! required "tx_adaptive_eq_fault" bool_of_json l ;;
    e <-! required "tx_fault" bool_of_json l ;;
    f <-! required "tx_lol" bool_of_json l ;;
    g <-! required "rx_lol" bool_of_json l ;;
    h <-! required "tx_cdr_enabled" bool_of_json l ;;
    i <-! required "rx_cdr_enabled" bool_of_json l ;;
    Some (mkSffLane a b c d e f g h i)).

(** decode/src/datapath.rs:877-909 *)
Definition output_json (o : OutputStatus) : json :=
  JString (match o with OutValid => T "valid" | OutInvalid => T "invalid" end).
Definition output_of_json : json -> option OutputStatus :=
  of_unit_variant [("valid", OutValid); ("invalid", OutInvalid)].
Definition polarity_json (p : LanePolarity) : json :=
  JString (match p with PolNormal => T "normal" | PolFlipped => T "flipped" end).
Definition polarity_of_json : json -> option LanePolarity :=
  of_unit_variant [("normal", PolNormal); ("flipped", PolFlipped)].

(** decode/src/datapath.rs:758-861 *)
Definition lane_json (x : CmisLaneStatus) : json :=
  let flag := option_json JBool in
  JObject [(T "state", dps_json (ls_state x));
           (T "tx_input_polarity", option_json polarity_json (ls_tx_input_polarity x));
           (T "tx_output_enabled", flag (ls_tx_output_enabled x));
           (T "tx_auto_squelch_disable", flag (ls_tx_auto_squelch_disable x));
           (T "tx_force_squelch", flag (ls_tx_force_squelch x));
           (T "rx_output_polarity", option_json polarity_json (ls_rx_output_polarity x));
           (T "rx_output_enabled", flag (ls_rx_output_enabled x));
           (T "rx_auto_squelch_disable", flag (ls_rx_auto_squelch_disable x));
           (T "rx_output_status", output_json (ls_rx_output_status x));
           (T "tx_output_status", output_json (ls_tx_output_status x));
           (T "tx_failure", flag (ls_tx_failure x)); (T "tx_los", flag (ls_tx_los x));
           (T "tx_lol", flag (ls_tx_lol x));
           (T "tx_adaptive_eq_fail", flag (ls_tx_adaptive_eq_fail x));
           (T "rx_los", flag (ls_rx_los x)); (T "rx_lol", flag (ls_rx_lol x))].
Definition lane_of_json : json -> option CmisLaneStatus :=
  of_object (fun l =>
    let flag name := optional name bool_of_json l in
    state <-! required "state" dps_of_json l ;;
    a <-! optional "tx_input_polarity" polarity_of_json l ;;
    b <-! flag "tx_output_enabled" ;;
    c <-! flag "tx_auto_squelch_disable" ;;
    d <-! flag "tx_force_squelch" ;;
    e <-! optional "rx_output_polarity" polarity_of_json l ;;
    f <-! flag "rx_output_enabled" ;;
    g <-! flag "rx_auto_squelch_disable" ;;
    h <-! required "rx_output_status" output_of_json l ;;
    i <-! required "tx_output_status" output_of_json l ;;
    j <-! flag "tx_failure" ;;
    k <-! flag "tx_los" ;;
    m <-! flag "tx_lol" ;;
    n <-! flag "tx_adaptive_eq_fail" ;;
    o <-! flag "rx_los" ;;
    p <-! flag "rx_lol" ;;
    Some (mkLaneStatus state a b c d e f g h i j k m n o p)).

(** decode/src/datapath.rs:915-952 *)
Definition app_json (a : ApplicationDescriptor) : json :=
  JObject [(T "host_id", enum_json tbl_HostElectricalInterfaceId (ap_host_id a));
           (T "media_id", media_json (ap_media_id a));
           (T "host_lane_count", JInt (ap_host_lane_count a));
           (T "media_lane_count", JInt (ap_media_lane_count a));
           (T "host_lane_assignment_options", JInt (ap_host_lane_options a));
           (T "media_lane_assignment_options", JInt (ap_media_lane_options a))].
Definition app_of_json : json -> option ApplicationDescriptor :=
  of_object (fun l =>
    a <-! required "host_id" (enum_of_json tbl_HostElectricalInterfaceId) l ;;
    b <-! required "media_id" media_of_json l ;;
    c <-! required "host_lane_count" u8_of_json l ;;
    d <-! required "media_lane_count" u8_of_json l ;;
    e <-! required "host_lane_assignment_options" u8_of_json l ;;
    f <-! required "media_lane_assignment_options" u8_of_json l ;;
    Some (mkApp a b c d e f)).

(** decode/src/datapath.rs:737-756 *)
Definition cmis_datapath_json (d : CmisDatapath) : json :=
  JObject [(T "application", app_json (cd_application d));
           (T "lane_status", map_json lane_json (cd_lane_status d))].
Definition cmis_datapath_of_json : json -> option CmisDatapath :=
  of_object (fun l =>
    a <-! required "application" app_of_json l ;;
    s <-! required "lane_status" (map_of_json lane_of_json) l ;;
    Some (mkCmisDatapath a s)).

(** decode/src/datapath.rs:28-64 *)
Definition datapath_json (d : Datapath) : json :=
  match d with
  | DpCmis c lanes dps =>
      variant "cmis" (JObject [(T "connector", enum_json tbl_ConnectorType c);
                               (T "supported_lanes", JInt lanes);
                               (T "datapaths", map_json cmis_datapath_json dps)])
  | DpSff c s lanes =>
      variant "sff8636" (JObject [(T "connector", enum_json tbl_ConnectorType c);
                                  (T "specification", compliance_json s);
                                  (T "lanes", JArray (map sff_lane_json lanes))])
  end.
Definition cmis_of_json : json -> option Datapath :=
  of_object (fun l =>
    c <-! required "connector" (enum_of_json tbl_ConnectorType) l ;;
    s <-! required "supported_lanes" u8_of_json l ;;
    d <-! required "datapaths" (map_of_json cmis_datapath_of_json) l ;;
    Some (DpCmis c s d)).
Definition sff_of_json : json -> option Datapath :=
  of_object (fun l =>
    c <-! required "connector" (enum_of_json tbl_ConnectorType) l ;;
    s <-! required "specification" compliance_of_json l ;;
    d <-! required "lanes" (list_of_json sff_lane_of_json) l ;;
    if Nat.eqb (List.length d) 4 then Some (DpSff c s d) else None).
Definition datapath_of_json : json -> option Datapath :=
  of_variant [("cmis", cmis_of_json); ("sff8636", sff_of_json)].
