(** Model of the datapaths printed by controller/src/bin/xcvradm.rs (2148-2337).  Standard output is a list of
    lines and tables; how the [tabled] crate draws a table is not modelled. *)
From Coq Require Import String.
From Verif Require Export CliTables DecodeDatapath.
Import ListNotations.
Open Scope N_scope.

Inductive printed_item := Line (t : text) | Table (records : list (list text)).

(** [bool::to_string] *)
Definition bool_text (b : bool) : text := if b then T "true" else T "false".
(** decode/src/datapath.rs:889-896, 910-917 *)
Definition output_display (o : OutputStatus) : text := match o with OutValid => T "Valid" | OutInvalid => T "Invalid" end.
Definition polarity_display (p : LanePolarity) : text := match p with PolNormal => T "Normal" | PolFlipped => T "Flipped" end.
(** decode/src/datapath.rs:107-114 *)
Definition compliance_display (c : SffComplianceCode) : text :=
  match c with
  | SccExtended e => enum_display tbl_ExtendedSpecificationComplianceCode e
  | SccEthernet b => eth_display b
  end.
(** decode/src/ident.rs:493-503 *)
Definition media_display (m : MediaInterfaceId) : text :=
  match m with
  | MiMmf e => enum_display tbl_MmfMediaInterfaceId e ++ T " (MMF)"
  | MiSmf e => enum_display tbl_SmfMediaInterfaceId e ++ T " (SMF)"
  | MiPassiveCopper e => enum_display tbl_PassiveCopperMediaInterfaceId e ++ T " (Passive copper)"
  | MiActiveCable e => enum_display tbl_ActiveCableMediaInterfaceId e ++ T " (Active cable)"
  | MiBaseT e => enum_display tbl_BaseTMediaInterfaceId e ++ T " (BASE-T)"
  end.

(** [.map(|p| p.to_string()).unwrap_or_else(|| String::from("Unsupported"))] *)
Definition or_unsupported {A} (f : A -> text) (o : option A) : text :=
  match o with Some x => f x | None => T "Unsupported" end.
Definition squelch_text (disabled : bool) : text := if disabled then T "Disabled" else T "Enabled".
(** controller/src/bin/xcvradm.rs:2196-2273 *)
Definition cmis_rows : list (text * (CmisLaneStatus -> text)) :=
  [(T "State", fun st => dps_display (ls_state st));
   (T "Tx enabled", fun st => or_unsupported bool_text (ls_tx_output_enabled st));
   (T "Tx input polarity", fun st => or_unsupported polarity_display (ls_tx_input_polarity st));
   (T "Tx auto-squelch", fun st => or_unsupported squelch_text (ls_tx_auto_squelch_disable st));
   (T "Tx force-squelch", fun st => or_unsupported bool_text (ls_tx_force_squelch st));
   (T "Tx output", fun st => output_display (ls_tx_output_status st));
   (T "Tx failure", fun st => or_unsupported bool_text (ls_tx_failure st));
   (T "Tx LOS", fun st => or_unsupported bool_text (ls_tx_los st));
   (T "Tx LOL", fun st => or_unsupported bool_text (ls_tx_lol st));
   (T "Tx adaptive EQ fail", fun st => or_unsupported bool_text (ls_tx_adaptive_eq_fail st));
   (T "Rx enabled", fun st => or_unsupported bool_text (ls_rx_output_enabled st));
   (T "Rx output polarity", fun st => or_unsupported polarity_display (ls_rx_output_polarity st));
   (T "Rx auto-squelch", fun st => or_unsupported squelch_text (ls_rx_auto_squelch_disable st));
   (T "Rx output", fun st => output_display (ls_rx_output_status st));
   (T "Rx LOS", fun st => or_unsupported bool_text (ls_rx_los st));
   (T "Rx LOL", fun st => or_unsupported bool_text (ls_rx_lol st))].

(** controller/src/bin/xcvradm.rs:2184-2192 *)
Definition lanes_text (supported_lanes : N) : text :=
  join [44] (map (fun index => show_u8 (index + 1))
                 (filter (fun bit => negb (N.land supported_lanes (2 ^ bit) =? 0)) (nrange 0 8))).
(** controller/src/bin/xcvradm.rs:2274-2296 *)
Definition cmis_table (d : CmisDatapath) : list printed_item :=
  match cd_lane_status d with
  | [] => []
  | _ => [Table (([] :: map (fun p => T "Lane " ++ show_u8 (fst p)) (cd_lane_status d))
                 :: map (fun row => fst row :: map (fun p => snd row (snd p)) (cd_lane_status d)) cmis_rows)]
  end.
(** controller/src/bin/xcvradm.rs:2175-2299 *)
Definition print_cmis_datapath (port : N) (connector : benum) (supported_lanes : N)
    (datapaths : list (N * CmisDatapath)) : list printed_item :=
  [Line (T "Port " ++ show_u8 port);
   Line (T "        Connector: " ++ enum_display tbl_ConnectorType connector)] ++
  flat_map (fun p => [Line (T "   Application ID: " ++ show_u8 (fst p));
                      Line (T "  Supported lanes: [" ++ lanes_text supported_lanes ++ T "]");
                      Line (T "   Host interface: " ++
                              enum_display tbl_HostElectricalInterfaceId (ap_host_id (cd_application (snd p))));
                      Line (T "  Media interface: " ++ media_display (ap_media_id (cd_application (snd p))))] ++
                     cmis_table (snd p) ++ [Line []]) datapaths.

(** controller/src/bin/xcvradm.rs:2319-2329 *)
Definition sff_rows : list (text * (Sff8636Datapath -> bool)) :=
  [(T "Tx enabled", sl_tx_enabled); (T "Tx LOS", sl_tx_los); (T "Tx LOL", sl_tx_lol);
   (T "Tx CDR enabled", sl_tx_cdr_enabled); (T "Tx adapt EQ fault", sl_tx_adaptive_eq_fault);
   (T "Tx fault", sl_tx_fault); (T "Rx LOS", sl_rx_los); (T "Rx LOL", sl_rx_lol);
   (T "Rx CDR enabled", sl_rx_cdr_enabled)].
(** controller/src/bin/xcvradm.rs:2304-2337 *)
Definition print_sff8636_datapath (port : N) (connector : benum) (specification : SffComplianceCode)
    (lanes : list Sff8636Datapath) : list printed_item :=
  [Line (T "Port " ++ show_u8 port);
   Line (T "        Connector: " ++ enum_display tbl_ConnectorType connector);
   Line (T "    Specification: " ++ compliance_display specification);
   Line [];
   Table (([] :: map (fun lane => T "Lane " ++ show_u8 lane) (nrange 0 4))
          :: map (fun row => fst row :: map (fun lane => bool_text (snd row lane)) lanes) sff_rows)].

(** controller/src/bin/xcvradm.rs:2148-2170 *)
Fixpoint print_paths (need_newline : bool) (l : list (N * Datapath)) : list printed_item :=
  match l with
  | [] => []
  | (port, path) :: r =>
      (if need_newline then [Line []] else []) ++
      match path with
      | DpSff connector specification lanes => print_sff8636_datapath port connector specification lanes
      | DpCmis connector supported_lanes datapaths => print_cmis_datapath port connector supported_lanes datapaths
      end ++ print_paths true r
  end.
Definition print_datapath (datapath : Result Datapath) : list printed_item := print_paths false (result_iter datapath).
