(** Proofs about JSON forms of datapaths and of decoded values. *)
From Coq Require Import String SpecFloat Sorting.Sorted.
From Verif Require Import Json SpecDecode Tac CodeTextProofs JsonProofs.
Import ListNotations.
Local Open Scope string_scope.

Definition good_media (m : MediaInterfaceId) : Prop :=
  match m with
  | MiMmf e => from_byte tbl_MmfMediaInterfaceId e
  | MiSmf e => from_byte tbl_SmfMediaInterfaceId e
  | MiPassiveCopper e => from_byte tbl_PassiveCopperMediaInterfaceId e
  | MiActiveCable e => from_byte tbl_ActiveCableMediaInterfaceId e
  | MiBaseT e => from_byte tbl_BaseTMediaInterfaceId e
  end.
Lemma media_rt m : good_media m -> media_of_json (media_json m) = Some m.
Proof.
  destruct m as [e|e|e|e|e]; intro H.
  - change (option_map MiMmf (enum_of_json tbl_MmfMediaInterfaceId (enum_json tbl_MmfMediaInterfaceId e)) = Some (MiMmf e)).
    now rewrite (enum_rt tbl_MmfMediaInterfaceId e ltac:(in_tables) H).
  - change (option_map MiSmf (enum_of_json tbl_SmfMediaInterfaceId (enum_json tbl_SmfMediaInterfaceId e)) = Some (MiSmf e)).
    now rewrite (enum_rt tbl_SmfMediaInterfaceId e ltac:(in_tables) H).
  - change (option_map MiPassiveCopper (enum_of_json tbl_PassiveCopperMediaInterfaceId (enum_json tbl_PassiveCopperMediaInterfaceId e))
            = Some (MiPassiveCopper e)).
    now rewrite (enum_rt tbl_PassiveCopperMediaInterfaceId e ltac:(in_tables) H).
  - change (option_map MiActiveCable (enum_of_json tbl_ActiveCableMediaInterfaceId (enum_json tbl_ActiveCableMediaInterfaceId e))
            = Some (MiActiveCable e)).
    now rewrite (enum_rt tbl_ActiveCableMediaInterfaceId e ltac:(in_tables) H).
  - change (option_map MiBaseT (enum_of_json tbl_BaseTMediaInterfaceId (enum_json tbl_BaseTMediaInterfaceId e)) = Some (MiBaseT e)).
    now rewrite (enum_rt tbl_BaseTMediaInterfaceId e ltac:(in_tables) H).
Qed.

Definition named_ethernet (b : N) : Prop := lookup b eth_names <> None.
Definition good_compliance (c : SffComplianceCode) : Prop :=
  match c with
  | SccExtended e => from_byte tbl_ExtendedSpecificationComplianceCode e
  | SccEthernet b => named_ethernet b
  end.
Lemma compliance_rt c : good_compliance c -> compliance_of_json (compliance_json c) = Some c.
Proof.
  destruct c as [e|b]; intro H.
  - change (option_map SccExtended (enum_of_json tbl_ExtendedSpecificationComplianceCode
              (enum_json tbl_ExtendedSpecificationComplianceCode e)) = Some (SccExtended e)).
    now rewrite (enum_rt tbl_ExtendedSpecificationComplianceCode e ltac:(in_tables) H).
  - change (option_map SccEthernet (eth_from_str (eth_display b)) = Some (SccEthernet b)).
    now rewrite eth_lossless.
Qed.
Lemma compliance_lost b : b < 256 -> ~ named_ethernet b -> compliance_of_json (compliance_json (SccEthernet b)) = None.
Proof.
  intros Hb H. change (option_map SccEthernet (eth_from_str (eth_display b)) = None).
  rewrite eth_unknown_unparsed; [reflexivity|exact Hb|].
  unfold named_ethernet in H. destruct (lookup b eth_names); [exfalso; apply H; discriminate|reflexivity].
Qed.

Lemma bool_rt b : bool_of_json (JBool b) = Some b.
Proof. reflexivity. Qed.
Lemma sff_lane_rt x : sff_lane_of_json (sff_lane_json x) = Some x.
Proof. destruct x. reflexivity. Qed.
Lemma flag_rt o : option_of_json bool_of_json (option_json JBool o) = Some o.
Proof. destruct o; reflexivity. Qed.
Lemma polarity_rt o : option_of_json polarity_of_json (option_json polarity_json o) = Some o.
Proof. destruct o as [[]|]; reflexivity. Qed.
Lemma output_rt o : output_of_json (output_json o) = Some o.
Proof. destruct o; reflexivity. Qed.
Lemma lane_rt (x : CmisLaneStatus) : lane_of_json (lane_json x) = Some x.
Proof.
  destruct x as [st a b c d e f g h i j k m n o p]. unfold lane_json, lane_of_json, of_object.
  cbn [ls_state ls_tx_input_polarity ls_tx_output_enabled ls_tx_auto_squelch_disable ls_tx_force_squelch
       ls_rx_output_polarity ls_rx_output_enabled ls_rx_auto_squelch_disable ls_rx_output_status
       ls_tx_output_status ls_tx_failure ls_tx_los ls_tx_lol ls_tx_adaptive_eq_fail ls_rx_los ls_rx_lol].
  cbv zeta. read_field dps_rt. read_field polarity_rt.
  do 3 read_field flag_rt. read_field polarity_rt. do 2 read_field flag_rt. do 2 read_field output_rt.
  do 6 read_field flag_rt. reflexivity.
Qed.

Definition good_app (a : ApplicationDescriptor) : Prop :=
  from_byte tbl_HostElectricalInterfaceId (ap_host_id a) /\ good_media (ap_media_id a) /\
  ap_host_lane_count a < 256 /\ ap_media_lane_count a < 256 /\ ap_host_lane_options a < 256 /\
  ap_media_lane_options a < 256.
Lemma app_rt a : good_app a -> app_of_json (app_json a) = Some a.
Proof.
  intros (H1 & H2 & H3 & H4 & H5 & H6). destruct a as [h m c d e f].
  cbn [ap_host_id ap_media_id ap_host_lane_count ap_media_lane_count ap_host_lane_options ap_media_lane_options] in *.
  pose proof (enum_rt tbl_HostElectricalInterfaceId h ltac:(in_tables) H1) as Hh. pose proof (media_rt m H2) as Hm.
  unfold app_json, app_of_json, of_object.
  cbn [ap_host_id ap_media_id ap_host_lane_count ap_media_lane_count ap_host_lane_options ap_media_lane_options].
  read_field Hh. read_field Hm. read_field (u8_rt c H3). read_field (u8_rt d H4). read_field (u8_rt e H5).
  read_field (u8_rt f H6). reflexivity.
Qed.

Definition good_map {A} (P : A -> Prop) (m : list (N * A)) : Prop :=
  sorted_keys m /\ Forall (fun e => fst e < 256 /\ P (snd e)) m.
Definition good_cmis (d : CmisDatapath) : Prop :=
  good_app (cd_application d) /\ good_map (fun _ => True) (cd_lane_status d).
Lemma cmis_rt d : good_cmis d -> cmis_datapath_of_json (cmis_datapath_json d) = Some d.
Proof.
  intros [Ha [Hs Hm]]. destruct d as [a m]. cbn [cd_application cd_lane_status] in *.
  pose proof (app_rt a Ha) as Hr.
  assert (Hl : map_of_json lane_of_json (map_json lane_json m) = Some m).
  { apply map_rt; [|exact Hs]. revert Hm. apply Forall_impl. intros [k x] [Hk _]. split; [exact Hk|apply lane_rt]. }
  unfold cmis_datapath_json, cmis_datapath_of_json, of_object. cbn [cd_application cd_lane_status].
  read_field Hr. read_field Hl. reflexivity.
Qed.

Definition good_datapath (d : Datapath) : Prop :=
  match d with
  | DpCmis c lanes dps => from_byte tbl_ConnectorType c /\ lanes < 256 /\ good_map good_cmis dps
  | DpSff c s lanes => from_byte tbl_ConnectorType c /\ good_compliance s /\ List.length lanes = 4%nat
  end.
Lemma datapath_rt d : good_datapath d -> datapath_of_json (datapath_json d) = Some d.
Proof.
  destruct d as [c lanes dps|c s lanes].
  - intros (Hc & Hl & Hs & Hm). pose proof (enum_rt tbl_ConnectorType c ltac:(in_tables) Hc) as Hr.
    assert (Hd : map_of_json cmis_datapath_of_json (map_json cmis_datapath_json dps) = Some dps).
    { apply map_rt; [|exact Hs]. revert Hm. apply Forall_impl. intros [k x] [Hk Hx]. split; [exact Hk|].
      now apply cmis_rt. }
    change (cmis_of_json (JObject [(T "connector", enum_json tbl_ConnectorType c); (T "supported_lanes", JInt lanes);
              (T "datapaths", map_json cmis_datapath_json dps)]) = Some (DpCmis c lanes dps)).
    unfold cmis_of_json, of_object. read_field Hr. read_field (u8_rt lanes Hl). read_field Hd. reflexivity.
  - intros (Hc & Hs & Hl). pose proof (enum_rt tbl_ConnectorType c ltac:(in_tables) Hc) as Hr.
    pose proof (compliance_rt s Hs) as Hp.
    assert (Hd : list_of_json sff_lane_of_json (JArray (map sff_lane_json lanes)) = Some lanes).
    { apply list_rt. apply Forall_forall. intros x _. apply sff_lane_rt. }
    change (sff_of_json (JObject [(T "connector", enum_json tbl_ConnectorType c); (T "specification", compliance_json s);
              (T "lanes", JArray (map sff_lane_json lanes))]) = Some (DpSff c s lanes)).
    unfold sff_of_json, of_object. read_field Hr. read_field Hp. read_field Hd. rewrite Hl. reflexivity.
Qed.
(** The exception: a compliance byte without a name makes the whole unreadable. *)
Lemma datapath_lost c b lanes : b < 256 -> ~ named_ethernet b ->
  datapath_of_json (datapath_json (DpSff c (SccEthernet b) lanes)) = None.
Proof.
  intros Hb Hn. pose proof (compliance_lost b Hb Hn) as Hp.
  change (sff_of_json (JObject [(T "connector", enum_json tbl_ConnectorType c);
            (T "specification", compliance_json (SccEthernet b));
            (T "lanes", JArray (map sff_lane_json lanes))]) = None).
  unfold sff_of_json, of_object. erewrite required_eq by reflexivity.
  destruct (enum_of_json _ _); [|reflexivity]. erewrite required_eq by reflexivity. cbn [snd]. rewrite Hp. reflexivity.
Qed.
