(** Additions to C07, C50, C52, C53, C58, C65 and C66. *)
From Coq Require Import String Lia.
From Verif Require Import SpecMessages SpecMore MoreProofs.
Import ListNotations.
Open Scope N_scope.

(** C07: every limit is a limit and is reached. *)
Theorem C07_sizes :
  longest wf_page enc_page MAX_SIZE_page /\ longest wf_read enc_read MAX_SIZE_read /\
  longest wf_protocol_error enc_protocol_error MAX_SIZE_protocol_error /\
  longest wf_host_request enc_host_request MAX_SIZE_host_request /\
  longest wf_mac_response enc_mac_response MAX_SIZE_mac_response /\
  longest wf_sp_response enc_sp_response MAX_SIZE_sp_response /\
  longest wf_body enc_body MAX_SIZE_body /\ longest wf_message enc_message MAX_SIZE_message /\
  longest wf_header enc_header MAX_SIZE_header.
Proof. exact longest_all. Qed.
Print Assumptions C07_sizes.

(** C50: whatever is set in whatever order, the last setting of each kind is kept and nothing else is
    touched. *)
Theorem C50_settings : forall name l,
  fold_left make l (builder_new name) =
  mkBuilder name (last_of (fun s => match s with SetAddress a => Some a | _ => None end) l)
    (last_of (fun s => match s with SetPort p => Some p | _ => None end) l)
    (last_of (fun s => match s with SetPeer a => Some a | _ => None end) l)
    (last_of (fun s => match s with SetPeerPort p => Some p | _ => None end) l)
    (last_of (fun s => match s with SetRetryInterval t => Some t | _ => None end) l)
    (last_of (fun s => match s with SetRetries n => Some n | _ => None end) l).
Proof. exact settings_kept. Qed.
Print Assumptions C50_settings.
Example C50_settings_witness :
  fold_left make [SetPort 1; SetRetries 4; SetPort 2; SetRetryInterval 7] (builder_new (T "net0")) =
  mkBuilder (T "net0") None (Some 2) None None (Some 7) (Some 4).
Proof. reflexivity. Qed.

(** C65, C66: the columns of parseable output have the names by which they are asked for. *)
Theorem C65_names :
  names_fields power_field_name power_variant /\ names_fields ident_field_name ident_variant /\
  names_fields vendor_field_name vendor_variant /\ names_fields model_field_name model_variant /\
  names_fields led_field_name led_variant.
Proof. exact names_all. Qed.
Print Assumptions C65_names.
Theorem C65_status_names : forall r sep output, exists rows,
  print_module_status r false (SkParseable sep) output =
    Ok (join sep (map (fun f => kebab (status_variant f)) output) :: rows) /\
  print_module_status r true (SkParseable sep) output = Ok rows.
Proof. exact names_status. Qed.
Print Assumptions C65_status_names.
Theorem C66_names : names_fields monitor_field_name monitor_variant.
Proof. exact names_monitor. Qed.
Print Assumptions C66_names.
Example C65_names_witness :
  kebab "ManufacturedDate" = T "manufactured-date" /\ kebab "AverageRxPower" = T "average-rx-power".
Proof. split; reflexivity. Qed.

(** C53, C58: the arguments name the page they say, or an error; both interfaces or none, which the
    command line does not allow, would panic. *)
Theorem C53_page : forall p, pg_sff p = negb (pg_cmis p) -> (forall n bank, pg_upper p = Some (n, bank) -> n < 256) ->
  (forall g, args_page p = Ok g <-> page_named p g) /\ args_page p <> Panic.
Proof. exact pages_named. Qed.
Print Assumptions C53_page.
Example C53_page_witness :
  page_named (mkPageArgs false true (Some (0x11, Some 2))) (PageCmis (CmisUpper (mkCmisUpper (Some 2) 0x11))) /\
  page_named (mkPageArgs true false None) (PageSff SffLower) /\
  args_page (mkPageArgs true false (Some (0x60, None))) <> Panic.
Proof.
  split; [right; split; [reflexivity|]; split; [unfold bank_fits, cmis_defined, cmis_banked; lia|reflexivity]|].
  split; [left; now split|]. discriminate.
Qed.

(** C52, C58: the data of a write are the bytes that the named file, or else standard input, says in the
    notation asked for; a file needs a notation, for standard input its first two characters tell. *)
Theorem C52_source : forall i data,
  (forall k, in_kind i = Some k ->
     (args_data i = Ok data <-> exists contents, source i = Some contents /\ says_bytes i k contents data)) /\
  (forall f, in_kind i = None -> in_file i = Some f -> args_data i = Err tt) /\
  (forall t, in_kind i = None -> in_file i = None -> in_stdin i = utf8 t -> Forall scalar t -> two_bytes t ->
     (args_data i = Ok data <-> says_bytes i (announced_kind t) (utf8 t) data)).
Proof. exact data_taken. Qed.
Print Assumptions C52_source.
Example C52_source_witness :
  args_data (mkInput 512 512 (Some (Some (T "10 20"))) (Some Decimal) (T "0x7")) = Ok [10; 20] /\
  args_data (mkInput 512 512 None (Some Hex) (T "10 20")) = Ok [16; 32] /\
  args_data (mkInput 512 512 None None (T "0x10 0x20")) = Ok [16; 32] /\
  args_data (mkInput 512 512 (Some None) (Some Hex) (T "10")) = Err tt.
Proof. repeat split; vm_compute; reflexivity. Qed.
