(** Properties C50-C53 and C56-C58: configuration (controller/src/config.rs) and the command-line
    tool (controller/src/bin/xcvradm.rs). *)
From Coq Require Import String.
From Verif Require Import Tac Spec ModuleIdProps SpecController SpecCmd ControllerSim ConfigProofs CliProofs CliProofs2
  CliProofs3 CliProofs4 CliProofs5 CliProofs6.
From Coq Require Import Lia.
Import ListNotations.
Open Scope N_scope.

(** ** C50 *)
Definition if_a : ipv6 := [0x2001; 0; 0; 0; 0; 0; 0; 7].
Definition if_b : ipv6 := [0xfe80; 0; 0; 0; 0; 0; 0; 9].
Definition two_addresses : list ifaddr :=
  [mkIf (T "lo0") (Some (In6 [0; 0; 0; 0; 0; 0; 0; 1])); mkIf (T "net0") (Some (In6 if_a)); mkIf (T "net0") (Some (In6 if_b))].

(** C50: without an explicit address the first link-local address of the interface is used, and there
    being none is the only failure; fields that were set are kept and the others have the documented
    defaults ([filled]). *)
Theorem C50_default : forall ifs b, cb_address b = None ->
  (forall c, build ifs b = Ok c <->
     exists l a, ifs = Some l /\ first_address link_local l (cb_interface b) a /\ c = filled b a) /\
  (forall e, build ifs b = Err e <-> e = EBadInterface (cb_interface b) /\
     forall l a, ifs = Some l -> has_address l (cb_interface b) a -> ~ link_local a) /\
  build ifs b <> Panic.
Proof. exact build_default. Qed.
Print Assumptions C50_default.
Example C50_default_witness :
  build (Some two_addresses) (set_peer_port (builder_new (T "net0")) 7) =
  Ok (mkConfig if_b 11112 (T "net0") [0xff02; 0; 0; 0; 0; 0; 0x1de; 2] 7 1000 None).
Proof. reflexivity. Qed.
(** C50: full claim: "build succeeds with an explicit address exactly when some address of the named
    interface equals it".  False: only the first IPv6 address of the interface is looked at. *)
Theorem C50_explicit_refuted : exists l b a, cb_address b = Some a /\ has_address l (cb_interface b) a /\
  build (Some l) b = Err (EBadInterface (cb_interface b)).
Proof.
  exists two_addresses, (set_address (builder_new (T "net0")) if_b), if_b. split; [reflexivity|]. split; [|reflexivity].
  exists (mkIf (T "net0") (Some (In6 if_b))). split; [right; right; now left|]. split; reflexivity.
Qed.
Print Assumptions C50_explicit_refuted.
(** What holds: it succeeds exactly for the first address of the interface. *)
Theorem C50_explicit_partial : forall ifs b a, cb_address b = Some a ->
  (forall c, build ifs b = Ok c <->
     (exists l, ifs = Some l /\ first_address (fun _ => True) l (cb_interface b) a) /\ c = filled b a) /\
  (forall e, build ifs b = Err e -> e = EBadInterface (cb_interface b)) /\ build ifs b <> Panic.
Proof. exact build_explicit. Qed.
Print Assumptions C50_explicit_partial.
(** So the claim holds for interfaces with one address. *)
Theorem C50_one_address : forall l b a, cb_address b = Some a ->
  (forall x y, has_address l (cb_interface b) x -> has_address l (cb_interface b) y -> x = y) ->
  (build (Some l) b = Ok (filled b a) <-> has_address l (cb_interface b) a).
Proof. exact build_sole. Qed.
Print Assumptions C50_one_address.
Example C50_one_address_witness :
  build (Some two_addresses) (set_address (builder_new (T "lo0")) [0; 0; 0; 0; 0; 0; 0; 1]) =
  Ok (filled (set_address (builder_new (T "lo0")) [0; 0; 0; 0; 0; 0; 0; 1]) [0; 0; 0; 0; 0; 0; 0; 1]).
Proof. reflexivity. Qed.

(** ** C51 *)
(** C51: a text selects a set of ports exactly when it is a comma-separated list of ports and of
    ranges lo-hi with lo < hi, all below 64, and then selects exactly these ports.  [lower] is
    Unicode's lower-case table outside ASCII. *)
Theorem C51_ports : forall lower s m, unicode_lower lower ->
  parse_transceivers lower s = Ok (TIndex m) <->
  exists l, port_list s l /\ Forall (fun p => snd p < 64) l /\ m < 2 ^ 64 /\
    forall i, member i m <-> exists p, In p l /\ fst p <= i <= snd p.
Proof. exact transceivers_index. Qed.
Print Assumptions C51_ports.
(** C51: the special words, and only they, have their meaning, in upper and lower case. *)
Theorem C51_words : forall lower s t, unicode_lower lower -> (forall m, t <> TIndex m) ->
  parse_transceivers lower s = Ok t <-> exists w, In (w, t) special_words /\ spells s w.
Proof. exact transceivers_word. Qed.
Print Assumptions C51_words.
Theorem C51_never_panics : forall lower s, parse_transceivers lower s <> Panic.
Proof. exact transceivers_calm. Qed.
Print Assumptions C51_never_panics.
Definition no_lower (c : N) : text := [c].
Example C51_witness : unicode_lower (fun c => if c =? 0x212a then [107] else [c]) /\
  parse_transceivers no_lower (T "1, 3 - 5,+7") = Ok (TIndex 0xba) /\
  parse_transceivers no_lower (T "Hi-Power") = Ok (TPowerState PowerHigh) /\
  parse_transceivers no_lower (T "1,64") = Err tt /\
  parse_transceivers no_lower (T "5-5") = Err tt /\ parse_transceivers no_lower (T "") = Err tt.
Proof.
  split; [|vm_compute; repeat split; reflexivity].
  intros c Hc. cbv beta. destruct (N.eqb_spec c 0x212a) as [->|Hn]; [split; [discriminate|exists 107; cbn; auto]|].
  split; [reflexivity|]. intros Hw. exists c. split; [now left|]. left. split; [lia|exact Hw].
Qed.

(** ** C52 *)
(** C52: a number is [0x] and hexadecimal digits or decimal digits, below 256. *)
Theorem C52_number : forall s b, read_u8 s = Ok b <-> (exists r, s = T "0x" ++ r /\ number 16 r b) \/ number 10 s b.
Proof. exact read_u8_ok. Qed.
Print Assumptions C52_number.
(** C52: the text read ([cap] bytes of the input) loads exactly when all its words are bytes in the
    given notation, at most 128, and then as these bytes. *)
Theorem C52_load : forall cap chunk kind input data, kind <> Binary ->
  load_known_write_data cap chunk kind input = Ok data <->
  writes kind (firstn cap input) data /\ (List.length data <= 128)%nat.
Proof. exact load_text. Qed.
Print Assumptions C52_load.
Theorem C52_no_panic : forall cap chunk kind input, load_known_write_data cap chunk kind input <> Panic.
Proof. exact load_calm. Qed.
Print Assumptions C52_no_panic.
(** C52: without a kind, the first two characters decide, if there are two. *)
Theorem C52_autodetect_partial : forall cap chunk t, Forall scalar t -> two_bytes t ->
  load_write_data cap chunk None None (utf8 t) = load_known_write_data cap chunk (announced_kind t) (utf8 t).
Proof. exact autodetect. Qed.
Print Assumptions C52_autodetect_partial.
(** Missing: otherwise the tool panics, for instance on the input [5]. *)
Theorem C52_autodetect_refuted : exists b, b < 256 /\ forall cap chunk,
  load_write_data cap chunk None None (printed Decimal false [b]) = Panic.
Proof. exists 5. split; [reflexivity|]. reflexivity. Qed.
Print Assumptions C52_autodetect_refuted.
Theorem C52_autodetect_panics : forall cap chunk t, Forall scalar t -> t <> [] -> ~ two_bytes t ->
  load_write_data cap chunk None None (utf8 t) = Panic.
Proof. exact autodetect_panics. Qed.
Print Assumptions C52_autodetect_panics.
(** C52: printing up to 128 bytes in decimal and loading them gives the same bytes. *)
Theorem C52_decimal : forall cap chunk p data, (512 <= cap)%nat ->
  Forall (fun b => b < 256) data -> (List.length data <= 128)%nat ->
  load_known_write_data cap chunk Decimal (printed Decimal p data) = Ok data.
Proof. exact decimal_trip. Qed.
Print Assumptions C52_decimal.
(** C52, full claim: the same in every notation.  Proved for texts that fit the buffer: 102 bytes in
    hexadecimal, 46 in binary. *)
Theorem C52_round_trip_partial : forall cap chunk k p data, (512 <= cap)%nat -> k <> Binary ->
  Forall (fun b => b < 256) data -> (List.length data <= match k with Hex => 102 | BinaryString => 46 | _ => 128 end)%nat ->
  load_known_write_data cap chunk k (printed k p data) = Ok data /\
  ((2 <= List.length (printed k p data))%nat -> load_write_data cap chunk None None (printed k p data) = Ok data).
Proof. exact short_trip. Qed.
Print Assumptions C52_round_trip_partial.
Example C52_witness :
  printed Hex true [0; 255; 16] = T "0x00 0xff 0x10" /\
  load_write_data 512 0 None None (T "0x00 0xff 0x10") = Ok [0; 255; 16] /\
  printed BinaryString false [5; 0] = T "0b101 0b0" /\
  load_known_write_data 512 0 BinaryString (T "0b101 0b0") = Ok [5; 0].
Proof. vm_compute. repeat split; reflexivity. Qed.
(** Missing: the input is cut at 512 bytes.  47 bytes in binary load as 47 other bytes, without an
    error; 128 bytes in hexadecimal are cut to 103 bytes. *)
Theorem C52_cut_refuted : exists data, (List.length data <= 128)%nat /\ Forall (fun b => b < 256) data /\
  exists other, other <> data /\ forall chunk,
    load_known_write_data 512 chunk BinaryString (printed BinaryString true data) = Ok other.
Proof.
  exists (repeat 255 47). split; [cbn; lia|]. split; [repeat constructor|].
  exists (repeat 255 46 ++ [15]). split; [discriminate|]. intros chunk. vm_compute. reflexivity.
Qed.
Print Assumptions C52_cut_refuted.
Theorem C52_hex_refuted : exists data, List.length data = 128%nat /\ Forall (fun b => b < 256) data /\
  forall chunk, load_known_write_data 512 chunk Hex (printed Hex true data) <> Ok data.
Proof.
  exists (repeat 255 128). split; [reflexivity|]. split; [repeat constructor|]. intros chunk. vm_compute. discriminate.
Qed.
Print Assumptions C52_hex_refuted.
(** Raw bytes: the first 128, or what one read of the input gives. *)
Theorem C52_raw : forall cap chunk input,
  load_known_write_data cap chunk Binary input = Ok (firstn (Nat.min chunk 128) input).
Proof. exact load_binary. Qed.
Print Assumptions C52_raw.

(** ** C53 *)
(** C53, full claim: a read prints, for each module, its bytes from [offset] to [offset + len - 1] or
    lists it as failed.  Proved when no module fails before the last of the memory operations the
    window is split into ([early_ok]); a module of another interface fails the whole command; no page
    is written. *)
Theorem C53_partial : forall St (a : honest St), honest_ok a ->
  forall mem content, shows mem content ->
  forall (w : world St) m p offset len rds, let c := cmd_read (honest_sp a) m (Ok p) offset len in
  m < 2 ^ 64 -> offset < 256 -> 1 <= len < 256 -> reads_as a (w_sp w) mem ->
  build_many_reads p offset len = Ok rds ->
  Forall only_looks (deeds c w) /\
  ((all_speak m (ident_told mem) p /\ (forall i, member i m -> early_ok mem i rds) /\
    exists r, snd (c w) = Ok (Some r) /\ reports m (window_says mem content p offset len rds) r) \/
   (all_speak m (ident_told mem) p /\ ~ (forall i, member i m -> early_ok mem i rds) /\ snd (c w) = Panic) \/
   (exists i id, lowest_other m (ident_told mem) p i id /\
      snd (c w) = Err (ETransceiver (TeInvalidInterfaceForModule i id (page_interface p))))).
Proof. exact @cmd_read_correct. Qed.
Print Assumptions C53_partial.
(** C53: the windows that can be read are those inside the page (C14, C15); otherwise, and for bad
    page numbers, nothing is sent. *)
Theorem C53_nothing : forall St (sp : St -> Rpc -> St * reply) (w : world St) m p offset len e,
  cmd_read sp m p offset 0 w = (w, Ok None) /\
  (1 <= len -> cmd_read sp m (Err e) offset len w = (w, Err e)) /\
  (1 <= len -> forall q, p = Ok q -> build_many_reads q offset len = Err e ->
     cmd_read sp m p offset len w = (w, Err e)).
Proof. exact @cmd_read_nothing. Qed.
Print Assumptions C53_nothing.
(** C53: the printed table has one line for each module that was read, in port order: the port and the
    bytes.  The failed ones are listed, with their errors, in port order on standard error. *)
Theorem C53_table : forall m f r binary, m < 2 ^ 64 -> reports m f r ->
  (forall i d, member i m -> f i = inl d -> bytes d = true) ->
  print_read_data r binary (OutDefault false) = map (fun p => read_line binary (fst p) (snd p)) (told_ports m f) /\
  print_read_data r binary (OutDefault true) =
    T "Port Data" :: map (fun p => read_line binary (fst p) (snd p)) (told_ports m f).
Proof. exact print_read. Qed.
Print Assumptions C53_table.
Theorem C53_failures : forall P m (f : N -> P + TransceiverError) r show, m < 2 ^ 64 -> reports m f r ->
  print_failures show (mr_failures r) =
  match failed_ports m f with
  | [] => []
  | l => T "Some operations failed, errors below" :: T "Port Error" ::
         map (fun p => port_shown (fst p) ++ [32] ++ show (snd p)) l
  end.
Proof. exact @print_fails. Qed.
Print Assumptions C53_failures.

(** A board of Qsfp28 modules whose byte [k] of module [i] is [k + 16 * i]; with [bad], module 1 does not
    answer page reads. *)
Definition window_mem (i : N) (p : Page) (k : N) : N := if k =? 0 then 17 else k + 16 * i.
Definition window_board (bad : bool) : board :=
  mkBoard (fun _ => 35) window_mem
    (fun q i => match q with HRead _ rd => if bad && (i =? 1) && negb (rd_len rd =? 1) then Some 8 else None | _ => None end).
Example C53_witness :
  let r := snd (cmd_read (honest_sp (board_sp (window_board false))) 3 (Ok (PageSff SffLower)) 60 67 w0) in
  r = Ok (Some (mkResult 3 [nrange 60 67; nrange 76 67] (mkFailed 0 []))) /\
  option_map (List.length (A := _)) (match build_many_reads (PageSff SffLower) 60 67 with Ok l => Some l | _ => None end) = Some 2%nat.
Proof. vm_compute. split; reflexivity. Qed.
Example C53_one_operation_witness :
  snd (cmd_read (honest_sp (board_sp (window_board true))) 3 (Ok (PageSff SffLower)) 60 3 w0) =
  Ok (Some (mkResult 1 [[60; 61; 62]] (mkFailed 2 [TeHardware 1 HwPowerFault None]))).
Proof. vm_compute. reflexivity. Qed.
(** Missing: a module that fails in an earlier operation makes the tool panic (the result of the other
    modules is lost). *)
Theorem C53_refuted : exists (b : board) m p offset len rds, fail_each b /\
  build_many_reads p offset len = Ok rds /\ all_speak m (ident_told (board_mem b)) p /\
  snd (cmd_read (honest_sp (board_sp b)) m (Ok p) offset len w0) = Panic.
Proof.
  exists (window_board true), 3, (PageSff SffLower), 60, 67. eexists. split; [intros m m' rd i; reflexivity|].
  split; [vm_compute; reflexivity|]. split; [|vm_compute; reflexivity].
  intros i id Hi. unfold ident_told, told, board_mem, board_verdict. cbn. rewrite !andb_false_r. intros [= <-]. reflexivity.
Qed.
Print Assumptions C53_refuted.

(** ** C56 *)
(** C56: "all" is ports 0 to 31 and a list of ports is itself, without asking the SP. *)
Theorem C56_all : forall St (a : honest St) (w : world St),
  address_transceivers (honest_sp a) TAll w = (w, Ok (2 ^ 32 - 1)).
Proof. exact @address_all. Qed.
Print Assumptions C56_all.
Theorem C56_ports : forall St (a : honest St) (w : world St) p,
  address_transceivers (honest_sp a) (TIndex p) w = (w, Ok p).
Proof. exact @address_index. Qed.
Print Assumptions C56_ports.
(** C56: "present" is the ports below 32 whose status has the present bit. *)
Theorem C56_present : forall St (a : honest St), honest_ok a ->
  forall (w : world St), let st := hs_verdict a (w_sp w) (HStatus m_all_sidecar) None in
  exists m, snd (address_transceivers (honest_sp a) TPresent w) = Ok m /\
    deeds (address_transceivers (honest_sp a) TPresent) w = [DRequest (HStatus m_all_sidecar) None] /\
    forall i, member i m <-> i < 32 /\ exists d, st i = inl d /\ N.testbit (hd 0 d) 0 = true.
Proof. exact @address_present. Qed.
Print Assumptions C56_present.
(** C56: a kind is the ports below 32 whose identifier is of that kind. *)
Theorem C56_kind : forall St (a : honest St), honest_ok a ->
  forall (w : world St) mem kind, reads_as a (w_sp w) mem -> (kind = Sff8636 \/ kind = Cmis) ->
  exists m, snd (address_transceivers (honest_sp a) (TKind kind) w) = Ok m /\
    deeds (address_transceivers (honest_sp a) (TKind kind)) w = [DRequest (HRead m_all_sidecar ident_read) None] /\
    forall i, member i m <-> i < 32 /\ exists id, ident_told mem i = inl id /\ management_interface id = Ok kind.
Proof. exact @address_kind. Qed.
Print Assumptions C56_kind.
(** C56: a power state is the ports below 32 whose module is in it (C35).  Missing from the full claim:
    the second hypothesis, see [C56_power_refuted]. *)
Theorem C56_power_partial : forall St (a : honest St), honest_ok a ->
  forall (w : world St) mem state, let st := hs_verdict a (w_sp w) (HStatus m_all_sidecar) None in
  reads_as a (hs_next a (w_sp w) (HStatus m_all_sidecar) None) mem ->
  (forall i id, i < 32 -> readable st i = true -> ident_told mem i = inl id -> supported_kind id = true) ->
  exists m, snd (address_transceivers (honest_sp a) (TPowerState state) w) = Ok m /\
    Forall only_looks (deeds (address_transceivers (honest_sp a) (TPowerState state)) w) /\
    forall i, member i m <->
      i < 32 /\ exists x, power_says st (control_says mem) i = inl x /\ pm_state x = state.
Proof. exact @address_power. Qed.
Print Assumptions C56_power_partial.
(** Port 0 holds a Qsfp28 module, port 1 a QSFP-DD module, the other ports a module of an unknown kind;
    port 2 is switched off and not present. *)
Definition kinds_board (known : bool) : board :=
  mkBoard (fun i => if i =? 2 then 0 else 35)
    (mem_of (fun i => if i =? 0 then 17 else if (i =? 1) || known then 24 else 1) (fun _ => 0) (fun _ => 64)) none_fail.
Example C56_witness :
  snd (address_transceivers (honest_sp (board_sp (kinds_board false))) TPresent w0) = Ok 0xfffffffb /\
  snd (address_transceivers (honest_sp (board_sp (kinds_board false))) (TKind Cmis) w0) = Ok 2 /\
  snd (address_transceivers (honest_sp (board_sp (kinds_board true))) (TPowerState PowerOff) w0) = Ok 4.
Proof. vm_compute. repeat split; reflexivity. Qed.
(** A readable module of an unsupported kind, on any port, makes the command fail. *)
Theorem C56_power_refuted : exists (b : board), fail_each b /\ exists e,
  snd (address_transceivers (honest_sp (board_sp b)) (TPowerState PowerOff) w0) = Err e.
Proof. exists (kinds_board false). split; [intros m m' rd i; reflexivity|]. eexists. vm_compute. reflexivity. Qed.
Print Assumptions C56_power_refuted.

(** ** C57 *)
(** C57: the status command reports each module's extended status; when that call fails, the plain
    status. *)
Theorem C57_status : forall St (a : honest St), honest_ok a ->
  forall (w : world St) m, let vs := hs_verdict a (w_sp w) (HExtendedStatus m) None in m < 2 ^ 64 ->
  (forall i d, member i m -> vs i = inl d -> le_value d < 512) ->
  exists r, snd (status_result (honest_sp a) m w) = Ok r /\ reports m (told le_value vs) r /\
    deeds (status_result (honest_sp a) m) w = [DRequest (HExtendedStatus m) None].
Proof. exact @status_extended. Qed.
Print Assumptions C57_status.
Theorem C57_fallback : forall St (sp : St -> Rpc -> St * reply) w w' e m good bad items errs,
  extended_status sp m w = (w', Err e) -> Forall (fun x => bytes x = true) items ->
  documented_reply (answer sp w' (HStatus m) None) (SStatus good bad) items errs ->
  exists r, snd (status_result sp m w) = Ok r /\ attaches (SStatus good bad) (hd 0) items errs r.
Proof. exact @status_fallback. Qed.
Print Assumptions C57_fallback.
(** An SP that does not know extended status. *)
Definition old_sp (s : unit) (r : Rpc) : unit * reply :=
  match msg_body (rpc_message r) with
  | BHostRequest (HExtendedStatus _) => (s, Err (EProtocol PeNotSupported))
  | _ => honest_sp (board_sp (kinds_board false)) s r
  end.
Example C57_fallback_witness : snd (status_result old_sp 5 w0) = Ok (mkResult 5 [35; 0] (mkFailed 0 [])).
Proof. vm_compute. reflexivity. Qed.
(** C57: the normal table: port and flag names (C54) of each module, in port order. *)
Theorem C57_normal : forall m f r, m < 2 ^ 64 -> reports m f r -> forall output,
  print_module_status r true SkNormal output =
    Ok (map (fun p => port_shown (fst p) ++ [32] ++ ext_status_display (snd p)) (told_ports m f)) /\
  print_module_status r false SkNormal output =
    Ok (T "Port Status" :: map (fun p => port_shown (fst p) ++ [32] ++ ext_status_display (snd p)) (told_ports m f)).
Proof. exact print_normal. Qed.
Print Assumptions C57_normal.
(** C57: with flags to look for, each module has a 1 or a 0 ([limited_test]). *)
Theorem C57_flags : forall m f r, m < 2 ^ 64 -> reports m f r -> forall w x omit output, (w <> 0 \/ x <> 0) ->
  exists title, print_module_status r omit (SkLimited w x) output =
    Ok ((T "Port " ++ title) ::
        map (fun p => port_shown (fst p) ++ [32; if limited_test w x (snd p) then 49 else 48]) (told_ports m f)).
Proof. exact print_limited. Qed.
Print Assumptions C57_flags.
(** C57, full claim: 1 exactly for modules with all flags of [w] and none of [x].  Proved when [x] has at
    most one flag. *)
Theorem C57_test_partial : forall w x s, (w <> 0 \/ x <> 0) -> (x = 0 \/ exists k, x = 2 ^ k) ->
  (limited_test w x s = true <-> has_all s w /\ has_none s x).
Proof. exact limited_ok. Qed.
Print Assumptions C57_test_partial.
(** In general the module must lack some flag of [x]. *)
Theorem C57_test : forall w x s, (w <> 0 \/ x <> 0) ->
  (limited_test w x s = true <-> has_all s w /\ (x <> 0 -> ~ has_all s x)).
Proof. exact limited_exact. Qed.
Print Assumptions C57_test.
(** A module in reset is listed as one without RESET and LOW_POWER_MODE. *)
Theorem C57_test_refuted : exists x s, has_all s ST_RESET /\ has_all x ST_RESET /\ limited_test 0 x s = true.
Proof.
  exists (ST_RESET + ST_LOW_POWER_MODE), (ST_PRESENT + ST_RESET).
  split; [now apply contains_has|]. split; [now apply contains_has|]. reflexivity.
Qed.
Print Assumptions C57_test_refuted.
(** Empty flag sets, which the argument parser accepts, make the tool panic. *)
Theorem C57_empty_refuted : exists k, ext_status_from_str (T "") = Some 0 /\
  status_kind (ext_status_from_str (T "")) None false false None = Ok k /\
  forall r omit output, print_module_status r omit k output = Panic.
Proof. eexists. split; [reflexivity|]. split; [reflexivity|]. intros r omit output. reflexivity. Qed.
Print Assumptions C57_empty_refuted.
(** C57: the full table.  Bit [k] of the status of a module is in column [5 + 4 * k] of its line, and the
    arrow of head line [k + 1], which ends with the name of bit [k], is in that column. *)
Theorem C57_all_lines : forall m f r, m < 2 ^ 64 -> reports m f r -> forall omit output,
  exists l, print_module_status r omit SkAll output = Ok (all_head ++ l) /\
    Forall2 (fun line p => forall k, k < 9 ->
      nth_error line (5 + 4 * N.to_nat k) = Some (if N.testbit (snd p) k then 49 else 48)) l (told_ports m f).
Proof. exact print_columns. Qed.
Print Assumptions C57_all_lines.
Theorem C57_all_head : forall k, k < 9 -> exists line before,
  nth_error all_head (1 + N.to_nat k) = Some line /\ nth_error line (5 + 4 * N.to_nat k) = Some 43 /\
  line = before ++ ext_status_display (2 ^ k) /\ List.length before = 40%nat.
Proof. exact head_columns. Qed.
Print Assumptions C57_all_head.
Example C57_witness :
  print_module_status (mkResult 0x21 [0x2b; 0x100] (mkFailed 0 [])) false SkAll [] =
  Ok (all_head ++ [T " 0   1   1   0   1   0   1   0   0   0   "; T " 5   0   0   0   0   0   0   0   0   1   "]) /\
  print_module_status (mkResult 0x21 [0x2b; 0x100] (mkFailed 0 [])) true SkNormal [] =
  Ok [T "   0 PRESENT | ENABLED | LOW_POWER_MODE | POWER_GOOD"; T "   5 DISABLED_BY_SP"] /\
  print_module_status (mkResult 0x21 [0x2b; 0x100] (mkFailed 0 [])) true (SkLimited ST_PRESENT ST_RESET) [] =
  Ok [T "Port PRESENT && !(RESET)"; T "   0 1"; T "   5 0"].
Proof. vm_compute. repeat split; reflexivity. Qed.

(** ** C58 *)
(** C58: a write command with an access allowed for the page sends one write, of exactly the loaded
    bytes at [offset] of the named page, to the modules whose identifier could be read, and reports all
    modules; with a module of another interface it writes nothing. *)
Theorem C58_write : forall St (a : honest St), honest_ok a ->
  forall (w : world St) m p offset d, let ids := ids_seen a w m in let wr := mkWrite p offset (Nlen d) in
  let c := cmd_write (honest_sp a) m (Ok p) offset (Ok d) in
  m < 2 ^ 64 -> Nlen d < 256 -> access_ok (write_limit p) p offset (Nlen d) ->
  (all_speak m ids p /\
   exists r s, snd (c w) = Ok r /\
     deeds_of c w = ident_request m ++ [DRequest (HWrite (passed m ids) wr) (Some d)] /\
     s = (if m =? 0 then w_sp w else hs_next a (w_sp w) (HRead m ident_read) None) /\
     reports m (and_then ids (told (fun _ => tt) (hs_verdict a s (HWrite (passed m ids) wr) (Some d)))) r) \/
  (exists i id, lowest_other m ids p i id /\
     snd (c w) = Err (Some (ETransceiver (TeInvalidInterfaceForModule i id (page_interface p)))) /\
     deeds_of c w = ident_request m).
Proof. exact @cmd_write_ok. Qed.
Print Assumptions C58_write.
(** C58: an access that is not allowed, a bad page number or unreadable data: an error, nothing sent. *)
Theorem C58_refused : forall St (sp : St -> Rpc -> St * reply) (w : world St) m p offset d,
  Nlen d < 256 -> ~ access_ok (write_limit p) p offset (Nlen d) ->
  exists e, cmd_write sp m (Ok p) offset (Ok d) w = (w, Err (Some e)).
Proof. exact @cmd_write_refused. Qed.
Print Assumptions C58_refused.
Theorem C58_nothing : forall St (sp : St -> Rpc -> St * reply) (w : world St) m page offset e d,
  cmd_write sp m page offset (Err e) w = (w, Err None) /\
  (Nlen d < 256 -> forall e, cmd_write sp m (Err e) offset (Ok d) w = (w, Err (Some e))).
Proof. exact @cmd_write_nothing. Qed.
Print Assumptions C58_nothing.
(** C58: the upper page named on the command line. *)
Theorem C58_page : forall sff cmis page bank p,
  upper_page sff cmis page bank = Ok p <->
  (sff = true /\ cmis = false /\ exists s, sff_upper_new page = Ok s /\ p = PageSff s) \/
  (sff = false /\ cmis = true /\ exists u, p = PageCmis (CmisUpper u) /\
     match bank with Some b => cmis_new_banked page b | None => cmis_new_unbanked page end = Ok u).
Proof. exact upper_page_ok. Qed.
Print Assumptions C58_page.
Example C58_witness :
  snd (cmd_write (honest_sp (board_sp (window_board false))) 3 (Ok (PageSff SffLower)) 100 (Ok [1; 2; 3]) w0) =
    Ok (mkResult 3 [tt; tt] (mkFailed 0 [])) /\
  deeds_of (cmd_write (honest_sp (board_sp (window_board false))) 3 (Ok (PageSff SffLower)) 100 (Ok [1; 2; 3])) w0 =
    [DRequest (HRead 3 ident_read) None; DRequest (HWrite 3 (mkWrite (PageSff SffLower) 100 3)) (Some [1; 2; 3])] /\
  snd (cmd_write (honest_sp (board_sp (window_board false))) 3 (Ok (PageSff SffLower)) 100 (Ok [1; 2; 3; 4; 5]) w0) <>
    Ok (mkResult 3 [tt; tt] (mkFailed 0 [])).
Proof. vm_compute. repeat split; try reflexivity. discriminate. Qed.
