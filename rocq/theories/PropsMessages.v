(** Properties C05-C13, C54, C55: the wire protocol crate (messages/src). *)
From Coq Require Import String.
From Verif Require Import Tac Spec SpecMessages ModuleId Mgmt Mac Message Codec Wf StatusText
  CodecProofs ModuleIdProofs ModuleIdProps MessageProofs PageProofs.
From Verif Require FlagProofs2.

(** C05: encoding then decoding, with any trailing bytes, is the identity.  [wf_*] only says that
    the integer fields fit their Rust types. *)
Theorem C05_header_roundtrip : forall h rest, wf_header h = true ->
  dec_header (enc_header h ++ rest) = Some (h, rest).
Proof. exact header_roundtrip. Qed.
Print Assumptions C05_header_roundtrip.
Theorem C05_message_roundtrip : forall m rest, wf_message m = true ->
  dec_message (enc_message m ++ rest) = Some (m, rest).
Proof. exact message_roundtrip. Qed.
Print Assumptions C05_message_roundtrip.

Example C05_witness :
  let m := mkMessage 7 (BSpResponse (SRead 0xF0 0x0F
             (mkRead (PageCmis (CmisUpper (mkCmisUpper (Some 1) 0x11))) 154 8))) in
  wf_message m = true /\
  enc_message m = [7; 2; 0; 0xF0;0;0;0;0;0;0;0; 0x0F;0;0;0;0;0;0;0; 1; 1; 1; 1; 0x11; 154; 8] /\
  dec_message (enc_message m ++ [9; 9]) = Some (m, [9; 9]) /\
  enc_header (mkHeader 1 0x0102 KSpResponse) = [1; 2; 1; 0;0;0;0;0;0; 2].
Proof. repeat split; vm_compute; reflexivity. Qed.

(** C06: whatever decodes is exactly the encoding of the decoded value. *)
Theorem C06_header_canonical : forall bs h rest, bytes bs = true ->
  dec_header bs = Some (h, rest) ->
  bs = enc_header h ++ rest /\ wf_header h = true /\ bytes rest = true.
Proof. exact header_canonical. Qed.
Print Assumptions C06_header_canonical.
Theorem C06_message_canonical : forall bs m rest, bytes bs = true ->
  dec_message bs = Some (m, rest) ->
  bs = enc_message m ++ rest /\ wf_message m = true /\ bytes rest = true.
Proof. exact message_canonical. Qed.
Print Assumptions C06_message_canonical.
(** C06: no encoding is a proper prefix of another, and encodings are unambiguous. *)
Theorem C06_message_prefix_free : forall m m' r r', wf_message m = true -> wf_message m' = true ->
  enc_message m ++ r = enc_message m' ++ r' -> m = m' /\ r = r'.
Proof. exact message_prefix_free. Qed.
Print Assumptions C06_message_prefix_free.
Theorem C06_header_prefix_free : forall h h' r r', wf_header h = true -> wf_header h' = true ->
  enc_header h ++ r = enc_header h' ++ r' -> h = h' /\ r = r'.
Proof. exact header_prefix_free. Qed.
Print Assumptions C06_header_prefix_free.

Example C06_witness :
  dec_message [7; 1; 10; 77] = Some (mkMessage 7 (BHostRequest HMacAddrs), [77]) /\
  dec_message [7; 1; 16; 77] = None /\ dec_message [7; 3; 0] = None /\ dec_message [7; 2; 2; 1] = None.
Proof. repeat split; vm_compute; reflexivity. Qed.

(** C07: sizes.  1024 is MAX_PAYLOAD_SIZE, 10 Header::MAX_SIZE, 26 Message::MAX_SIZE. *)
Theorem C07_packet_fits : forall h m data, (length data <= 1024)%nat ->
  (length (enc_header h ++ enc_message m) <= 10 + 26)%nat /\
  (length (enc_header h ++ enc_message m ++ data) <= MAX_PACKET_SIZE)%nat /\
  MAX_PACKET_SIZE = 1060%nat.
Proof.
  exact (fun h m data H => let (a, b) := packet_fits h m data H in conj a (conj b eq_refl)).
Qed.
Print Assumptions C07_packet_fits.
Example C07_witness_attained :
  let m := mkMessage 7 (BSpResponse (SRead 1 0
             (mkRead (PageCmis (CmisUpper (mkCmisUpper (Some 1) 0x11))) 154 8))) in
  length (enc_header (mkHeader 1 0 KSpResponse) ++ enc_message m) = 36%nat.
Proof. vm_compute. reflexivity. Qed.

(** C08: MemoryRead::new / MemoryWrite::new accept exactly the accesses inside the page and the
    transfer limit, and name the offending values otherwise. *)
Theorem C08_read : forall p offset len,
  (read_new p offset len = Ok (mkRead p offset len) <-> access_ok (read_limit p) p offset len) /\
  (read_new p offset len <> Ok (mkRead p offset len) ->
     (read_new p offset len = Err (InvalidMemoryAccess offset len) /\
        ~ (in_page p offset /\ forall k, offset <= k < offset + len -> in_page p k)) \/
     (read_new p offset len = Err (InvalidOperationSize len (iface p)) /\
        (len = 0 \/ read_limit p < len))).
Proof. exact read_new_spec. Qed.
Print Assumptions C08_read.
Theorem C08_write : forall p offset len,
  (write_new p offset len = Ok (mkWrite p offset len) <-> access_ok (write_limit p) p offset len) /\
  (write_new p offset len <> Ok (mkWrite p offset len) ->
     (write_new p offset len = Err (InvalidMemoryAccess offset len) /\
        ~ (in_page p offset /\ forall k, offset <= k < offset + len -> in_page p k)) \/
     (write_new p offset len = Err (InvalidOperationSize len (iface p)) /\
        (len = 0 \/ write_limit p < len))).
Proof. exact write_new_spec. Qed.
Print Assumptions C08_write.
Example C08_witness :
  read_new (PageSff (SffUpper 0)) 128 128 = Ok (mkRead (PageSff (SffUpper 0)) 128 128) /\
  read_new (PageSff SffLower) 127 2 = Err (InvalidMemoryAccess 127 2) /\
  read_new (PageCmis CmisLower) 0 9 = Err (InvalidOperationSize 9 Cmis) /\
  write_new (PageSff (SffUpper 3)) 252 4 = Ok (mkWrite (PageSff (SffUpper 3)) 252 4) /\
  write_new (PageSff (SffUpper 3)) 200 5 = Err (InvalidOperationSize 5 Sff8636).
Proof. repeat split; vm_compute; reflexivity. Qed.

(** C09: SFF-8636 upper pages. *)
Theorem C09_sff : forall p, p < 256 ->
  (sff_defined p -> sff_upper_new p = Ok (SffUpper p)) /\
  (~ sff_defined p -> sff_upper_new p = Err (InvalidPage p)).
Proof. exact sff_upper_new_spec. Qed.
Print Assumptions C09_sff.
(** C09: banked CMIS upper pages. *)
Theorem C09_cmis_banked : forall p b, p < 256 ->
  (cmis_defined p -> b <= 3 -> cmis_banked p ->
     cmis_new_banked p b = Ok (mkCmisUpper (Some b) p)) /\
  (~ cmis_defined p -> cmis_new_banked p b = Err (InvalidPage p)) /\
  (cmis_defined p -> 3 < b -> cmis_new_banked p b = Err (InvalidBank b)) /\
  (cmis_defined p -> b <= 3 -> ~ cmis_banked p -> cmis_new_banked p b = Err (PageIsUnbanked p)).
Proof. exact cmis_new_banked_spec. Qed.
Print Assumptions C09_cmis_banked.
(** C09, full statement for unbanked pages: accepted exactly when [cmis_defined p /\ ~ cmis_banked
    p].  That is false of the code: *)
Theorem C09_cmis_unbanked_refuted :
  exists p u, p < 256 /\ ~ cmis_defined p /\ cmis_new_unbanked p = Ok u.
Proof. exact unbanked_accepts_undefined. Qed.
Print Assumptions C09_cmis_unbanked_refuted.
(** What holds: acceptance is decided by the banked-ness of the page number alone.  Missing: the
    rejection of undefined page numbers. *)
Theorem C09_cmis_unbanked_partial : forall p, p < 256 ->
  (~ cmis_banked p -> cmis_new_unbanked p = Ok (mkCmisUpper None p)) /\
  (cmis_banked p -> cmis_new_unbanked p = Err (PageIsBanked p)).
Proof. exact cmis_new_unbanked_spec. Qed.
Print Assumptions C09_cmis_unbanked_partial.
(** C09: an accepted page tells the number and the bank it was made of; lower pages tell none. *)
Theorem C09_tell : let tells p k n b := page_interface p = k /\ page_number p = n /\ page_bank p = b in
  tells (PageSff SffLower) Sff8636 None None /\ tells (PageCmis CmisLower) Cmis None None /\
  (forall n u, sff_upper_new n = Ok u -> tells (PageSff u) Sff8636 (Some n) None) /\
  (forall n b u, cmis_new_banked n b = Ok u -> tells (PageCmis (CmisUpper u)) Cmis (Some n) (Some b)) /\
  (forall n u, cmis_new_unbanked n = Ok u -> tells (PageCmis (CmisUpper u)) Cmis (Some n) None).
Proof. exact pages_tell. Qed.
Print Assumptions C09_tell.
Example C09_witness : sff_defined 0x21 /\ ~ sff_defined 0x22 /\ cmis_defined 0x9F /\
  cmis_banked 0x11 /\ ~ cmis_banked 0x02 /\ cmis_defined 0x02.
Proof. unfold sff_defined, cmis_defined, cmis_banked. lia. Qed.

(** C10, full statement: every memory operation a program holds is [access_ok] on a
    [page_defined] page.  False for values received from the wire: *)
Theorem C10_wire_refuted :
  exists bs r rest, bytes bs = true /\ dec_read bs = Some (r, rest) /\
    ~ access_ok (read_limit (rd_page r)) (rd_page r) (rd_offset r) (rd_len r) /\
    ~ page_defined (rd_page r).
Proof. exact wire_read_invalid. Qed.
Print Assumptions C10_wire_refuted.
(** What holds: values made by the constructors are valid, except that an unbanked CMIS upper
    page may be undefined (C09).  Missing: values decoded from the wire. *)
Theorem C10_constructors_partial :
  (forall p offset len r, read_new p offset len = Ok r ->
     access_ok (read_limit (rd_page r)) (rd_page r) (rd_offset r) (rd_len r)) /\
  (forall p offset len w, write_new p offset len = Ok w ->
     access_ok (write_limit (wr_page w)) (wr_page w) (wr_offset w) (wr_len w)) /\
  (forall n q, n < 256 -> sff_upper_new n = Ok q -> page_defined (PageSff q)) /\
  (forall n b u, n < 256 -> cmis_new_banked n b = Ok u -> page_defined (PageCmis (CmisUpper u))) /\
  (forall n u, n < 256 -> cmis_defined n -> cmis_new_unbanked n = Ok u ->
     page_defined (PageCmis (CmisUpper u))).
Proof. exact constructors_valid. Qed.
Print Assumptions C10_constructors_partial.
Example C10_witness : exists u r, cmis_new_banked 0x11 0 = Ok u /\
  read_new (PageCmis (CmisUpper u)) 154 8 = Ok r /\ rd_len r = 8.
Proof. eexists. eexists. repeat split; vm_compute; reflexivity. Qed.

(** C11: a constructed MAC range. *)
Theorem C11_mac_range : forall base count stride r, mac_ok base = true ->
  mac_addrs_new base count stride = Ok r ->
  exists l, mac_iter r = Ok l /\ length l = N.to_nat count /\
    (forall n, n < count -> exists a,
        nth_error l (N.to_nat n) = Some a /\ mac_nth r n = Ok (Some a) /\
        mac_num a = mac_num base + n * stride /\ oui_of a = oui_of base /\ unicast a) /\
    StronglySorted N.lt (map mac_num l) /\ NoDup l /\
    (forall n, count <= n -> mac_nth r n = Ok None).
Proof. exact mac_range_correct. Qed.
Print Assumptions C11_mac_range.
Example C11_witness : exists r, mac_addrs_new (mkMac 0xa8 0x40 0x25 0 0xff 0xff) 3 2 = Ok r /\
  mac_iter r = Ok [mkMac 0xa8 0x40 0x25 0 0xff 0xff; mkMac 0xa8 0x40 0x25 1 0 1;
                   mkMac 0xa8 0x40 0x25 1 0 3].
Proof. eexists. split; vm_compute; reflexivity. Qed.

(** C12: the first two reasons, exactly, and the exact acceptance condition. *)
Theorem C12_reasons : forall base count stride, mac_ok base = true ->
  (count = 0 \/ stride = 0 ->
     mac_addrs_new base count stride = Err (mkBadRange ZeroStrideOrCount base count stride)) /\
  (count <> 0 -> stride <> 0 -> ~ unicast base ->
     mac_addrs_new base count stride = Err (mkBadRange MulticastBaseAddr base count stride)) /\
  (count <> 0 -> stride <> 0 -> unicast base -> stays_in_oui base (count * stride) ->
     mac_addrs_new base count stride = Ok (mkMacAddrs base count stride)).
Proof. exact mac_reasons. Qed.
Print Assumptions C12_reasons.
(** C12, full statement: [SpansMultipleOuis] exactly when some address n < count leaves the OUI.
    False: the range of the last [count] addresses of an OUI is rejected. *)
Theorem C12_span_refuted :
  exists base count stride, mac_ok base = true /\ count < 2 ^ 16 /\ stride < 2 ^ 8 /\
    count <> 0 /\ stride <> 0 /\ unicast base /\
    (forall n, n < count -> stays_in_oui base (n * stride)) /\
    mac_addrs_new base count stride = Err (mkBadRange SpansMultipleOuis base count stride).
Proof. exact mac_boundary_rejected. Qed.
Print Assumptions C12_span_refuted.
(** What holds: leaving ranges are rejected, and a rejected range leaves the OUI at or one past
    its last address.  Missing: the one-past-the-end boundary. *)
Theorem C12_span_partial : forall base count stride,
  mac_ok base = true -> count <> 0 -> stride <> 0 -> unicast base ->
  ((exists n, n < count /\ ~ stays_in_oui base (n * stride)) ->
     mac_addrs_new base count stride = Err (mkBadRange SpansMultipleOuis base count stride)) /\
  (mac_addrs_new base count stride = Err (mkBadRange SpansMultipleOuis base count stride) ->
     (exists n, n <= count /\ ~ stays_in_oui base (n * stride))).
Proof. exact mac_reject_spec. Qed.
Print Assumptions C12_span_partial.
Example C12_witness :
  mac_addrs_new (mkMac 0xa8 0x40 0x25 0xff 0xff 0xf0) 17 1 =
    Err (mkBadRange SpansMultipleOuis (mkMac 0xa8 0x40 0x25 0xff 0xff 0xf0) 17 1) /\
  mac_addrs_new (mkMac 0xa8 0x40 0x25 0xff 0xff 0xf0) 15 1 =
    Ok (mkMacAddrs (mkMac 0xa8 0x40 0x25 0xff 0xff 0xf0) 15 1).
Proof. split; vm_compute; reflexivity. Qed.

(** C13: error bytes.  When the buffer holds at least one byte per failed module, the k-th error
    is the meaning of the k-th byte. *)
Theorem C13_hw_errors_partial : forall failed buf, failed < 2 ^ 64 -> bytes buf = true ->
  ((length buf < length (to_indices failed))%nat ->
     deserialize_hw_errors failed buf =
       Err (PeWrongDataSize (N.of_nat (length (to_indices failed))) (N.of_nat (length buf)))) /\
  ((length (to_indices failed) <= length buf)%nat ->
     exists l, deserialize_hw_errors failed buf = Ok l /\
       forall k, (k < length (to_indices failed))%nat -> exists b r,
         nth_error buf k = Some b /\ nth_error l k = Some r /\ error_of_byte b r) /\
  (length buf = length (to_indices failed) ->
     exists l, deserialize_hw_errors failed buf = Ok l /\ length l = length (to_indices failed)).
Proof. exact hw_errors_spec. Qed.
Print Assumptions C13_hw_errors_partial.
Theorem C13_known_codes : forall e,
  decode_hw_error (hw_code e) =
  (e, match e with HwUnknown => Some KnownUnknown | _ => None end).
Proof. exact decode_hw_error_code. Qed.
Print Assumptions C13_known_codes.
(** C13, the clause "one error per failed module" is false for a buffer with bytes to spare:
    every byte of the buffer is decoded. *)
Theorem C13_count_refuted :
  exists failed buf l, failed < 2 ^ 64 /\ bytes buf = true /\
    deserialize_hw_errors failed buf = Ok l /\ (length (to_indices failed) < length l)%nat.
Proof. exact hw_errors_extra_bytes. Qed.
Print Assumptions C13_count_refuted.
Example C13_witness :
  deserialize_hw_errors 0x8011 [6; 14; 200] =
    Ok [(HwNotPresent, None); (HwUnknown, Some KnownUnknown); (HwUnknown, Some (UnknownUnknown 200))]
  /\ deserialize_hw_errors 0x8011 [6; 14] = Err (PeWrongDataSize 3 2).
Proof. split; vm_compute; reflexivity. Qed.

(** C54: conversion keeps every flag and adds none. *)
Theorem C54_conversion : forall s, s < 256 ->
  exists x, ext_of_status s = Ok x /\ forall i, member i x <-> member i s.
Proof. exact ext_of_status_spec. Qed.
Print Assumptions C54_conversion.
(** C54: printing then parsing is the identity. *)
Theorem C54_status_text : forall s, s < 2 ^ 8 -> status_from_str (status_display s) = Some s.
Proof. exact FlagProofs2.status_roundtrip. Qed.
Print Assumptions C54_status_text.
(** ... also with bits that have no name, which texts may set (C89). *)
Theorem C54_ext_status_text : forall s, s < 2 ^ 32 ->
  ext_status_from_str (ext_status_display s) = Some s.
Proof. exact FlagProofs2.ext_status_roundtrip. Qed.
Print Assumptions C54_ext_status_text.
Example C54_witness :
  ext_status_display 0x103 = Text.T "PRESENT | ENABLED | DISABLED_BY_SP"%string /\
  ext_status_display 0x5a01 = Text.T "PRESENT | 0x5a00"%string.
Proof. split; vm_compute; reflexivity. Qed.

(** C55: the announced sizes are the number of bytes of a documented answer. *)
Theorem C55_response_sizes : forall r ports failed items errs,
  wf_sp_response r = true -> documented r ports failed items errs ->
  match sp_expected_data_len r with Some n => n | None => 0%nat end = length (concat items) /\
  match sp_expected_error_data_len r with Some n => n | None => 0%nat end = length errs.
Proof. exact response_sizes. Qed.
Print Assumptions C55_response_sizes.
(** C55, the clause about write requests is false for more than one module: the data of a write
    is sent once, but expected_data_len multiplies by the number of modules. *)
Theorem C55_write_request_refuted : exists m w, wf_host_request (HWrite m w) = true /\
  host_expected_data_len (HWrite m w) <> Some (N.to_nat (wr_len w)).
Proof. exact write_size_refuted. Qed.
Print Assumptions C55_write_request_refuted.
Theorem C55_write_request_partial : forall m w i, m_single i = Ok m -> i < 64 ->
  host_expected_data_len (HWrite m w) = Some (N.to_nat (wr_len w)).
Proof. exact write_size_single. Qed.
Print Assumptions C55_write_request_partial.
Example C55_witness :
  documented (SRead 0x11 0x4 (mkRead (PageSff SffLower) 22 2)) [0; 4] [2] [[1; 2]; [3; 4]] [6].
Proof.
  unfold documented. cbn [resp_modules resp_failed].
  assert (forall l m, m < 2 ^ 64 -> l = to_indices m -> enumerates l (fun i => member i m)) as K.
  { intros l m Hm ->. now apply to_indices_correct. }
  split; [apply K; vm_compute; reflexivity|]. split; [apply K; vm_compute; reflexivity|].
  split; [reflexivity|]. split; [repeat constructor|reflexivity].
Qed.
