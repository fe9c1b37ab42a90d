(** Specification vocabulary for the layout of datagrams (C72). *)
From Verif Require Export SpecMessages SpecController Codec.
Import ListNotations.
Open Scope N_scope.

(** The byte at position [k], and the little-endian number in the 8 bytes from position [k]. *)
Definition byte_in (bs : list N) (k : nat) : N := nth k bs 0.
Definition u64_in (bs : list N) (k : nat) : N := le_value (firstn 8 (skipn k bs)).

(** Codes are fixed once given; new ones are only added at the end. *)
Definition kind_code (k : MessageKind) : N :=
  match k with KError => 0 | KHostRequest => 1 | KSpResponse => 2 | KSpRequest => 3 | KHostResponse => 4 end.
Definition request_code (q : HostRequest) : N :=
  match q with
  | HRead _ _ => 0 | HWrite _ _ => 1 | HStatus _ => 2 | HAssertReset _ => 3 | HDeassertReset _ => 4
  | HAssertLpMode _ => 5 | HDeassertLpMode _ => 6 | HEnablePower _ => 7 | HDisablePower _ => 8
  | HManagementInterface _ _ => 9 | HMacAddrs => 10 | HClearPowerFault _ => 11 | HLedState _ => 12
  | HSetLedState _ _ => 13 | HExtendedStatus _ => 14 | HClearDisableLatch _ => 15
  end.
Definition response_code (r : SpResponse) : N :=
  match r with
  | SRead _ _ _ => 0 | SWrite _ _ _ => 1 | SStatus _ _ => 2 | SAck _ _ => 3 | SMacAddrs _ => 4
  | SLedState _ _ => 5 | SExtendedStatus _ _ => 6
  end.
(** A page: the interface, lower or upper, and for an upper page the bank, if the interface has banks, and its number. *)
Definition page_codes (p : Page) : list N :=
  match p with
  | PageSff SffLower => [0; 0]
  | PageSff (SffUpper n) => [0; 1; n]
  | PageCmis CmisLower => [1; 0]
  | PageCmis (CmisUpper u) =>
      match cu_bank u with None => [1; 1; 0; cu_page u] | Some b => [1; 1; 1; b; cu_page u] end
  end.
Definition interface_codes (i : ManagementInterface) : list N :=
  match i with Sff8636 => [0] | Cmis => [1] | UnknownInterface v => [2; v] end.
Definition led_code (s : LedState) : N := match s with LedOff => 0 | LedOn => 1 | LedBlink => 2 end.
(** What follows the modules of a request. *)
Definition request_rest (q : HostRequest) : list N :=
  match q with
  | HRead _ r => page_codes (rd_page r) ++ [rd_offset r; rd_len r]
  | HWrite _ r => page_codes (wr_page r) ++ [wr_offset r; wr_len r]
  | HManagementInterface _ i => interface_codes i
  | HSetLedState _ s => [led_code s]
  | _ => []
  end.
Definition response_rest (r : SpResponse) : list N :=
  match r with
  | SRead _ _ x => page_codes (rd_page x) ++ [rd_offset x; rd_len x]
  | SWrite _ _ x => page_codes (wr_page x) ++ [wr_offset x; wr_len x]
  | _ => []
  end.
Definition mac_codes (a : Mac) : list N := [mac0 a; mac1 a; mac2 a; mac3 a; mac4 a; mac5 a].
Definition u16_codes (n : N) : list N := [n mod 256; n / 256].
Definition u32_codes (n : N) : list N := [n mod 256; n / 2 ^ 8 mod 256; n / 2 ^ 16 mod 256; n / 2 ^ 24].
Definition mac_response_codes (r : MacAddrResponse) : list N :=
  match r with
  | MacOk a => 0 :: mac_codes (ma_base a) ++ u16_codes (ma_count a) ++ [ma_stride a]
  | MacError e =>
      1 :: match br_reason e with SpansMultipleOuis => 0 | ZeroStrideOrCount => 1 | MulticastBaseAddr => 2 end
        :: mac_codes (br_base e) ++ u16_codes (br_count e) ++ [br_stride e]
  end.
Definition error_codes (e : ProtocolError) : list N :=
  match e with
  | PeWrongMessage => [0]
  | PeNotSupported => [1]
  | PeRequestTooLarge => [2]
  | PeWrongDataSize x a => 3 :: u32_codes x ++ u32_codes a
  | PeVersionMismatch x a => [4; x; a]
  | PeSerialization => [5]
  end.

(** A datagram starts with a header of 10 bytes: version, id, kind. *)
Definition starts_with_header (bs : list N) (h : Header) : Prop :=
  byte_in bs 0 = h_version h /\ u64_in bs 1 = h_id h /\ byte_in bs 9 = kind_code (h_kind h).
(** Then the version of the message, the kind of its body, the body, and data. *)
Definition lays_out_request (bs : list N) (v : N) (q : HostRequest) (d : list N) : Prop :=
  byte_in bs 10 = v /\ byte_in bs 11 = 1 /\ byte_in bs 12 = request_code q /\
  match q with
  | HMacAddrs => skipn 13 bs = d
  | _ => u64_in bs 13 = request_modules q /\ skipn 21 bs = request_rest q ++ d
  end.
Definition lays_out_response (bs : list N) (v : N) (r : SpResponse) (d : list N) : Prop :=
  byte_in bs 10 = v /\ byte_in bs 11 = 2 /\ byte_in bs 12 = response_code r /\
  match r with
  | SMacAddrs x => skipn 13 bs = mac_response_codes x ++ d
  | _ => u64_in bs 13 = resp_modules r /\ u64_in bs 21 = resp_failed r /\ skipn 29 bs = response_rest r ++ d
  end.
Definition lays_out_error (bs : list N) (v : N) (e : ProtocolError) (d : list N) : Prop :=
  byte_in bs 10 = v /\ byte_in bs 11 = 0 /\ skipn 12 bs = error_codes e ++ d.
