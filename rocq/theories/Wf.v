(** Which model values are representable in the Rust types: every integer field is in the range
    of its type.  (The model uses unbounded [N].) *)
From Verif Require Export Message.

Definition wf_opt_u8 (o : option N) : bool := match o with None => true | Some b => u8 b end.
Definition wf_interface (i : ManagementInterface) : bool :=
  match i with UnknownInterface v => u8 v | _ => true end.
Definition wf_sff_page (p : SffPage) : bool := match p with SffLower => true | SffUpper n => u8 n end.
Definition wf_cmis_page (p : CmisPage) : bool :=
  match p with CmisLower => true | CmisUpper u => wf_opt_u8 (cu_bank u) && u8 (cu_page u) end.
Definition wf_page (p : Page) : bool :=
  match p with PageSff q => wf_sff_page q | PageCmis q => wf_cmis_page q end.
Definition wf_read (r : MemoryRead) : bool := wf_page (rd_page r) && u8 (rd_offset r) && u8 (rd_len r).
Definition wf_write (r : MemoryWrite) : bool :=
  wf_page (wr_page r) && u8 (wr_offset r) && u8 (wr_len r).
Definition wf_bad_range (b : BadMacAddrRange) : bool :=
  mac_ok (br_base b) && u16 (br_count b) && u8 (br_stride b).
Definition wf_mac_addrs (b : MacAddrs) : bool :=
  mac_ok (ma_base b) && u16 (ma_count b) && u8 (ma_stride b).
Definition wf_mac_response (r : MacAddrResponse) : bool :=
  match r with MacOk m => wf_mac_addrs m | MacError e => wf_bad_range e end.
Definition wf_protocol_error (e : ProtocolError) : bool :=
  match e with
  | PeWrongDataSize x a => u32 x && u32 a
  | PeVersionMismatch x a => u8 x && u8 a
  | _ => true
  end.
Definition wf_header (h : Header) : bool := u8 (h_version h) && u64 (h_id h).
Definition wf_host_request (r : HostRequest) : bool :=
  match r with
  | HRead m x => u64 m && wf_read x
  | HWrite m x => u64 m && wf_write x
  | HStatus m | HAssertReset m | HDeassertReset m | HAssertLpMode m | HDeassertLpMode m
  | HEnablePower m | HDisablePower m | HClearPowerFault m | HLedState m | HExtendedStatus m
  | HClearDisableLatch m => u64 m
  | HManagementInterface m i => u64 m && wf_interface i
  | HMacAddrs => true
  | HSetLedState m _ => u64 m
  end.
Definition wf_sp_response (r : SpResponse) : bool :=
  match r with
  | SRead m f x => u64 m && u64 f && wf_read x
  | SWrite m f x => u64 m && u64 f && wf_write x
  | SStatus m f | SAck m f | SLedState m f | SExtendedStatus m f => u64 m && u64 f
  | SMacAddrs x => wf_mac_response x
  end.
Definition wf_body (b : MessageBody) : bool :=
  match b with
  | BError e => wf_protocol_error e
  | BHostRequest r => wf_host_request r
  | BSpResponse r => wf_sp_response r
  | BSpRequest r => match r with end
  | BHostResponse r => match r with end
  end.
Definition wf_message (m : Message) : bool := u8 (msg_version m) && wf_body (msg_body m).
