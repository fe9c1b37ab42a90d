(** Model of the wire format: hubpack serialisation of the types of messages/src.
    hubpack is an external crate; its format (trusted): an enum is its variant index in one byte
    followed by the variant's fields, a struct is its fields in order, integers are little-endian,
    an array is its elements, an [Option] is 0 or 1 followed by the value.  [deserialize] returns
    the value and the unread remainder; here [None] is any deserialisation error. *)
From Verif Require Export Message.

Definition decoder (A : Type) := list N -> option (A * list N).

Definition dret {A} (a : A) : decoder A := fun bs => Some (a, bs).
Definition dfail {A} : decoder A := fun _ => None.
Definition dbind {A B} (d : decoder A) (f : A -> decoder B) : decoder B :=
  fun bs => match d bs with
            | Some (a, rest) => f a rest
            | None => None
            end.
Declare Scope dec_scope.
Notation "x <- d ;; e" := (dbind d (fun x => e))
  (at level 61, d at next level, right associativity) : dec_scope.
Local Open Scope dec_scope.

Definition dec_u8 : decoder N :=
  fun bs => match bs with [] => None | b :: r => Some (b, r) end.

(** Little-endian integers of [k] bytes. *)
Fixpoint enc_int (k : nat) (n : N) : list N :=
  match k with
  | O => []
  | S k' => n mod 256 :: enc_int k' (n / 256)
  end.
Fixpoint dec_int (k : nat) : decoder N :=
  match k with
  | O => dret 0
  | S k' => b <- dec_u8 ;; r <- dec_int k' ;; dret (b + 256 * r)
  end.
Definition enc_u8 (n : N) : list N := [n].
Definition enc_u16 := enc_int 2.
Definition enc_u32 := enc_int 4.
Definition enc_u64 := enc_int 8.
Definition dec_u16 := dec_int 2.
Definition dec_u32 := dec_int 4.
Definition dec_u64 := dec_int 8.

(** messages/src/module_id.rs:20-39 (derive): the u64 mask. *)
Definition enc_ModuleId (m : ModuleId) : list N := enc_u64 m.
Definition dec_ModuleId : decoder ModuleId := dec_u64.

(** [Option<u8>] *)
Definition enc_opt_u8 (o : option N) : list N :=
  match o with None => [0] | Some b => [1; b] end.
Definition dec_opt_u8 : decoder (option N) :=
  t <- dec_u8 ;;
  if t =? 0 then dret None
  else if t =? 1 then (b <- dec_u8 ;; dret (Some b))
  else dfail.

(** messages/src/mgmt/mod.rs:74-83 (derive) *)
Definition enc_interface (i : ManagementInterface) : list N :=
  match i with Sff8636 => [0] | Cmis => [1] | UnknownInterface v => [2; v] end.
Definition dec_interface : decoder ManagementInterface :=
  t <- dec_u8 ;;
  if t =? 0 then dret Sff8636
  else if t =? 1 then dret Cmis
  else if t =? 2 then (v <- dec_u8 ;; dret (UnknownInterface v))
  else dfail.

(** messages/src/mgmt/sff8636.rs:19-50 (derive) *)
Definition enc_sff_page (p : SffPage) : list N :=
  match p with SffLower => [0] | SffUpper n => [1; n] end.
Definition dec_sff_page : decoder SffPage :=
  t <- dec_u8 ;;
  if t =? 0 then dret SffLower
  else if t =? 1 then (n <- dec_u8 ;; dret (SffUpper n))
  else dfail.

(** messages/src/mgmt/cmis.rs:18-59 (derive): fields bank, page. *)
Definition enc_cmis_page (p : CmisPage) : list N :=
  match p with
  | CmisLower => [0]
  | CmisUpper u => 1 :: enc_opt_u8 (cu_bank u) ++ enc_u8 (cu_page u)
  end.
Definition dec_cmis_page : decoder CmisPage :=
  t <- dec_u8 ;;
  if t =? 0 then dret CmisLower
  else if t =? 1 then (b <- dec_opt_u8 ;; n <- dec_u8 ;; dret (CmisUpper (mkCmisUpper b n)))
  else dfail.

(** messages/src/mgmt/mod.rs:144-150 (derive) *)
Definition enc_page (p : Page) : list N :=
  match p with PageSff q => 0 :: enc_sff_page q | PageCmis q => 1 :: enc_cmis_page q end.
Definition dec_page : decoder Page :=
  t <- dec_u8 ;;
  if t =? 0 then (q <- dec_sff_page ;; dret (PageSff q))
  else if t =? 1 then (q <- dec_cmis_page ;; dret (PageCmis q))
  else dfail.

(** messages/src/mgmt/mod.rs:213-218 and 252-257 (derive): no validation on decode. *)
Definition enc_read (r : MemoryRead) : list N :=
  enc_page (rd_page r) ++ enc_u8 (rd_offset r) ++ enc_u8 (rd_len r).
Definition dec_read : decoder MemoryRead :=
  p <- dec_page ;; o <- dec_u8 ;; l <- dec_u8 ;; dret (mkRead p o l).
Definition enc_write (r : MemoryWrite) : list N :=
  enc_page (wr_page r) ++ enc_u8 (wr_offset r) ++ enc_u8 (wr_len r).
Definition dec_write : decoder MemoryWrite :=
  p <- dec_page ;; o <- dec_u8 ;; l <- dec_u8 ;; dret (mkWrite p o l).

(** messages/src/mac.rs:14-70 (derive) *)
Definition enc_mac (m : Mac) : list N := mac_bytes m.
Definition dec_mac : decoder Mac :=
  a <- dec_u8 ;; b <- dec_u8 ;; c <- dec_u8 ;; d <- dec_u8 ;; e <- dec_u8 ;; f <- dec_u8 ;;
  dret (mkMac a b c d e f).
Definition enc_reason (r : BadMacAddrReason) : list N :=
  match r with SpansMultipleOuis => [0] | ZeroStrideOrCount => [1] | MulticastBaseAddr => [2] end.
Definition dec_reason : decoder BadMacAddrReason :=
  t <- dec_u8 ;;
  if t =? 0 then dret SpansMultipleOuis
  else if t =? 1 then dret ZeroStrideOrCount
  else if t =? 2 then dret MulticastBaseAddr
  else dfail.
Definition enc_bad_range (b : BadMacAddrRange) : list N :=
  enc_reason (br_reason b) ++ enc_mac (br_base b) ++ enc_u16 (br_count b) ++ enc_u8 (br_stride b).
Definition dec_bad_range : decoder BadMacAddrRange :=
  r <- dec_reason ;; m <- dec_mac ;; c <- dec_u16 ;; s <- dec_u8 ;; dret (mkBadRange r m c s).
Definition enc_mac_addrs (b : MacAddrs) : list N :=
  enc_mac (ma_base b) ++ enc_u16 (ma_count b) ++ enc_u8 (ma_stride b).
Definition dec_mac_addrs : decoder MacAddrs :=
  m <- dec_mac ;; c <- dec_u16 ;; s <- dec_u8 ;; dret (mkMacAddrs m c s).
(** messages/src/message.rs:710-716 (derive) *)
Definition enc_mac_response (r : MacAddrResponse) : list N :=
  match r with MacOk m => 0 :: enc_mac_addrs m | MacError e => 1 :: enc_bad_range e end.
Definition dec_mac_response : decoder MacAddrResponse :=
  t <- dec_u8 ;;
  if t =? 0 then (m <- dec_mac_addrs ;; dret (MacOk m))
  else if t =? 1 then (e <- dec_bad_range ;; dret (MacError e))
  else dfail.

(** messages/src/message.rs:85-124 (derive) *)
Definition enc_protocol_error (e : ProtocolError) : list N :=
  match e with
  | PeWrongMessage => [0]
  | PeNotSupported => [1]
  | PeRequestTooLarge => [2]
  | PeWrongDataSize x a => 3 :: enc_u32 x ++ enc_u32 a
  | PeVersionMismatch x a => 4 :: enc_u8 x ++ enc_u8 a
  | PeSerialization => [5]
  end.
Definition dec_protocol_error : decoder ProtocolError :=
  t <- dec_u8 ;;
  if t =? 0 then dret PeWrongMessage
  else if t =? 1 then dret PeNotSupported
  else if t =? 2 then dret PeRequestTooLarge
  else if t =? 3 then (x <- dec_u32 ;; a <- dec_u32 ;; dret (PeWrongDataSize x a))
  else if t =? 4 then (x <- dec_u8 ;; a <- dec_u8 ;; dret (PeVersionMismatch x a))
  else if t =? 5 then dret PeSerialization
  else dfail.

(** messages/src/message.rs:373-385 (derive) *)
Definition enc_kind (k : MessageKind) : list N :=
  match k with
  | KError => [0] | KHostRequest => [1] | KSpResponse => [2] | KSpRequest => [3]
  | KHostResponse => [4]
  end.
Definition dec_kind : decoder MessageKind :=
  t <- dec_u8 ;;
  if t =? 0 then dret KError
  else if t =? 1 then dret KHostRequest
  else if t =? 2 then dret KSpResponse
  else if t =? 3 then dret KSpRequest
  else if t =? 4 then dret KHostResponse
  else dfail.

(** messages/src/message.rs:336-347 (derive) *)
Definition enc_header (h : Header) : list N :=
  enc_u8 (h_version h) ++ enc_u64 (h_id h) ++ enc_kind (h_kind h).
Definition dec_header : decoder Header :=
  v <- dec_u8 ;; i <- dec_u64 ;; k <- dec_kind ;; dret (mkHeader v i k).

(** messages/src/message.rs:1030-1050 (derive) *)
Definition enc_led (l : LedState) : list N :=
  match l with LedOff => [0] | LedOn => [1] | LedBlink => [2] end.
Definition dec_led : decoder LedState :=
  t <- dec_u8 ;;
  if t =? 0 then dret LedOff
  else if t =? 1 then dret LedOn
  else if t =? 2 then dret LedBlink
  else dfail.

(** messages/src/message.rs:475-548 (derive) *)
Definition enc_host_request (r : HostRequest) : list N :=
  match r with
  | HRead m x => 0 :: enc_ModuleId m ++ enc_read x
  | HWrite m x => 1 :: enc_ModuleId m ++ enc_write x
  | HStatus m => 2 :: enc_ModuleId m
  | HAssertReset m => 3 :: enc_ModuleId m
  | HDeassertReset m => 4 :: enc_ModuleId m
  | HAssertLpMode m => 5 :: enc_ModuleId m
  | HDeassertLpMode m => 6 :: enc_ModuleId m
  | HEnablePower m => 7 :: enc_ModuleId m
  | HDisablePower m => 8 :: enc_ModuleId m
  | HManagementInterface m i => 9 :: enc_ModuleId m ++ enc_interface i
  | HMacAddrs => [10]
  | HClearPowerFault m => 11 :: enc_ModuleId m
  | HLedState m => 12 :: enc_ModuleId m
  | HSetLedState m s => 13 :: enc_ModuleId m ++ enc_led s
  | HExtendedStatus m => 14 :: enc_ModuleId m
  | HClearDisableLatch m => 15 :: enc_ModuleId m
  end.
Definition dec_host_request : decoder HostRequest :=
  t <- dec_u8 ;;
  if t =? 0 then (m <- dec_ModuleId ;; x <- dec_read ;; dret (HRead m x))
  else if t =? 1 then (m <- dec_ModuleId ;; x <- dec_write ;; dret (HWrite m x))
  else if t =? 2 then (m <- dec_ModuleId ;; dret (HStatus m))
  else if t =? 3 then (m <- dec_ModuleId ;; dret (HAssertReset m))
  else if t =? 4 then (m <- dec_ModuleId ;; dret (HDeassertReset m))
  else if t =? 5 then (m <- dec_ModuleId ;; dret (HAssertLpMode m))
  else if t =? 6 then (m <- dec_ModuleId ;; dret (HDeassertLpMode m))
  else if t =? 7 then (m <- dec_ModuleId ;; dret (HEnablePower m))
  else if t =? 8 then (m <- dec_ModuleId ;; dret (HDisablePower m))
  else if t =? 9 then (m <- dec_ModuleId ;; i <- dec_interface ;; dret (HManagementInterface m i))
  else if t =? 10 then dret HMacAddrs
  else if t =? 11 then (m <- dec_ModuleId ;; dret (HClearPowerFault m))
  else if t =? 12 then (m <- dec_ModuleId ;; dret (HLedState m))
  else if t =? 13 then (m <- dec_ModuleId ;; s <- dec_led ;; dret (HSetLedState m s))
  else if t =? 14 then (m <- dec_ModuleId ;; dret (HExtendedStatus m))
  else if t =? 15 then (m <- dec_ModuleId ;; dret (HClearDisableLatch m))
  else dfail.

(** messages/src/message.rs:580-664 (derive) *)
Definition enc_sp_response (r : SpResponse) : list N :=
  match r with
  | SRead m f x => 0 :: enc_ModuleId m ++ enc_ModuleId f ++ enc_read x
  | SWrite m f x => 1 :: enc_ModuleId m ++ enc_ModuleId f ++ enc_write x
  | SStatus m f => 2 :: enc_ModuleId m ++ enc_ModuleId f
  | SAck m f => 3 :: enc_ModuleId m ++ enc_ModuleId f
  | SMacAddrs x => 4 :: enc_mac_response x
  | SLedState m f => 5 :: enc_ModuleId m ++ enc_ModuleId f
  | SExtendedStatus m f => 6 :: enc_ModuleId m ++ enc_ModuleId f
  end.
Definition dec_sp_response : decoder SpResponse :=
  t <- dec_u8 ;;
  if t =? 0 then (m <- dec_ModuleId ;; f <- dec_ModuleId ;; x <- dec_read ;; dret (SRead m f x))
  else if t =? 1 then
    (m <- dec_ModuleId ;; f <- dec_ModuleId ;; x <- dec_write ;; dret (SWrite m f x))
  else if t =? 2 then (m <- dec_ModuleId ;; f <- dec_ModuleId ;; dret (SStatus m f))
  else if t =? 3 then (m <- dec_ModuleId ;; f <- dec_ModuleId ;; dret (SAck m f))
  else if t =? 4 then (x <- dec_mac_response ;; dret (SMacAddrs x))
  else if t =? 5 then (m <- dec_ModuleId ;; f <- dec_ModuleId ;; dret (SLedState m f))
  else if t =? 6 then (m <- dec_ModuleId ;; f <- dec_ModuleId ;; dret (SExtendedStatus m f))
  else dfail.

(** messages/src/message.rs:387-442 (derive).  [SpRequest] and [HostResponse] are empty enums:
    their decoders read a variant index and reject every value. *)
Definition enc_body (b : MessageBody) : list N :=
  match b with
  | BError e => 0 :: enc_protocol_error e
  | BHostRequest r => 1 :: enc_host_request r
  | BSpResponse r => 2 :: enc_sp_response r
  | BSpRequest r => match r with end
  | BHostResponse r => match r with end
  end.
Definition dec_body : decoder MessageBody :=
  t <- dec_u8 ;;
  if t =? 0 then (e <- dec_protocol_error ;; dret (BError e))
  else if t =? 1 then (r <- dec_host_request ;; dret (BHostRequest r))
  else if t =? 2 then (r <- dec_sp_response ;; dret (BSpResponse r))
  else if t =? 3 then (_ <- dec_u8 ;; dfail)
  else if t =? 4 then (_ <- dec_u8 ;; dfail)
  else dfail.
Definition enc_message (m : Message) : list N := enc_u8 (msg_version m) ++ enc_body (msg_body m).
Definition dec_message : decoder Message :=
  v <- dec_u8 ;; b <- dec_body ;; dret (mkMessage v b).

(** [SerializedSize::MAX_SIZE] as hubpack derives it: an enum is 1 + the largest variant, a struct
    the sum of its fields. *)
Definition MAX_SIZE_page : nat := 1 + Nat.max (1 + 1) (1 + (2 + 1)).
Definition MAX_SIZE_read : nat := MAX_SIZE_page + 1 + 1.
Definition MAX_SIZE_protocol_error : nat := 1 + Nat.max (4 + 4) (1 + 1).
Definition MAX_SIZE_host_request : nat := 1 + (8 + MAX_SIZE_read).
Definition MAX_SIZE_mac_response : nat := 1 + Nat.max (6 + 2 + 1) (1 + 6 + 2 + 1).
Definition MAX_SIZE_sp_response : nat := 1 + Nat.max (8 + 8 + MAX_SIZE_read) MAX_SIZE_mac_response.
Definition MAX_SIZE_body : nat :=
  1 + Nat.max MAX_SIZE_protocol_error (Nat.max MAX_SIZE_host_request MAX_SIZE_sp_response).
Definition MAX_SIZE_message : nat := 1 + MAX_SIZE_body.
Definition MAX_SIZE_header : nat := 1 + 8 + 1.

(** messages/src/lib.rs:148-150 *)
Definition MAX_PAYLOAD_SIZE : nat := 1024.
Definition MAX_PACKET_SIZE : nat := MAX_PAYLOAD_SIZE + MAX_SIZE_header + MAX_SIZE_message.
