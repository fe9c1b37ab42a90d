(** Specification vocabulary for the decoders (C41-C43, C46-C49): where the management standards
    (SFF-8636 rev 2.10a, CMIS rev 5.0) put each item in module memory. *)
From Coq Require Import QArith Qabs.
From Coq Require Import SpecFloat.
From Verif Require Export SpecMessages SpecController DecodeMonitors DecodeDatapath.
Open Scope N_scope.

(** ** Module memory *)
(** A byte for every page and address. *)
Definition memory := Page -> N -> N.
Definition byte_memory (mem : memory) : Prop := forall p k, mem p k < 256.
Definition area (mem : memory) (p : Page) (k : N) (n : nat) : list N := map (mem p) (nrange k n).
(** What a module answers to a read. *)
Definition contents (mem : memory) (rd : MemoryRead) : list N :=
  area mem (rd_page rd) (rd_offset rd) (N.to_nat (rd_len rd)).
(** A decoder applied to the memory of a module. *)
Definition decoded {P} (reads : Identifier -> outcome DecodeError (list MemoryRead))
    (parse : Identifier -> list (list N) -> outcome DecodeError P) (id : Identifier) (mem : memory)
    : outcome DecodeError P :=
  match reads id with
  | Ok rds => parse id (map (contents mem) rds)
  | Err e => Err e
  | Panic => Panic
  end.

Definition sff_low : Page := PageSff SffLower.
Definition sff_up (n : N) : Page := PageSff (SffUpper n).
Definition cmis_low : Page := PageCmis CmisLower.
Definition cmis_up (n : N) : Page := PageCmis (CmisUpper (mkCmisUpper None n)).
Definition cmis_up_bank (b n : N) : Page := PageCmis (CmisUpper (mkCmisUpper (Some b) n)).

(** The five decoders' read lists. *)
Definition decoders : list (Identifier -> outcome DecodeError (list MemoryRead)) :=
  [vendor_reads; power_reads; memory_reads; monitor_reads; datapath_reads].

(** ** Text *)
(** Unicode scalar values and their UTF-8 form. *)
Definition scalar (c : N) : Prop := c < 0xD800 \/ 0xE000 <= c < 0x110000.
Definition utf8_char (c : N) : list N :=
  if c <? 0x80 then [c]
  else if c <? 0x800 then [0xC0 + c / 64; 0x80 + c mod 64]
  else if c <? 0x10000 then [0xE0 + c / 4096; 0x80 + c / 64 mod 64; 0x80 + c mod 64]
  else [0xF0 + c / 262144; 0x80 + c / 4096 mod 64; 0x80 + c / 64 mod 64; 0x80 + c mod 64].
Definition utf8 (t : text) : list N := flat_map utf8_char t.
(** [b] starts with the text [t] and what follows does not start with a character. *)
Definition starts_with_text (b : list N) (t : text) : Prop :=
  exists rest, b = utf8 t ++ rest /\ Forall scalar t /\
    forall c r, scalar c -> rest <> utf8_char c ++ r.
(** [t] without trailing blanks is [u]. *)
Definition trimmed (t u : text) : Prop :=
  exists blanks, t = u ++ blanks /\ Forall (fun c => is_whitespace c = true) blanks /\
    forall v c, u = v ++ [c] -> is_whitespace c = false.
(** The text stored in a field: the text the field starts with, without trailing blanks. *)
Definition stored_text (b : list N) (u : text) : Prop :=
  exists t, starts_with_text b t /\ trimmed t u.

(** ** Vendor information: SFF-8636 table 6-14, CMIS table 8-24 *)
Record vendor_places := mkPlaces
  { vp_page : Page; vp_name : N; vp_oui : N; vp_part : N; vp_rev : N; vp_serial : N; vp_date : N }.
Definition vendor_at (id : Identifier) : vendor_places :=
  if sff_kind id then mkPlaces (sff_up 0) 148 165 168 184 196 212
  else mkPlaces (cmis_up 0) 129 145 148 164 166 182.
Definition vendor_says (mem : memory) (v : vendor_places) (x : Vendor) : Prop :=
  stored_text (area mem (vp_page v) (vp_name v) 16) (v_name x) /\
  v_oui x = mkOui (mem (vp_page v) (vp_oui v)) (mem (vp_page v) (vp_oui v + 1))
                  (mem (vp_page v) (vp_oui v + 2)) /\
  stored_text (area mem (vp_page v) (vp_part v) 16) (v_part x) /\
  stored_text (area mem (vp_page v) (vp_rev v) 2) (v_revision x) /\
  stored_text (area mem (vp_page v) (vp_serial v) 16) (v_serial x) /\
  (forall t, v_date x = Some t <->
     Forall scalar t /\ area mem (vp_page v) (vp_date v) 8 = utf8 t).

(** ** Memory model: SFF-8636 tables 6-2 and 6-21, CMIS tables 8-4 and 8-40 *)
Definition flat_memory (id : Identifier) (mem : memory) : bool :=
  if sff_kind id then N.testbit (mem sff_low 2) 2 else N.testbit (mem cmis_low 2) 7.
(** The highest bank: bits 1-0 of the advertisement; code 3 is reserved. *)
Definition top_bank (a : N) : N :=
  match a mod 4 with 0 => 0 | 1 => 1 | _ => 3 end.
(** The number of an upper page. *)
Definition page_no (p : Page) : N := match page_number p with Some n => n | None => 0 end.
Definition advertises (id : Identifier) (mem : memory) (p : Page) : Prop :=
  if sff_kind id then
    let a := mem (sff_up 0) 195 in
    p = sff_up 0 \/ p = sff_up 3 \/ (p = sff_up 1 /\ N.testbit a 6 = true) \/
    (p = sff_up 2 /\ N.testbit a 7 = true) \/
    ((p = sff_up 0x20 \/ p = sff_up 0x21) /\ N.testbit a 0 = true)
  else
    let a := mem (cmis_up 1) 142 in
    p = cmis_up 0 \/ p = cmis_up 1 \/ p = cmis_up 2 \/ (p = cmis_up 3 /\ N.testbit a 2 = true) \/
    p = cmis_up_bank (top_bank a) 0x10 \/ p = cmis_up_bank (top_bank a) 0x11 \/
    ((p = cmis_up_bank (top_bank a) 0x13 \/ p = cmis_up_bank (top_bank a) 0x14) /\
     N.testbit a 5 = true).
(** The reserved bank code, on a paged CMIS module. *)
Definition reserved_banks (id : Identifier) (mem : memory) : Prop :=
  cmis_kind id = true /\ flat_memory id mem = false /\ mem (cmis_up 1) 142 mod 4 = 3.

(** ** Monitors *)
(** The rational value of a finite [f32]. *)
Definition f32_value (x : f32) : option Q :=
  match x with
  | S754_zero _ => Some 0%Q
  | S754_finite s m e =>
      let z := if s then Z.neg m else Z.pos m in
      Some (if Z.leb 0 e then inject_Z (z * 2 ^ e) else Qmake z (Z.to_pos (2 ^ (- e))))
  | _ => None
  end.
(** [x] is the number [q]. *)
Definition is_value (x : f32) (q : Q) : Prop := exists v, f32_value x = Some v /\ (v == q)%Q.
(** [x] differs from [q] by at most [2^-22 * q], for [q >= 0]. *)
Definition near_value (x : f32) (q : Q) : Prop :=
  exists v, f32_value x = Some v /\ (q - q * (1 # 4194304) <= v)%Q /\ (v <= q + q * (1 # 4194304))%Q.
(** No finite [f32] is strictly nearer to [q] than [x]. *)
Definition nearest (x : f32) (q : Q) : Prop :=
  exists v, f32_value x = Some v /\
    forall y u, f32_value y = Some u -> valid_binary 24 128 y = true -> (Qabs (v - q) <= Qabs (u - q))%Q.

(** Big-endian words and their two's-complement reading. *)
Definition word_at_mem (mem : memory) (p : Page) (k : N) : word := (mem p k, mem p (k + 1)).
Definition raw (w : word) : N := fst w * 256 + snd w.
Definition signed (w : word) : Z :=
  if raw w <? 32768 then Z.of_N (raw w) else (Z.of_N (raw w) - 65536)%Z.
Definition implausible (w : word) : bool := (raw w =? 0) || (raw w =? 65535).
Definition words_at_mem (mem : memory) (p : Page) (k : N) (n : nat) : list word :=
  map (fun i => word_at_mem mem p (k + 2 * i)) (nrange 0 n).
Definition shown {A} (c : bool) (x : A) : option A := if c then Some x else None.

Definition byte_word (w : word) : Prop := fst w < 256 /\ snd w < 256.
(** [x] is a smaller number than [y]. *)
Definition below (x y : f32) : Prop := exists u v, f32_value x = Some u /\ f32_value y = Some v /\ (u < v)%Q.

(** SFF-8636 tables 6-3, 6-7, 6-8 and 6-23: revision at byte 1, support bits at page 0 byte 220,
    temperature at 22, voltage at 26, and four lanes each of receiver power at 34, bias at 42 and
    transmitter power at 50. *)
Definition sff_monitors_of (mem : memory) : Monitors :=
  let old := mem sff_low 1 <? 8 in
  let s := mem (sff_up 0) 220 in
  let t := word_at_mem mem sff_low 22 in
  let v := word_at_mem mem sff_low 26 in
  mkMonitors
    (shown (if old then negb (implausible t) else N.testbit s 5) (decode_temperature t))
    (shown (if old then negb (implausible v) else N.testbit s 4) (decode_supply_voltage v))
    (Some (map (fun w => (if N.testbit s 3 then Average else PeakToPeak) (decode_optical_power w))
               (words_at_mem mem sff_low 34 4)))
    (shown (N.testbit s 2) (map decode_bias_current (words_at_mem mem sff_low 42 4)))
    (shown (N.testbit s 2) (map decode_optical_power (words_at_mem mem sff_low 50 4)))
    None.

(** CMIS tables 8-10, 8-42, 8-46 and 8-79: support at page 1 bytes 159-160, what the auxiliary
    monitors measure at byte 145, the kind of receiver power at byte 151; temperature at lower 14,
    voltage at 16, auxiliary 18, 20, 22, custom 24; eight lanes each of transmitter power at page
    0x11 byte 154, bias at 170, receiver power at 186. *)
Definition bias_scale (s : N) : option f32 :=
  match s / 8 mod 4 with 0 => Some (f32_of_Z 1) | 1 => Some (f32_of_Z 2) | 2 => Some (f32_of_Z 4) | _ => None end.
Definition p11 : Page := cmis_up_bank 0 0x11.
Definition p10 : Page := cmis_up_bank 0 0x10.
(** [any] says when the group of auxiliary monitors is present at all. *)
Definition cmis_monitors_of (mem : memory) (scale : f32) (any : bool) : Monitors :=
  let s := mem (cmis_up 1) 159 in
  let l := mem (cmis_up 1) 160 in
  let o := mem (cmis_up 1) 145 in
  let k := mem (cmis_up 1) 151 in
  mkMonitors
    (shown (N.testbit s 0) (decode_temperature (word_at_mem mem cmis_low 14)))
    (shown (N.testbit s 1) (decode_supply_voltage (word_at_mem mem cmis_low 16)))
    (shown (N.testbit l 2)
       (map (fun w => (if N.testbit k 4 then Average else PeakToPeak) (decode_optical_power w))
            (words_at_mem mem p11 186 8)))
    (shown (N.testbit l 0)
       (map (fun w => f32_mul (decode_bias_current w) scale) (words_at_mem mem p11 170 8)))
    (shown (N.testbit l 1) (map decode_optical_power (words_at_mem mem p11 154 8)))
    (shown any
       (mkAux (shown (N.testbit s 2)
                 (let w := word_at_mem mem cmis_low 18 in
                  if N.testbit o 0 then Aux1TecCurrent (decode_tec w) else Aux1Custom w))
              (shown (N.testbit s 3)
                 (let w := word_at_mem mem cmis_low 20 in
                  if N.testbit o 1 then Aux2TecCurrent (decode_tec w)
                  else Aux2LaserTemperature (decode_temperature w)))
              (shown (N.testbit s 4)
                 (let w := word_at_mem mem cmis_low 22 in
                  if N.testbit o 2 then Aux3AdditionalSupplyVoltage (decode_supply_voltage w)
                  else Aux3LaserTemperature (decode_temperature w)))
              (shown (N.testbit s 5) (word_at_mem mem cmis_low 24)))).

(** As coded, the auxiliary monitors are present when any of the bits 0 to 4 is set. *)
Definition any_aux (mem : memory) : bool := negb (mem (cmis_up 1) 159 mod 32 =? 0).

(** The auxiliary monitors a module supports: bits 2-4, and the custom monitor, bit 5. *)
Definition aux_supported (mem : memory) : bool :=
  let s := mem (cmis_up 1) 159 in N.testbit s 2 || N.testbit s 3 || N.testbit s 4 || N.testbit s 5.

(** ** Lanes *)
(** SFF-8636 tables 6-5, 6-9 and 6-17: byte 86 transmitter disable, bytes 3-5 loss of signal,
    faults, loss of lock, byte 98 clock recovery. *)
Definition sff_lane_of (mem : memory) (k : N) : Sff8636Datapath :=
  let b n i := N.testbit (mem sff_low n) i in
  mkSffLane (negb (b 86 k)) (b 3 (4 + k)) (b 3 k) (b 4 (4 + k)) (b 4 k) (b 5 (4 + k)) (b 5 k)
            (b 98 (4 + k)) (b 98 k).
Definition sff_compliance_of (mem : memory) : SffComplianceCode :=
  let s := mem (sff_up 0) 131 in
  if s =? 128 then SccExtended (enum_of tbl_ExtendedSpecificationComplianceCode (mem (sff_up 0) 192))
  else SccEthernet s.

(** CMIS 5.0 table 8-31, page 00h byte 210: bit [k] is set when media lane [k] is not supported. *)
Definition cmis_unsupported_lanes (mem : memory) : N := mem (cmis_up 0) 210.
(** CMIS tables 8-44, 8-61, 8-73, 8-75, 8-77 and 8-78; lanes are counted from 0.  [nib] is the half
    of byte 128 + k / 2 of page 0x11 that holds the state of lane [k]: by table 8-73 the low half
    for the first lane of each pair. *)
Definition standard_nibble (mem : memory) (k : N) : N :=
  let b := mem p11 (128 + k / 2) in if N.even k then b mod 16 else b / 16.
Definition other_nibble (mem : memory) (k : N) : N :=
  let b := mem p11 (128 + k / 2) in if N.even k then b / 16 else b mod 16.
(** Table 8-74 defines the codes 1 to 7 and reserves 0 and 8 to 15; here the top bit is ignored. *)
Definition state_of_nibble (n : N) : option CmisDatapathState :=
  match n mod 8 with
  | 1 => Some DpDeactivated | 2 => Some DpInit | 3 => Some DpDeinit | 4 => Some DpActivated
  | 5 => Some DpTxTurnOn | 6 => Some DpTxTurnOff | 7 => Some DpInitialized | _ => None
  end.
Definition cmis_lane_of (mem : memory) (state : CmisDatapathState) (k : N) : CmisLaneStatus :=
  let can n i := N.testbit (mem (cmis_up 1) n) i in
  let ctl n := N.testbit (mem p10 n) k in
  let flag n := N.testbit (mem p11 n) k in
  let pol x := if x : bool then PolFlipped else PolNormal in
  let out x := if x : bool then OutValid else OutInvalid in
  mkLaneStatus state
    (shown (can 155 0) (pol (ctl 129)))
    (shown (can 155 1) (negb (ctl 130)))
    (shown (can 155 2) (ctl 131))
    (shown (can 155 3) (ctl 132))
    (shown (can 156 0) (pol (ctl 137)))
    (shown (can 156 1) (negb (ctl 138)))
    (shown (can 156 2) (ctl 139))
    (out (flag 132))
    (out (flag 133))
    (shown (can 157 0) (flag 135))
    (shown (can 157 1) (flag 136))
    (shown (can 157 2) (flag 137))
    (shown (can 157 3) (flag 138))
    (shown (can 158 1) (flag 147))
    (shown (can 158 2) (flag 148)).

(** Lane [k] belongs to application [a]; 0 means to none. *)
Definition app_of (mem : memory) (k : N) : N := mem p11 (206 + k) / 16.
(** The applications listed: descriptor [a] (from 1) at lower 86 + 4 (a - 1), the list ends at a host
    interface code of 0xff or after eight. *)
Definition listed (mem : memory) (a : N) : Prop :=
  1 <= a <= 8 /\ forall j, 1 <= j <= a -> mem cmis_low (82 + 4 * j) <> 0xff.
Definition media_of (mem : memory) (x : N) : option MediaInterfaceId :=
  match mem cmis_low 85 with
  | 1 => Some (MiMmf (enum_of tbl_MmfMediaInterfaceId x))
  | 2 => Some (MiSmf (enum_of tbl_SmfMediaInterfaceId x))
  | 3 => Some (MiPassiveCopper (enum_of tbl_PassiveCopperMediaInterfaceId x))
  | 4 => Some (MiActiveCable (enum_of tbl_ActiveCableMediaInterfaceId x))
  | 5 => Some (MiBaseT (enum_of tbl_BaseTMediaInterfaceId x))
  | _ => None
  end.
Definition known_media (mem : memory) : Prop := 1 <= mem cmis_low 85 <= 5.
Definition descriptor_is (mem : memory) (a : N) (d : ApplicationDescriptor) : Prop :=
  let b i := mem cmis_low (82 + 4 * a + i) in
  ap_host_id d = enum_of tbl_HostElectricalInterfaceId (b 0) /\
  Some (ap_media_id d) = media_of mem (b 1) /\
  ap_host_lane_count d = b 2 / 16 /\ ap_media_lane_count d = b 2 mod 16 /\
  ap_host_lane_options d = b 3 /\
  ap_media_lane_options d = mem (cmis_up 1) (175 + a).
(** Every lane in use names a listed application. *)
Definition assignments_listed (mem : memory) : Prop :=
  forall k, k < 8 -> app_of mem k <> 0 -> listed mem (app_of mem k).
(** The status reported for lane [k] (from 0) of application [a]. *)
Definition reported (dps : list (N * CmisDatapath)) (a k : N) (st : CmisLaneStatus) : Prop :=
  exists d, lookup a dps = Some d /\ lookup (k + 1) (cd_lane_status d) = Some st.

(** Lanes in use. *)
Definition in_use (mem : memory) (k : N) : Prop := k < 8 /\ app_of mem k <> 0.
(** The status of lane [k] when its state is in the nibble [nib]. *)
Definition lane_with (nib : memory -> N -> N) (mem : memory) (k : N) : option CmisLaneStatus :=
  match state_of_nibble (nib mem k) with Some s => Some (cmis_lane_of mem s k) | None => None end.
Definition sorted_keys {A} (l : list (N * A)) : Prop := StronglySorted N.lt (map fst l).
(** The map from applications in use to their descriptor and the status of their lanes, counted from 1. *)
Definition datapath_map_of (nib : memory -> N -> N) (mem : memory) (dps : list (N * CmisDatapath)) : Prop :=
  sorted_keys dps /\
  (forall a, In a (map fst dps) <-> exists k, in_use mem k /\ app_of mem k = a) /\
  (forall a d, lookup a dps = Some d ->
     descriptor_is mem a (cd_application d) /\ sorted_keys (cd_lane_status d) /\
     forall n st, lookup n (cd_lane_status d) = Some st <->
       exists k, n = k + 1 /\ in_use mem k /\ app_of mem k = a /\ lane_with nib mem k = Some st).
