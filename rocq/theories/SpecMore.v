(** Vocabulary for additions to C07, C50, C52, C53, C58, C65 and C66 that tests against wrong programs asked for. *)
From Coq Require Import String Ascii.
From Verif Require Export SpecCli SpecTable SpecMonitor Codec CliMain SpecMessages.
Import ListNotations.
Open Scope N_scope.

(** ** C07: no value of a type is longer than its limit and one is as long. *)
Definition longest {A} (wf : A -> bool) (enc : A -> list N) (max : nat) : Prop :=
  (forall x, wf x = true -> (length (enc x) <= max)%nat) /\
  exists x, wf x = true /\ length (enc x) = max.

(** ** C50: settings made one after another. *)
Inductive setting :=
| SetAddress (a : ipv6) | SetPort (p : N) | SetPeer (a : ipv6) | SetPeerPort (p : N)
| SetRetryInterval (t : N) | SetRetries (n : N).
Definition make (b : ConfigBuilder) (s : setting) : ConfigBuilder :=
  match s with
  | SetAddress a => set_address b a
  | SetPort p => set_port b p
  | SetPeer a => set_peer b a
  | SetPeerPort p => set_peer_port b p
  | SetRetryInterval t => set_retry_interval b t
  | SetRetries n => set_n_retries b n
  end.
(** The last setting that [pick] knows. *)
Fixpoint last_of {A} (pick : setting -> option A) (l : list setting) : option A :=
  match l with
  | [] => None
  | s :: r => match last_of pick r with Some x => Some x | None => pick s end
  end.

(** ** C65, C66: clap names a field after its variant, in kebab case. *)
Definition is_capital (c : ascii) : bool := (65 <=? N_of_ascii c) && (N_of_ascii c <=? 90).
Fixpoint kebab_from (first : bool) (s : string) : text :=
  match s with
  | EmptyString => []
  | String c r =>
      (if is_capital c then (if first then [] else [45]) ++ [N_of_ascii c + 32] else [N_of_ascii c]) ++
      kebab_from false r
  end.
Definition kebab (s : string) : text := kebab_from true s.
Local Open Scope string_scope.
Definition power_variant (f : PowerFields) : string :=
  match f with FPowerPort => "Port" | FPowerPower => "Power" | FPowerOverride => "Override" end.
Definition ident_variant (f : IdentifyFields) : string :=
  match f with FIdentPort => "Port" | FIdentIdent => "Ident" | FIdentDescription => "Description" end.
Definition vendor_variant (f : VendorInfoFields) : string :=
  match f with
  | FVendorPort => "Port" | FVendorIdentifier => "Identifier" | FVendorVendor => "Vendor"
  | FVendorPart => "Part" | FVendorRev => "Rev" | FVendorSerial => "Serial"
  | FVendorManufacturedDate => "ManufacturedDate"
  end.
Definition model_variant (f : MemoryModelFields) : string :=
  match f with FModelPort => "Port" | FModelModel => "Model" end.
Definition led_variant (f : LedFields) : string := match f with FLedPort => "Port" | FLedLed => "Led" end.
Definition status_variant (f : StatusFields) : string :=
  match f with FStatusPort => "Port" | FStatusStatus => "Status" end.
Definition monitor_variant (f : MonitorFields) : string :=
  match f with
  | FMonPort => "Port" | FMonTemperature => "Temperature" | FMonSupplyVoltage => "SupplyVoltage"
  | FMonAverageRxPower => "AverageRxPower" | FMonTxBias => "TxBias" | FMonTxPower => "TxPower"
  | FMonAux1 => "Aux1" | FMonAux2 => "Aux2" | FMonAux3 => "Aux3"
  end.
(** Names are the variants' and no two fields share one. *)
Definition names_fields {F} (name : F -> text) (variant : F -> string) : Prop :=
  (forall f, name f = kebab (variant f)) /\ (forall f g, name f = name g -> f = g).

(** ** C53, C58: the page that the interface flags, the page number and the bank name. *)
Definition bank_fits (n : N) (bank : option N) : Prop :=
  match bank with Some b => cmis_defined n /\ b <= 3 /\ cmis_banked n | None => ~ cmis_banked n end.
Definition page_named (p : PageArgs) (g : Page) : Prop :=
  match pg_upper p with
  | None => (pg_sff p = true /\ g = PageSff SffLower) \/ (pg_cmis p = true /\ g = PageCmis CmisLower)
  | Some (n, bank) =>
      (pg_sff p = true /\ sff_defined n /\ g = PageSff (SffUpper n)) \/
      (pg_cmis p = true /\ bank_fits n bank /\ g = PageCmis (CmisUpper (mkCmisUpper bank n)))
  end.

(** ** C52, C58: what a write takes its data from: the file if one is named, which must then be there,
    otherwise standard input. *)
Definition source (i : Input) : option (list N) := match in_file i with Some f => f | None => Some (in_stdin i) end.
(** [data] is what [contents] says in the notation [k]: words up to what the buffer holds, or as it is. *)
Definition says_bytes (i : Input) (k : InputKind) (contents data : list N) : Prop :=
  match k with
  | Binary => data = firstn (Nat.min (in_chunk i) 128) contents
  | _ => writes k (firstn (in_cap i) contents) data /\ (List.length data <= 128)%nat
  end.
