(** The controller's queries for decoded module data. *)
From Verif Require Export Controller DecodeVendor DecodeMemory DecodeMonitors DecodeDatapath.

Section Queries.
  Context {St : Type} (sp : St -> Rpc -> St * reply).
  (** controller/src/controller.rs:283-287 *)
  Definition vendor_info (modules : ModuleId) : ctl (St := St) (Result VendorInfo) :=
    parse_modules_by_identifier sp vendor_reads vendor_parse modules.
  (** controller/src/controller.rs:1152-1156 *)
  Definition memory_model (modules : ModuleId) : ctl (St := St) (Result MemoryModel) :=
    parse_modules_by_identifier sp memory_reads memory_parse modules.
  (** controller/src/controller.rs:1158-1161 *)
  Definition monitors (modules : ModuleId) : ctl (St := St) (Result Monitors) :=
    parse_modules_by_identifier sp monitor_reads monitor_parse modules.
  (** controller/src/controller.rs:1163-1166 *)
  Definition datapath (modules : ModuleId) : ctl (St := St) (Result Datapath) :=
    parse_modules_by_identifier sp datapath_reads datapath_parse modules.
End Queries.
