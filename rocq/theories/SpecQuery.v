(** Specification vocabulary for the queries for decoded module data (C64). *)
From Verif Require Export SpecDecode Queries.

(** What is plugged in at each port: a module with this memory, or one that answers every read with
    this error code. *)
Definition rack := N -> memory + N.
Definition shows (k : rack) (i : N) (rd : MemoryRead) : verdict :=
  match k i with inl mem => inl (contents mem rd) | inr b => inr b end.
(** SFF-8636 table 6-1, CMIS table 8-4: byte 0 of the lower page; the host reads it as SFF-8636. *)
Definition kind_of (mem : memory) : Identifier := ident_of_byte (mem sff_low 0).
Definition bytes_rack (k : rack) : Prop :=
  forall i, match k i with inl mem => byte_memory mem | inr b => b < 256 end.
(** Every module of [m] that answers meets [C]. *)
Definition all_modules (m : N) (k : rack) (C : memory -> Prop) : Prop :=
  forall i mem, member i m -> k i = inl mem -> C mem.

(** The result has for every module of [m] that answers one value, which [R] relates to its memory; for
    every other module of [m] its own error; and nothing else. *)
Definition reads_out {P} (m : N) (k : rack) (R : memory -> P -> Prop) (r : Result P) : Prop :=
  wf_result r /\
  (forall i mem, member i m -> k i = inl mem -> exists x, succeeds r i x) /\
  (forall i x, succeeds r i x -> member i m /\ exists mem, k i = inl mem /\ R mem x) /\
  (forall i e, fails r i e <-> member i m /\ exists b, k i = inr b /\ e = hw_fault i b).

Definition vendor_of (mem : memory) (x : VendorInfo) : Prop :=
  exists v, x = mkVendorInfo (kind_of mem) v /\ vendor_says mem (vendor_at (kind_of mem)) v.
Definition memory_model_of (mem : memory) (x : MemoryModel) : Prop :=
  (flat_memory (kind_of mem) mem = true -> x = Flat) /\
  (flat_memory (kind_of mem) mem = false -> exists pages, x = Paged pages /\
     StronglySorted N.lt (map page_no pages) /\ (forall p, In p pages <-> advertises (kind_of mem) mem p)).
Definition monitors_of (mem : memory) (x : Monitors) : Prop :=
  if sff_kind (kind_of mem) then x = sff_monitors_of mem
  else exists scale, bias_scale (mem (cmis_up 1) 160) = Some scale /\
                     x = cmis_monitors_of mem scale (any_aux mem).
Definition datapath_of (mem : memory) (x : Datapath) : Prop :=
  if sff_kind (kind_of mem) then
    x = DpSff (enum_of tbl_ConnectorType (mem (sff_up 0) 130)) (sff_compliance_of mem)
          (map (sff_lane_of mem) [0; 1; 2; 3])
  else exists dps,
    x = DpCmis (enum_of tbl_ConnectorType (mem (cmis_up 0) 203)) (255 - mem (cmis_up 0) 209) dps /\
    datapath_map_of other_nibble mem dps.
(** CMIS modules: the datapath can be decoded (C42, C49). *)
Definition datapath_sound (mem : memory) : Prop :=
  sff_kind (kind_of mem) = true \/
  known_media mem /\ assignments_listed mem /\ forall k, in_use mem k -> lane_with other_nibble mem k <> None.
