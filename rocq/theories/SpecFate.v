(** Specification vocabulary for the outcome of queries (C88). *)
From Verif Require Export SpecQuery.

(** Modules are read kind by kind, in the order of the identifier byte; the codes 31 and 32, which are
    neither named nor in the reserved range, come last (controller/src/controller.rs:1188, derived [Ord]). *)
Definition read_rank (mem : memory) : N :=
  let b := mem sff_low 0 in if (b =? 31) || (b =? 32) then 256 + b else b.
Definition read_before (x y : memory) : Prop := read_rank x < read_rank y.
(** Module [i] of [m] answers, and stops the query: its kind is unsupported, or its memory meets [crash]. *)
Definition stops (crash : memory -> Prop) (mem : memory) : Prop := supported_kind (kind_of mem) = false \/ crash mem.
Definition first_stop (crash : memory -> Prop) (m : N) (k : rack) (mem : memory) : Prop :=
  (exists i, member i m /\ k i = inl mem) /\ stops crash mem /\
  forall j mem', member j m -> k j = inl mem' -> stops crash mem' -> ~ read_before mem' mem.
(** The query returns if no module stops it; a first one of a supported kind crashes it, a first one of
    another kind fails it with [err]. *)
Definition ends_as {E A} (crash : memory -> Prop) (m : N) (k : rack) (err : memory -> E) (o : outcome E A) : Prop :=
  ((exists r, o = Ok r) <-> all_modules m k (fun mem => ~ stops crash mem)) /\
  (o = Panic <-> exists mem, first_stop crash m k mem /\ supported_kind (kind_of mem) = true) /\
  (forall e, o = Err e <-> exists mem, first_stop crash m k mem /\ supported_kind (kind_of mem) = false /\ e = err mem).
Definition not_supported (mem : memory) : Error := ETransceiver (TeDecode (DeUnsupportedIdentifier (kind_of mem))).
(** The tool's error. *)
Definition unsupported_kind (mem : memory) : option Error := Some (not_supported mem).

(** The memories that crash the decoders (C42). *)
Definition no_crash (mem : memory) : Prop := False.
Definition banks_crash (mem : memory) : Prop := reserved_banks (kind_of mem) mem.
Definition scale_crash (mem : memory) : Prop :=
  cmis_kind (kind_of mem) = true /\ bias_scale (mem (cmis_up 1) 160) = None.
Definition path_crash (mem : memory) : Prop :=
  cmis_kind (kind_of mem) = true /\ (~ known_media mem \/ ~ assignments_listed mem).
