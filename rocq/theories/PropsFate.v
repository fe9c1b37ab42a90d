(** Property C88: how queries for decoded data end (controller/src/controller.rs, controller/src/bin/xcvradm.rs, decode/src). *)
From Coq Require Import String.
From Verif Require Import Tac SpecFate SpecMain FateProofs FateProofs2 QueryProofs DecodeProofs9 PropsDecode PropsQuery PropsMain.
Import ListNotations.
Open Scope N_scope.

(** C88: for every rack, whatever its modules hold: the query returns exactly if every module asked for that
    answers is of a supported kind and has memory that can be decoded ([banks_crash], [scale_crash] and [path_crash]
    say which cannot); otherwise the kind read first among the others decides between the error and a crash. *)
Theorem C88_queries : forall St (a : honest St), honest_ok a -> forall (w : world St) m k,
  m < 2 ^ 64 -> reads_as a (w_sp w) (SpecQuery.shows k) -> bytes_rack k ->
  ends_as no_crash m k not_supported (snd (vendor_info (honest_sp a) m w)) /\
  ends_as no_crash m k not_supported (snd (power_control (honest_sp a) m w)) /\
  ends_as banks_crash m k not_supported (snd (memory_model (honest_sp a) m w)) /\
  ends_as scale_crash m k not_supported (snd (monitors (honest_sp a) m w)) /\
  ends_as path_crash m k not_supported (snd (datapath (honest_sp a) m w)).
Proof. exact @fates. Qed.
Print Assumptions C88_queries.
(** The power states read the modules that have power and are not in reset. *)
Theorem C88_power : forall St (a : honest St), honest_ok a -> forall (w : world St) m k,
  let st := hs_verdict a (w_sp w) (HStatus m) None in
  m < 2 ^ 64 -> reads_as a (hs_next a (w_sp w) (HStatus m) None) (SpecQuery.shows k) -> bytes_rack k ->
  ends_as no_crash (readable_mask m st) k not_supported (snd (power (honest_sp a) m w)).
Proof. exact @power_ends. Qed.
Print Assumptions C88_power.
(** So do the commands of the tool: printing neither fails nor crashes. *)
Theorem C88_tool : forall St (a : honest St), honest_ok a -> forall show_f32 show g (w w1 : world St) m,
  addressing (honest_sp a) g w w1 m -> m < 2 ^ 64 -> forall k, bytes_rack k -> reads_as a (w_sp w1) (SpecQuery.shows k) ->
  (forall args, ar_cmd g = CVendorInfo args ->
     ends_as no_crash m k unsupported_kind (snd (main (honest_sp a) show_f32 show g w))) /\
  (forall args, ar_cmd g = CMemoryModel args ->
     ends_as banks_crash m k unsupported_kind (snd (main (honest_sp a) show_f32 show g w))) /\
  (forall args, ar_cmd g = CMonitors args ->
     ends_as scale_crash m k unsupported_kind (snd (main (honest_sp a) show_f32 show g w))) /\
  (ar_cmd g = CDatapath ->
     ends_as path_crash m k unsupported_kind (snd (main (honest_sp a) show_f32 show g w))).
Proof. exact @tool_fates. Qed.
Print Assumptions C88_tool.
Theorem C88_tool_power : forall St (a : honest St), honest_ok a -> forall show_f32 show g (w w1 : world St) m,
  addressing (honest_sp a) g w w1 m -> m < 2 ^ 64 -> forall k, bytes_rack k ->
  let st := hs_verdict a (w_sp w1) (HStatus m) None in
  reads_as a (hs_next a (w_sp w1) (HStatus m) None) (SpecQuery.shows k) ->
  forall args, ar_cmd g = CPower args ->
  ends_as no_crash (readable_mask m st) k unsupported_kind (snd (main (honest_sp a) show_f32 show g w)).
Proof. exact @tool_power. Qed.
Print Assumptions C88_tool_power.

(** Port 0: an SFP module (unsupported); port 1: a QSFP-DD module with the reserved bank code; port 2: a module with
    the unknown code 31; port 3: a Qsfp28 module. *)
Definition mixed : rack := fun i =>
  match i with
  | 0 => inl (mem_with [(sff_low, 0, 3)])
  | 1 => inl (dd [(cmis_up 1, 142, 3)])
  | 2 => inl (mem_with [(sff_low, 0, 31)])
  | _ => inl (mem_with [(sff_low, 0, 0x11)])
  end.
Lemma mixed_bytes : bytes_rack mixed.
Proof. intros i. unfold mixed. destruct i as [|[[]|[]|]]; apply mem_with_bytes. Qed.
(** The SFP module is met before the crash, the unknown module after it. *)
Example C88_witness :
  honest_ok (rack_sp mixed) /\ reads_as (rack_sp mixed) tt (SpecQuery.shows mixed) /\
  (exists r, snd (memory_model (honest_sp (rack_sp mixed)) 8 (mkWorld tt 0 [])) = Ok r) /\
  snd (memory_model (honest_sp (rack_sp mixed)) 10 (mkWorld tt 0 [])) = Panic /\
  snd (memory_model (honest_sp (rack_sp mixed)) 14 (mkWorld tt 0 [])) = Panic /\
  snd (memory_model (honest_sp (rack_sp mixed)) 12 (mkWorld tt 0 [])) =
    Err (ETransceiver (TeDecode (DeUnsupportedIdentifier (ident_of_byte 31)))) /\
  snd (memory_model (honest_sp (rack_sp mixed)) 15 (mkWorld tt 0 [])) =
    Err (ETransceiver (TeDecode (DeUnsupportedIdentifier (ident_of_byte 3)))) /\
  snd (vendor_info (honest_sp (rack_sp mixed)) 14 (mkWorld tt 0 [])) =
    Err (ETransceiver (TeDecode (DeUnsupportedIdentifier (ident_of_byte 31)))).
Proof.
  split; [apply rack_sp_ok, mixed_bytes|]. split; [apply rack_sp_reads|].
  split; [eexists; vm_compute; reflexivity|]. repeat split; vm_compute; reflexivity.
Qed.
