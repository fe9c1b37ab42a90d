(** Property C64: queries for decoded data of the plugged modules (controller/src/controller.rs, decode/src). *)
From Verif Require Import Tac SpecQuery QueryProofs DecodeProofs9 PropsDecode.

(** C64: in [k] each port holds a module with some memory or one that fails all reads.  If the modules
    asked for that answer are of supported kinds, the query reports for each its own decoded memory, for
    each other its own error, and nothing else. *)
Theorem C64_vendor : forall St (a : honest St), honest_ok a -> forall (w : world St) m k,
  m < 2 ^ 64 -> reads_as a (w_sp w) (shows k) ->
  all_modules m k (fun mem => supported_kind (kind_of mem) = true) ->
  exists r, snd (vendor_info (honest_sp a) m w) = Ok r /\ reads_out m k vendor_of r.
Proof. exact @vendor_rack. Qed.
Print Assumptions C64_vendor.
(** Missing from the full claim: modules whose memory cannot be decoded crash the call for all
    modules ([C64_crash_refuted]), and for [C64_datapath_partial] the state of a lane is that of its
    neighbour and the supported lanes are read from the wrong byte (C49). *)
Theorem C64_memory_partial : forall St (a : honest St), honest_ok a -> forall (w : world St) m k,
  m < 2 ^ 64 -> reads_as a (w_sp w) (shows k) ->
  all_modules m k (fun mem => supported_kind (kind_of mem) = true) ->
  all_modules m k (fun mem => ~ reserved_banks (kind_of mem) mem) ->
  exists r, snd (memory_model (honest_sp a) m w) = Ok r /\ reads_out m k memory_model_of r.
Proof. exact @memory_rack. Qed.
Print Assumptions C64_memory_partial.
Theorem C64_monitors_partial : forall St (a : honest St), honest_ok a -> forall (w : world St) m k,
  m < 2 ^ 64 -> reads_as a (w_sp w) (shows k) ->
  all_modules m k (fun mem => supported_kind (kind_of mem) = true) -> bytes_rack k ->
  all_modules m k (fun mem => cmis_kind (kind_of mem) = true -> bias_scale (mem (cmis_up 1) 160) <> None) ->
  exists r, snd (monitors (honest_sp a) m w) = Ok r /\ reads_out m k monitors_of r.
Proof. exact @monitors_rack. Qed.
Print Assumptions C64_monitors_partial.
Theorem C64_datapath_partial : forall St (a : honest St), honest_ok a -> forall (w : world St) m k,
  m < 2 ^ 64 -> reads_as a (w_sp w) (shows k) ->
  all_modules m k (fun mem => supported_kind (kind_of mem) = true) -> bytes_rack k ->
  all_modules m k datapath_sound ->
  exists r, snd (datapath (honest_sp a) m w) = Ok r /\ reads_out m k datapath_of r.
Proof. exact @datapath_rack. Qed.
Print Assumptions C64_datapath_partial.

(** Port 0: a Qsfp28 module; port 1: a module that does not answer; port 2: a QsfpDD module with one
    application on two lanes; port 3: one with a reserved bank code, bias scale and media type. *)
Definition dd (l : list (Page * N * N)) : memory := mem_with ((sff_low, 0, 0x18) :: l).
Definition ex_rack : rack := fun i =>
  match i with
  | 0 => inl (mem_with [(sff_low, 0, 0x11); (sff_up 0, 148, 79); (sff_up 0, 220, 4)])
  | 1 => inr 8
  | 2 => inl (dd [(cmis_low, 85, 1); (cmis_low, 86, 5); (cmis_low, 87, 3); (cmis_low, 88, 0x21); (cmis_low, 90, 0xff);
                  (p11, 206, 0x10); (p11, 207, 0x10); (p11, 128, 0x24); (cmis_up 1, 142, 0x25); (cmis_up 1, 159, 1)])
  | _ => inl (dd [(cmis_up 1, 142, 3); (cmis_up 1, 160, 0x18)])
  end.
Lemma ex_rack_bytes : bytes_rack ex_rack.
Proof. intros i. unfold ex_rack. destruct i as [|[[]|[]|]]; try apply mem_with_bytes; reflexivity. Qed.
(** A module with undecodable memory at port 3 takes away the data of the module at port 0. *)
Theorem C64_crash_refuted : exists k, bytes_rack k /\
  snd (memory_model (honest_sp (rack_sp k)) 9 (mkWorld tt 0 [])) = Panic /\
  snd (monitors (honest_sp (rack_sp k)) 9 (mkWorld tt 0 [])) = Panic /\
  snd (datapath (honest_sp (rack_sp k)) 9 (mkWorld tt 0 [])) = Panic.
Proof. exists ex_rack. split; [apply ex_rack_bytes|]. repeat split; vm_compute; reflexivity. Qed.
Print Assumptions C64_crash_refuted.
Example C64_witness :
  honest_ok (rack_sp ex_rack) /\ reads_as (rack_sp ex_rack) tt (shows ex_rack) /\
  all_modules 7 ex_rack (fun mem => supported_kind (kind_of mem) = true) /\
  all_modules 7 ex_rack (fun mem => ~ reserved_banks (kind_of mem) mem) /\
  all_modules 7 ex_rack (fun mem => cmis_kind (kind_of mem) = true -> bias_scale (mem (cmis_up 1) 160) <> None) /\
  (exists x y, snd (memory_model (honest_sp (rack_sp ex_rack)) 7 (mkWorld tt 0 [])) =
     Ok (mkResult 5 [x; y] (mkFailed 2 [TeHardware 1 HwPowerFault None]))) /\
  (exists x y, snd (datapath (honest_sp (rack_sp ex_rack)) 7 (mkWorld tt 0 [])) =
     Ok (mkResult 5 [x; y] (mkFailed 2 [TeHardware 1 HwPowerFault None]))).
Proof.
  split; [apply rack_sp_ok, ex_rack_bytes|]. split; [apply rack_sp_reads|].
  assert (H : forall C : memory -> Prop, (forall mem, ex_rack 0 = inl mem -> C mem) -> (forall mem, ex_rack 2 = inl mem -> C mem) ->
    all_modules 7 ex_rack C).
  { intros C H0 H2 i mem Hi E. assert (Hi7 : i < 8).
    { unfold member in Hi. destruct (N.lt_ge_cases i 8) as [|H]; [assumption|exfalso].
      rewrite N.div_small in Hi; [discriminate|]. apply N.lt_le_trans with (2 ^ 8); [reflexivity|]. now apply N.pow_le_mono_r. }
    assert (K : i = 0 \/ i = 1 \/ i = 2 \/ 3 <= i) by lia. destruct K as [->|[->|[->|K]]]; auto; [discriminate|].
    exfalso. assert (L : i = 3 \/ i = 4 \/ i = 5 \/ i = 6 \/ i = 7) by lia.
    destruct L as [->|[->|[->|[->| ->]]]]; vm_compute in Hi; discriminate. }
  split; [apply H; intros mem [= <-]; reflexivity|].
  split; [apply H; intros mem [= <-] (H1 & H2 & H3); vm_compute in H1, H3; discriminate|].
  split; [apply H; intros mem [= <-] _; vm_compute; discriminate|].
  split; eexists _, _; vm_compute; reflexivity.
Qed.
