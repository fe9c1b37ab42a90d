(** Property C67: the datapaths printed by controller/src/bin/xcvradm.rs. *)
From Coq Require Import String.
From Verif Require Import Tac SpecPath PathProofs QueryProofs DecodeProofs9 PropsDecode PropsQuery.
Import ListNotations.
Open Scope N_scope.

(** C67: from the modules' memories to the screen.  For each module whose memory was read, in order of
    ports, a block ([path_block]) that names the connector and shows for each lane in use, under its number, what the
    memory says about it: SFF-8636 modules all four lanes, CMIS modules the lanes of each application in use.  The
    full claim has [standard_nibble] for the lane's state, byte 210 for the lanes that are not supported, and no
    condition [datapath_sound]: those fail ([C67_state_refuted], [C67_lanes_refuted], C64). *)
Theorem C67_datapath_partial : forall St (a : honest St), honest_ok a -> forall (w : world St) m k,
  m < 2 ^ 64 -> reads_as a (w_sp w) (SpecQuery.shows k) ->
  all_modules m k (fun mem => supported_kind (kind_of mem) = true) -> bytes_rack k -> all_modules m k datapath_sound ->
  exists r blocks, snd (datapath (honest_sp a) m w) = Ok r /\ print_datapath r = apart (map snd blocks) /\
    rack_rows m k (fun _ _ => True) blocks /\
    (forall i b, In (i, b) blocks -> exists mem, k i = inl mem /\ path_block other_nibble (fun mem => mem (cmis_up 0) 209) mem i b) /\
    (forall t, In t (flat_map texts_of (print_datapath r)) -> ~ In 10 t).
Proof. exact datapath_print. Qed.
Print Assumptions C67_datapath_partial.

(** An SFF-8636 module, a module that cannot be read, and a CMIS module with one application on its first two lanes:
    states Activated and Initializing, and by byte 210 no lanes above the fourth. *)
Definition path_rack : rack := fun i =>
  match i with
  | 0 => inl (mem_with [(sff_low, 0, 0x11); (sff_up 0, 130, 7); (sff_up 0, 131, 4); (sff_low, 86, 2); (sff_low, 3, 0x14); (sff_low, 98, 0xf1)])
  | 1 => inr 8
  | _ => inl (dd [(cmis_low, 85, 1); (cmis_low, 86, 5); (cmis_low, 87, 3); (cmis_low, 88, 0x21); (cmis_low, 90, 0xff);
                  (p11, 206, 0x10); (p11, 207, 0x10); (p11, 128, 0x24); (cmis_up 0, 203, 7); (cmis_up 0, 210, 0xf0);
                  (cmis_up 1, 155, 2); (p10, 130, 1); (cmis_up 1, 158, 2); (p11, 147, 2)])
  end.
Lemma path_rack_bytes : bytes_rack path_rack.
Proof. intros i. unfold path_rack. destruct i as [|[[]|[]|]]; try apply mem_with_bytes; reflexivity. Qed.
Lemma path_rack_sound m : all_modules m path_rack datapath_sound.
Proof.
  intros i mem _ E. unfold path_rack in E.
  assert (K : i = 0 \/ i = 1 \/ path_rack i = path_rack 2) by (destruct i as [|[[]|[]|]]; auto).
  destruct K as [->|[->|K]]; [injection E as <-; now left|discriminate|]. fold (path_rack i) in E. rewrite K in E. injection E as <-. right.
  set (mem := dd _).
  assert (U : forall k, in_use mem k -> k = 0 \/ k = 1).
  { intros k [Hk Ha]. assert (L : k = 0 \/ k = 1 \/ k = 2 \/ k = 3 \/ k = 4 \/ k = 5 \/ k = 6 \/ k = 7) by lia.
    destruct L as [->|[->|[->|[->|[->|[->|[->| ->]]]]]]]; auto; exfalso; apply Ha; reflexivity. }
  split; [unfold known_media; vm_compute; split; discriminate|]. split.
  - intros k Hk Ha. destruct (U k (conj Hk Ha)) as [->| ->]; (split; [vm_compute; split; discriminate|]);
      intros j Hj; assert (j = 1) as -> by (change (app_of mem _) with 1 in Hj; lia); vm_compute; discriminate.
  - intros k Hk. destruct (U k Hk) as [->| ->]; vm_compute; discriminate.
Qed.

(** The first lane's state is Activated, but Initializing is printed. *)
Theorem C67_state_refuted : exists k mem r t rest, bytes_rack k /\ k 2 = inl mem /\
  snd (datapath (honest_sp (rack_sp k)) 4 (mkWorld tt 0 [])) = Ok r /\ In (Table t) (print_datapath r) /\
  state_name (standard_nibble mem 0) = T "Activated" /\ column 0 t = Some ((T "State", T "Initializing") :: rest).
Proof.
  exists path_rack. eexists _, _, _, _. split; [apply path_rack_bytes|]. split; [reflexivity|]. split; [vm_compute; reflexivity|].
  split; [apply nth_error_In with 6%nat; vm_compute; reflexivity|]. split; [vm_compute; reflexivity|]. vm_compute. reflexivity.
Qed.
Print Assumptions C67_state_refuted.
(** Four lanes are not supported, but all are printed as supported. *)
Theorem C67_lanes_refuted : exists k mem r, bytes_rack k /\ k 2 = inl mem /\
  snd (datapath (honest_sp (rack_sp k)) 4 (mkWorld tt 0 [])) = Ok r /\
  In (Line (T "  Supported lanes: [1,2,3,4,5,6,7,8]")) (print_datapath r) /\ cmis_unsupported_lanes mem = 0xf0.
Proof.
  exists path_rack. eexists _, _. split; [apply path_rack_bytes|]. split; [reflexivity|]. split; [vm_compute; reflexivity|].
  split; [apply nth_error_In with 3%nat; vm_compute; reflexivity|]. vm_compute. reflexivity.
Qed.
Print Assumptions C67_lanes_refuted.

Example C67_witness :
  all_modules 7 path_rack (fun mem => supported_kind (kind_of mem) = true) /\ all_modules 7 path_rack datapath_sound /\
  exists r t1 t2, snd (datapath (honest_sp (rack_sp path_rack)) 7 (mkWorld tt 0 [])) = Ok r /\
  print_datapath r =
    [Line (T "Port 0"); Line (T "        Connector: Lucent Connector (LC)"); Line (T "    Specification: 40GBASE-SR4"); Line []; Table t1;
     Line [];
     Line (T "Port 2"); Line (T "        Connector: Lucent Connector (LC)"); Line (T "   Application ID: 1");
     Line (T "  Supported lanes: [1,2,3,4,5,6,7,8]"); Line (T "   Host interface: 25GAUI C2M");
     Line (T "  Media interface: 25GBASE-SR (MMF)"); Table t2; Line []] /\
  nth_error t1 1 = Some [T "Tx enabled"; T "true"; T "false"; T "true"; T "true"] /\
  nth_error t2 0 = Some [[]; T "Lane 1"; T "Lane 2"] /\
  nth_error t2 2 = Some [T "Tx enabled"; T "false"; T "true"].
Proof.
  split.
  { intros i mem _. unfold path_rack. destruct i as [|[[]|[]|]]; intros [= <-]; reflexivity. }
  split; [apply path_rack_sound|]. eexists _, _, _. split; [vm_compute; reflexivity|]. split; [vm_compute; reflexivity|].
  repeat split; vm_compute; reflexivity.
Qed.
