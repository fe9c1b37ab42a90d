(** Property C66: the monitors printed by controller/src/bin/xcvradm.rs. *)
From Coq Require Import SpecFloat String.
From Verif Require Import Tac SpecMonitor MonitorProofs2 TableProofs3 QueryProofs DecodeProofs9 PropsDecode PropsQuery.
Import ListNotations.
Open Scope N_scope.

(** C66: from the modules' memories to the screen.  [readout_of] says, for each module whose memory was
    read, what is shown: optical powers exactly and bias currents (off by at most one in the last digit
    with scale 4) to four decimals, for every lane, in the standard's units; a monitor the module does not
    have is shown as absent.  The full claim also has "with no error for any scale", "never panics" and
    "average powers only, under the heading average-rx-power": those fail ([C66_bias_refuted],
    [C64_crash_refuted], [C66_average_refuted]).  [show] stands for Rust's text of an [f32], which is
    applied to the decoded temperatures, voltages and TEC currents (C43). *)
Theorem C66_monitors_partial : forall (show : f32 -> text) St (a : honest St), honest_ok a -> forall (w : world St) m k,
  m < 2 ^ 64 -> reads_as a (w_sp w) (SpecQuery.shows k) ->
  all_modules m k (fun mem => supported_kind (kind_of mem) = true) -> bytes_rack k ->
  all_modules m k (fun mem => cmis_kind (kind_of mem) = true -> bias_scale (mem (cmis_up 1) 160) <> None) ->
  exists r items out, snd (monitors (honest_sp a) m w) = Ok r /\ rack_rows m k (readout_of show) items /\
    (forall k, print_monitors show r k = Ok (out k)) /\
    (forall h, exists bs, out (OutDefault h) = spaced bs /\ Forall2 block_of items bs) /\
    fields_split monitor_field_name readout_value items (fun h fs sep => out (OutParseable h fs sep)) /\
    ((forall x, plain (show x)) ->
      (forall i o f, In (i, o) items -> plain (readout_value i o f)) /\
      (forall h, whole_lines (out (OutDefault h))) /\
      (forall h fs sep, ~ In 10 sep -> whole_lines (out (OutParseable h fs sep)))).
Proof. exact monitors_print. Qed.
Print Assumptions C66_monitors_partial.

(** A CMIS module with scale 4 and a bias current of 64027 * 8 uA = 512.2160 mA on its first lane. *)
Definition bias_rack : rack := fun _ => inl (mem_with
  [(sff_low, 0, 0x18); (cmis_up 1, 160, 0x11); (p11, 170, 0xfa); (p11, 171, 0x1b)]).
Theorem C66_bias_refuted : exists k r, bytes_rack k /\
  snd (monitors (honest_sp (rack_sp k)) 1 (mkWorld tt 0 [])) = Ok r /\
  20 * 4 * 64027 = 5122160 /\
  print_monitors (fun _ => []) r (OutParseable false [FMonTxBias] [58]) =
    Ok [T "512.2159,0.0000,0.0000,0.0000,0.0000,0.0000,0.0000,0.0000"].
Proof.
  exists bias_rack. eexists. split; [intros i; apply mem_with_bytes; reflexivity|]. split; [vm_compute; reflexivity|].
  split; [reflexivity|]. vm_compute. reflexivity.
Qed.
Print Assumptions C66_bias_refuted.
(** An SFF-8636 module with peak-to-peak receiver power. *)
Definition peak_rack : rack := fun _ => inl (mem_with [(sff_low, 0, 0x11); (sff_low, 1, 8); (sff_low, 34, 0x30); (sff_low, 35, 0x39)]).
Theorem C66_average_refuted : exists k r, bytes_rack k /\
  snd (monitors (honest_sp (rack_sp k)) 1 (mkWorld tt 0 [])) = Ok r /\
  (exists mem, k 0 = inl mem /\ N.testbit (mem (sff_up 0) 220) 3 = false) /\
  print_monitors (fun _ => []) r (OutParseable true [FMonAverageRxPower] [58]) =
    Ok [T "average-rx-power"; T "1.2345,0.0000,0.0000,0.0000"].
Proof.
  exists peak_rack. eexists. split; [intros i; apply mem_with_bytes; reflexivity|]. split; [vm_compute; reflexivity|].
  split; [eexists; split; reflexivity|]. vm_compute. reflexivity.
Qed.
Print Assumptions C66_average_refuted.

(** Two modules, SFF-8636 and CMIS, with temperature 25 C (shown as "25" by an assumed [show]). *)
Definition monitor_rack : rack := fun i =>
  if i =? 0 then inl (mem_with [(sff_low, 0, 0x11); (sff_low, 1, 8); (sff_up 0, 220, 0x2c); (sff_low, 22, 25);
    (sff_low, 34, 0x30); (sff_low, 35, 0x39); (sff_low, 42, 0x0f); (sff_low, 43, 0xa0); (sff_low, 50, 1)])
  else inl (mem_with [(sff_low, 0, 0x18); (cmis_up 1, 159, 5); (cmis_up 1, 160, 0x0a); (cmis_low, 14, 25); (cmis_low, 18, 0xab); (p11, 154, 1)]).
Example C66_witness : bytes_rack monitor_rack /\
  all_modules 3 monitor_rack (fun mem => cmis_kind (kind_of mem) = true -> bias_scale (mem (cmis_up 1) 160) <> None) /\
  exists r, snd (monitors (honest_sp (rack_sp monitor_rack)) 3 (mkWorld tt 0 [])) = Ok r /\
  print_monitors (fun _ => T "25") r (OutDefault true) = Ok
   [T "Port 0"; T "         Temperature (C): 25"; T "      Supply voltage (V): --";
    T "       Avg Rx power (mW): [1.2345,0.0000,0.0000,0.0000]"; T "            Tx bias (mA): [8.0000,0.0000,0.0000,0.0000]";
    T "           Tx power (mW): [0.0256,0.0000,0.0000,0.0000]"; T "                   Aux 1: --"; T "                   Aux 2: --"; T "                   Aux 3: --";
    [];
    T "Port 1"; T "         Temperature (C): 25"; T "      Supply voltage (V): --"; T "           Rx power (mW): --"; T "            Tx bias (mA): --";
    T "           Tx power (mW): [0.0256,0.0000,0.0000,0.0000,0.0000,0.0000,0.0000,0.0000]"; T "           Aux 1, Custom: [0xab,0x00]";
    T "                   Aux 2: --"; T "                   Aux 3: --"].
Proof.
  split; [intros i; unfold monitor_rack; destruct (i =? 0); apply mem_with_bytes; reflexivity|].
  split.
  - intros i mem _. unfold monitor_rack. destruct (i =? 0); intros [= <-]; vm_compute; intros; discriminate.
  - eexists. split; [vm_compute; reflexivity|vm_compute; reflexivity].
Qed.
