(** Theorems for C102: what the tool shows of memory can be written back with it. *)
From Coq Require Import String Lia.
From Verif Require Import Tac SpecRestore SpecPins ModuleIdProofs ModuleIdProps LiveProofs LiveProofs2 LiveProofs3 RestoreProofs RestoreProofs2.
Import ListNotations.
Open Scope N_scope.

(** C102: what [xcvradm read ... --parseable --output data --omit-header] shows of a module's window, passed through [tr , ' ']
    to [xcvradm write ...] for the same window, leaves each module written to with the window that was read, and otherwise as it was,
    when both runs end well and have no line on standard error about the modules. *)
Theorem C102_restore : forall St (a : honest St) view, honest_ok a -> drives a view ->
  forall show_f32 show g (w w1 w' : world St) m scr i page binary offset len sep,
  ar_cmd g = CRead page binary offset len (data_only sep) -> ar_ignore_errors g = false -> addressing (honest_sp a) g w w1 m -> m < 2 ^ 64 ->
  (forall j, member j m <-> j = i) -> (forall j, byte_memory (sl_cell (view (w_sp w) j))) -> offset < 256 -> 1 <= len < 256 ->
  main (honest_sp a) show_f32 show g w = (w', Ok scr) -> ~ error_line show i scr ->
  exists p t, args_page page = Ok p /\ sc_out scr = [Line t] /\
  forall h (v v1 v' : world St) n scr' j input, ar_cmd h = CWrite page input offset -> typed binary (spaced t) input ->
    ar_ignore_errors h = false -> addressing (honest_sp a) h v v1 n -> n < 2 ^ 64 ->
    main (honest_sp a) show_f32 show h v = (v', Ok scr') -> member j n -> ~ error_line show j scr' ->
    restored p offset len (view (w_sp w) i) (view (w_sp v) j) (view (w_sp v') j).
Proof. exact @restore. Qed.
Print Assumptions C102_restore.
(** C102: the text, whatever its length, shows the window. *)
Theorem C102_saved : forall St (a : honest St) view, honest_ok a -> drives a view ->
  forall show_f32 show g (w w1 w' : world St) m scr i page binary offset len sep,
  ar_cmd g = CRead page binary offset len (data_only sep) -> ar_ignore_errors g = false -> addressing (honest_sp a) g w w1 m -> m < 2 ^ 64 ->
  (forall j, member j m <-> j = i) -> (forall j, byte_memory (sl_cell (view (w_sp w) j))) -> offset < 256 -> 1 <= len < 256 ->
  main (honest_sp a) show_f32 show g w = (w', Ok scr) -> ~ error_line show i scr ->
  exists p, args_page page = Ok p /\ sc_out scr = [Line (data_shown binary (area (sl_cell (view (w_sp w) i)) p offset (N.to_nat len)))].
Proof. exact @saved. Qed.
Print Assumptions C102_saved.
(** C102: a window longer than one write may be, four bytes for SFF-8636 and eight for CMIS, is never written: the tool ends with an error,
    having done no more than to find the modules. *)
Theorem C102_too_long : forall St (sp : St -> Rpc -> St * reply) show_f32 show h (v v1 : world St) n page input offset binary mem p len,
  ar_cmd h = CWrite page input offset -> addressing sp h v v1 n -> args_page page = Ok p -> byte_memory mem ->
  typed binary (spaced (data_shown binary (area mem p offset (N.to_nat len)))) input -> write_limit p < len < 256 ->
  exists e, main sp show_f32 show h v = (v1, Err e).
Proof. exact @too_long. Qed.
Print Assumptions C102_too_long.
(** C102: a text that shows at most 102 bytes, or 46 in binary, loads as those bytes; *)
Theorem C102_text : forall cap chunk binary d k, (512 <= cap)%nat -> Forall (fun b => b < 256) d -> d <> [] -> Nlen d <= can_pass binary ->
  k = None \/ k = Some (kind_shown binary) -> load_write_data cap chunk None k (spaced (data_shown binary d)) = Ok d.
Proof. exact passed. Qed.
Print Assumptions C102_text.
(** a longer one in hexadecimal is refused; *)
Theorem C102_hex_long : forall chunk d k, Forall (fun b => b < 256) d -> (102 < List.length d)%nat ->
  k = None \/ k = Some Hex -> load_write_data 512 chunk None k (spaced (data_shown false d)) = Err tt.
Proof. exact cut_hex. Qed.
Print Assumptions C102_hex_long.
(** a longer one in binary loads, without an error, as its first 46 bytes and half of the next. *)
Theorem C102_binary_long : forall chunk d1 b d2 k, Forall (fun b => b < 256) d1 -> b < 256 -> Forall (fun b => b < 256) d2 ->
  List.length d1 = 46%nat -> k = None \/ k = Some BinaryString ->
  load_write_data 512 chunk None k (spaced (data_shown true (d1 ++ b :: d2))) = Ok (d1 ++ [b / 16]).
Proof. exact cut_binary. Qed.
Print Assumptions C102_binary_long.
(** C102: without [tr], one byte loads, and two or more never do. *)
Theorem C102_single : forall cap chunk binary b k, (512 <= cap)%nat -> b < 256 -> k = None \/ k = Some (kind_shown binary) ->
  load_write_data cap chunk None k (as_is (data_shown binary [b])) = Ok [b].
Proof. exact single_passed. Qed.
Print Assumptions C102_single.
Theorem C102_commas : forall cap chunk binary d k, (512 <= cap)%nat -> Forall (fun b => b < 256) d -> (2 <= List.length d)%nat ->
  k = None \/ k = Some (kind_shown binary) -> load_write_data cap chunk None k (as_is (data_shown binary d)) = Err tt.
Proof. exact as_is_refused. Qed.
Print Assumptions C102_commas.

(** Two modules of which module 0 has other bytes on its upper page than module 1. *)
Definition ex_keep_slots : slots := fun i => mkSlot 35 LedOff (fun _ o => if o =? 0 then 17 else if i =? 0 then 255 - o mod 8 else 0).
Definition ex_keep_rack := live_rack (fun _ _ _ _ => None) sl_cell.
Definition ex_keep_args (c : Cmd) (m : N) : Args := mkArgs c (Some (TIndex m)) (repeat 0 16) (T "axgbe0") 0 None 11112 None 1000 false.
Definition ex_keep_show (e : TransceiverError) : text := T "failed".
Definition ex_keep_page : PageArgs := mkPageArgs true false (Some (3, None)).
Definition ex_keep_input (t : text) : Input := mkInput 512 512 None None t.
Definition ex_keep_run c m (w : world slots) := main (honest_sp ex_keep_rack) (fun _ => []) ex_keep_show (ex_keep_args c m) w.
Definition ex_keep_w : world slots := mkWorld ex_keep_slots 7 [].

(** [xcvradm -t 0 read-upper ...] gives three bytes, which are then written to module 1. *)
Example C102_witness :
  let save := CRead ex_keep_page false 130 3 (data_only None) in let input := ex_keep_input (spaced (T "0xfd,0xfc,0xfb")) in
  let load := CWrite ex_keep_page input 130 in
  honest_ok ex_keep_rack /\ drives ex_keep_rack seen /\ (forall j, byte_memory (sl_cell (seen ex_keep_slots j))) /\
  (forall j, member j 1 <-> j = 0) /\ addressing (honest_sp ex_keep_rack) (ex_keep_args save 1) ex_keep_w ex_keep_w 1 /\
  snd (ex_keep_run save 1 ex_keep_w) = Ok (mkScreen [Line (T "0xfd,0xfc,0xfb")] []) /\
  typed false (spaced (T "0xfd,0xfc,0xfb")) input /\ in_stdin input = T "0xfd 0xfc 0xfb" ++ [10] /\
  snd (ex_keep_run load 2 ex_keep_w) = Ok (mkScreen [] []) /\
  map (sl_cell (seen (w_sp (fst (ex_keep_run load 2 ex_keep_w))) 1) (PageSff (SffUpper 3))) [129; 130; 131; 132; 133] = [0; 253; 252; 251; 0].
Proof.
  cbv zeta. split; [apply rack_ok|]. split; [apply rack_drives|]. split; [intros j p k; unfold seen; cbn [sl_cell]; apply N.mod_lt; discriminate|].
  split; [intros j; rewrite member_testbit; destruct j as [|j]; [split; reflexivity|]; split; [destruct j; discriminate|discriminate]|].
  split; [reflexivity|]. split; [vm_compute; reflexivity|].
  split; [split; [cbn; lia|]; split; [reflexivity|]; split; [now left|reflexivity]|]. split; [reflexivity|]. split; vm_compute; reflexivity.
Qed.
(** Five bytes of module 0 are shown, and not written back. *)
Example C102_long_witness :
  let save := CRead ex_keep_page true 130 5 (data_only None) in let t := data_shown true [253; 252; 251; 250; 249] in
  let load := CWrite ex_keep_page (ex_keep_input (spaced t)) 130 in
  snd (ex_keep_run save 1 ex_keep_w) = Ok (mkScreen [Line t] []) /\ typed true (spaced t) (ex_keep_input (spaced t)) /\
  [253; 252; 251; 250; 249] = area (sl_cell (seen ex_keep_slots 0)) (PageSff (SffUpper 3)) 130 5 /\ write_limit (PageSff (SffUpper 3)) = 4 /\
  snd (ex_keep_run load 1 ex_keep_w) = Err (Some (ETransceiver (TeMgmt (InvalidOperationSize 5 Sff8636)))).
Proof.
  cbv zeta. split; [vm_compute; reflexivity|]. split; [split; [cbn; lia|]; split; [reflexivity|]; split; [now left|reflexivity]|].
  split; [vm_compute; reflexivity|]. split; [reflexivity|vm_compute; reflexivity].
Qed.
