(** Theorems for C103: what one run of the tool sets, a later one shows. *)
From Coq Require Import String Lia.
From Verif Require Import Tac SpecFollow SpecPins SpecXcvradm SpecOnce ProgProofs OnceProofs4 XcvradmProofs LiveProofs LiveProofs2 LiveProofs3 PinsProofs3 FollowProofs.
Import ListNotations.
Open Scope N_scope.

(** C103, full claim: what a run with [set-power], [set-leds] or a write set in a module, a run with [power], [leds] or a read of the written bytes
    or some of them shows of it, in one row, if neither has a line on standard error about the module and the module is left alone between
    the runs.  For power up or to low power mode this is for a single module, or for modules of one kind that are all on or all
    off; for others it is false, see [C103_power_refuted]. *)
Theorem C103_shown_partial : forall St (a : honest St) view, honest_ok a -> drives a view -> forall show_f32 show
    g h (w w1 w' v v1 v' : world St) m n scr scr' i,
  ar_ignore_errors g = false -> addressing (honest_sp a) g w w1 m -> m < 2 ^ 64 -> main (honest_sp a) show_f32 show g w = (w', Ok scr) ->
  member i m -> ~ error_line show i scr -> (powers_up (ar_cmd g) = true -> (forall j, member j m -> j = i) \/ same_case a view (w_sp w) m) ->
  view (w_sp v) i = view (w_sp w') i -> (forall j, byte_memory (sl_cell (view (w_sp v) j))) ->
  (forall page binary offset len args, ar_cmd h = CRead page binary offset len args -> offset < 256 /\ len < 256) ->
  ar_ignore_errors h = false -> addressing (honest_sp a) h v v1 n -> n < 2 ^ 64 -> main (honest_sp a) show_f32 show h v = (v', Ok scr') ->
  member i n -> ~ error_line show i scr' -> plain_table (ar_cmd h) -> then_shown (ar_cmd g) (ar_cmd h) i scr'.
Proof. exact @follow. Qed.
Print Assumptions C103_shown_partial.
(** C103 over a network that loses and repeats datagrams but keeps their order, to an SP that remembers the last one (C96); between the runs
    the modules are left alone and datagrams still under way are dropped. *)
Theorem C103_network_partial : forall St (a : honest St) view, honest_ok a -> drives a view -> forall show_f32 show
    retries s0 c0 retries' c0' g h p p' ts ts' w1 m v1 n i, data_blind a -> c0 < 2 ^ 64 -> c0' < 2 ^ 64 ->
  let sp := remembering (honest_sp a) in let t0 := sys_new retries (new_keeper s0) c0 [p] in let t1 := sys_run sp t0 ts in
  let s1 := kp_now (nt_sp (sy_net t1)) in let t0' := sys_new retries' (new_keeper s1) c0' [p'] in let t1' := sys_run sp t0' ts' in
  ~ for_status (ar_cmd g) -> ~ for_status (ar_cmd h) -> steps_of (xcvradm show_f32 show g) p -> steps_of (xcvradm show_f32 show h) p' ->
  orderly sp t0 ts -> orderly sp t0' ts' -> addressing (honest_sp a) g (mkWorld s0 c0 []) w1 m -> addressing (honest_sp a) h (mkWorld s1 c0' []) v1 n ->
  forall xs scr xs' scr', sy_calls t1 = [Going xs (Ret (Ok (Some scr)))] -> sy_calls t1' = [Going xs' (Ret (Ok (Some scr')))] ->
  ar_ignore_errors g = false -> ar_ignore_errors h = false -> m < 2 ^ 64 -> n < 2 ^ 64 ->
  member i m -> ~ error_line show i scr -> (powers_up (ar_cmd g) = true -> (forall j, member j m -> j = i) \/ same_case a view s0 m) ->
  (forall j, byte_memory (sl_cell (view s1 j))) ->
  (forall page binary offset len args, ar_cmd h = CRead page binary offset len args -> offset < 256 /\ len < 256) ->
  member i n -> ~ error_line show i scr' -> plain_table (ar_cmd h) -> then_shown (ar_cmd g) (ar_cmd h) i scr'.
Proof. exact @follow_net. Qed.
Print Assumptions C103_network_partial.

(** Modules 0 and 1 with power, module 2 without. *)
Definition ex_next_slots : slots := fun i => mkSlot (if i =? 2 then 1 else 35) LedOff (fun _ o => if o =? 0 then 17 else 0).
Definition ex_next_rack := live_rack (fun _ _ _ _ => None) sl_cell.
Definition ex_next_args (c : Cmd) (m : N) : Args := mkArgs c (Some (TIndex m)) (repeat 0 16) (T "axgbe0") 0 None 11112 None 1000 false.
Definition ex_next_show (e : TransceiverError) : text := T "failed".
Definition ex_next_run c m (w : world slots) := main (honest_sp ex_next_rack) (fun _ => []) ex_next_show (ex_next_args c m) w.
Definition ex_next_w : world slots := mkWorld ex_next_slots 7 [].
Definition ex_next_page : PageArgs := mkPageArgs true false None.
Definition ex_next_screen set m get n : outcome (option Error) screen := snd (ex_next_run get n (fst (ex_next_run set m ex_next_w))).

(** LEDs set to blink, power set to low, two bytes written: what is shown then. *)
Example C103_witness :
  honest_ok ex_next_rack /\ drives ex_next_rack seen /\
  snd (ex_next_run (CSetLeds LedBlink) 3 ex_next_w) = Ok (mkScreen [] []) /\
  ex_next_screen (CSetLeds LedBlink) 3 (CLeds (mkParsable false [] None false)) 7 =
    Ok (mkScreen (lines [T "Port LED"; T "   0 Blink"; T "   1 Blink"; T "   2 Off"]) []) /\
  snd (ex_next_run (CSetPower PowerLow) 4 ex_next_w) = Ok (mkScreen [] []) /\
  ex_next_screen (CSetPower PowerLow) 4 (CPower (mkParsable false [] None true)) 5 =
    Ok (mkScreen (lines [T "   0  High   No"; T "   2  Low    No"]) []) /\
  snd (ex_next_run (CWrite ex_next_page (mkInput 512 512 None None (T "0x0a 0xff")) 100) 2 ex_next_w) = Ok (mkScreen [] []) /\
  ex_next_screen (CWrite ex_next_page (mkInput 512 512 None None (T "0x0a 0xff")) 100) 2 (CRead ex_next_page false 101 1 (mkParsable false [] None true)) 3 =
    Ok (mkScreen (lines [T "   0 [0x00]"; T "   1 [0xff]"]) []).
Proof. split; [apply rack_ok|]. split; [apply rack_drives|]. repeat split; vm_compute; reflexivity. Qed.
(** [set-leds blink] over a network, its request being sent and served twice, and then [leds]. *)
Definition ex_next_set := ex_next_args (CSetLeds LedBlink) 1.
Definition ex_next_get := ex_next_args (CLeds (mkParsable false [] None true)) 3.
Definition ex_next_ended {A} (c : call A) : option (outcome Error A) := match c with Going _ (Ret x) => Some x | _ => None end.
Example C103_path : let sp := remembering (honest_sp ex_next_rack) in
  let p := proj1_sig (run_of (fun _ => []) ex_next_show ex_next_set) in let p' := proj1_sig (run_of (fun _ => []) ex_next_show ex_next_get) in
  let ts := [TCall 0; TAccept 0 true; TNet (MTick true); TNet (MServe 0); TNet (MServe 1); TNet (MDeliver 0)] in
  let ts' := [TCall 0; TAccept 0 true; TNet (MServe 0); TNet (MDeliver 0)] in
  let t1 := sys_run sp (sys_new None (new_keeper ex_next_slots) 7 [p]) ts in
  let t1' := sys_run sp (sys_new None (new_keeper (kp_now (nt_sp (sy_net t1)))) 9 [p']) ts' in
  steps_of (xcvradm (fun _ => []) ex_next_show ex_next_set) p /\ steps_of (xcvradm (fun _ => []) ex_next_show ex_next_get) p' /\
  orderly sp (sys_new None (new_keeper ex_next_slots) 7 [p]) ts /\
  map ex_next_ended (sy_calls t1) = [Some (Ok (Some (mkScreen [] [])))] /\
  map ex_next_ended (sy_calls t1') = [Some (Ok (Some (mkScreen (lines [T "   0 Blink"; T "   1 Off"]) [])))].
Proof.
  cbv zeta. split; [exact (proj1 (proj2_sig (run_of (fun _ => []) ex_next_show ex_next_set)))|].
  split; [exact (proj1 (proj2_sig (run_of (fun _ => []) ex_next_show ex_next_get)))|]. split; [|split; vm_compute; reflexivity].
  split; [reflexivity|]. split; [discriminate|]. split; [repeat constructor; discriminate|]. apply sorted_in_turn. cbn. repeat constructor.
Qed.
(** Missing: [xcvradm -t 0,2 set-power low] ends well and prints nothing, and [xcvradm -t 0,2 power] then shows module 0 in high power. *)
Theorem C103_power_refuted : exists (a : honest slots) g h w w1 w' v1 v' m scr scr', honest_ok a /\ drives a seen /\
  addressing (honest_sp a) g w w1 m /\ main (honest_sp a) (fun _ => []) ex_next_show g w = (w', Ok scr) /\ scr = mkScreen [] [] /\ member 0 m /\
  addressing (honest_sp a) h w' v1 m /\ main (honest_sp a) (fun _ => []) ex_next_show h w' = (v', Ok scr') /\ plain_table (ar_cmd h) /\
  ar_cmd g = CSetPower PowerLow /\ scr' = mkScreen (lines [T "   0  High   No"; T "   2  Low    No"]) [].
Proof.
  pose (set := CSetPower PowerLow). pose (get := CPower (mkParsable false [] None true)). pose (w' := fst (ex_next_run set 5 ex_next_w)).
  exists ex_next_rack, (ex_next_args set 5), (ex_next_args get 5), ex_next_w, ex_next_w, w', w', (fst (ex_next_run get 5 w')), 5, (mkScreen [] []),
    (mkScreen (lines [T "   0  High   No"; T "   2  Low    No"]) []).
  split; [apply rack_ok|]. split; [apply rack_drives|]. split; [reflexivity|].
  split; [rewrite (surjective_pairing (main _ _ _ _ _)); apply f_equal2; [reflexivity|vm_compute; reflexivity]|].
  split; [reflexivity|]. split; [reflexivity|]. split; [reflexivity|].
  split; [rewrite (surjective_pairing (main _ _ _ _ _)); apply f_equal2; [reflexivity|vm_compute; reflexivity]|].
  split; [reflexivity|]. split; reflexivity.
Qed.
Print Assumptions C103_power_refuted.
