(** Property C38, exactly: what [set_power] does and reports for any mixture of modules of one kind
    (controller/src/controller.rs, [set_power] to low or high power). *)
From Verif Require Import Tac SpecExact ControllerProofs9 ExactProofs ExactProofs2.

(** The requests sent after the first query ([ds] only looks), the modules reported as done and the
    failed modules, whatever the SP's verdicts and the modules' states are.  High power is refused if a
    module is off (C37), hence the last hypothesis. *)
Theorem C38_exact : forall St (a : honest St) (v : HostRequest -> option (list N) -> N -> verdict)
    (mem : N -> MemoryRead -> verdict) (w : world St) m k st,
  honest_ok a -> steady a v -> (forall m rd i, v (HRead m rd) None i = mem i rd) ->
  st <> PowerOff -> m < 2 ^ 64 -> supported_kind k = true -> all_kind k m mem ->
  (st = PowerHigh -> forall i x, member i m -> mode_at v mem m i = inl x -> pm_state x <> PowerOff) ->
  exists r ds, snd (set_power (honest_sp a) m st w) = Ok r /\ mr_modules r = reported v mem k st m /\
    one_each (mr_modules r) (mr_data r) /\ wf_failed (mr_failures r) /\
    (forall i, failed r i <-> broke v mem k st m i) /\ Forall only_looks ds /\
    deeds (set_power (honest_sp a) m st) w =
      DRequest (HStatus m) None :: ds ++ power_deeds v mem st m ++ software_requests v mem k st m.
Proof. intros St a v mem w m k st Ho Hs Hm. exact (set_power_exact a Ho v Hs mem Hm w m k st). Qed.
Print Assumptions C38_exact.

(** Hence exactly which modules are reported as done and as failed at once, which are not reported at
    all, and a condition under which every module is reported exactly once. *)
Theorem C38_reports : forall St (a : honest St) (v : HostRequest -> option (list N) -> N -> verdict)
    (mem : N -> MemoryRead -> verdict) (w : world St) m k st,
  honest_ok a -> steady a v -> (forall m rd i, v (HRead m rd) None i = mem i rd) ->
  st <> PowerOff -> m < 2 ^ 64 -> supported_kind k = true -> all_kind k m mem ->
  (st = PowerHigh -> forall i x, member i m -> mode_at v mem m i = inl x -> pm_state x <> PowerOff) ->
  exists r, snd (set_power (honest_sp a) m st w) = Ok r /\
    (forall i, told_twice r i <-> member i (reported v mem k st m) /\ pin_refused v mem st m i) /\
    (forall i, member i m -> (told_never r i <->
       ~ broke v mem k st m i /\
       ((to_raise v mem m <> 0 /\ ~ member i (to_raise v mem m)) \/ by_software v mem m i = true))) /\
    ((to_raise v mem m = 0 \/ to_raise v mem m = looked_at v mem m) ->
     (forall i, member i m -> by_software v mem m i = false) -> (forall i, ~ pin_refused v mem st m i) ->
     forall i, member i m -> told_once r i).
Proof. intros St a v mem w m k st Ho Hs Hm. exact (power_reports a Ho v Hs mem Hm w m k st). Qed.
Print Assumptions C38_reports.

(** Ports 0 and 1 are on, ports 2-4 off; port 3 refuses power and port 4 the end of its reset; port 5 is on
    and under software control. *)
Definition mix_board : board :=
  mkBoard (fun i => if (i =? 0) || (i =? 1) || (i =? 5) then 35 else 1)
    (mem_of (fun _ => 17) (fun i => if i =? 5 then 1 else 0) (fun _ => 0))
    (fun q i => match q with
                | HEnablePower _ => if i =? 3 then Some 6 else None
                | HDeassertReset _ => if i =? 4 then Some 9 else None
                | _ => None end).
Definition mix_v (q : HostRequest) (_ : option (list N)) (i : N) : verdict := board_verdict mix_board q i.
Definition mix_mem := board_mem mix_board.
(** Of ports 0-5, port 2 is done, 3 is reported both ways, 4 as failed, and 0, 1 and 5 are not reported; of
    ports 0, 1 and 5 alone, 5 is not reported. *)
Example C38_mix_witness :
  honest_ok (board_sp mix_board) /\ steady (board_sp mix_board) mix_v /\
  (forall m rd i, mix_v (HRead m rd) None i = mix_mem i rd) /\ supported_kind Qsfp28 = true /\
  all_kind Qsfp28 63 mix_mem /\
  snd (set_power (honest_sp (board_sp mix_board)) 63 PowerLow w0) =
    Ok (mkResult 12 [tt; tt] (mkFailed 24 [TeHardware 3 HwNotPresent None; TeHardware 4 HwNotInitialized None])) /\
  reported mix_v mix_mem Qsfp28 PowerLow 63 = 12 /\ to_raise mix_v mix_mem 63 = 28 /\
  power_deeds mix_v mix_mem PowerLow 63 =
    [DRequest (HStatus 63) None; DRequest (HAssertReset 28) None; DSleep 10; DRequest (HEnablePower 28) None;
     DRequest (HAssertLpMode 20) None; DRequest (HDeassertReset 28) None; DSleep 2000000;
     DRequest (HRead 12 (mkRead (PageSff SffLower) 0 1)) None] /\
  software_requests mix_v mix_mem Qsfp28 PowerLow 63 =
    [DRequest (HWrite 0 (mkWrite (PageSff SffLower) 93 1)) (Some [3]);
     DRequest (HWrite 12 (mkWrite (PageSff SffLower) 93 1)) (Some [2])] /\
  snd (set_power (honest_sp (board_sp mix_board)) 35 PowerLow w0) = Ok (mkResult 3 [tt; tt] (mkFailed 0 [])).
Proof.
  split; [apply board_ok|]. split; [apply board_steady|]. split; [reflexivity|]. split; [reflexivity|].
  split; [intros i id _; unfold ident_told, told, mix_mem, board_mem, board_verdict; cbn [mix_board b_fail];
          intros [= <-]; reflexivity|].
  repeat (split; [vm_compute; reflexivity|]). vm_compute. reflexivity.
Qed.

(** Several kinds at once, no module under software control: only the modules of the kind with the lowest
    code are written to, all further writes are to no module ([rest]), and no module is reported as done. *)
Theorem C38_kinds : forall St (a : honest St) (v : HostRequest -> option (list N) -> N -> verdict)
    (mem : N -> MemoryRead -> verdict) (w : world St) m st,
  honest_ok a -> steady a v -> (forall m rd i, v (HRead m rd) None i = mem i rd) ->
  st <> PowerOff -> m < 2 ^ 64 ->
  (forall i id, member i m -> ident_told mem i = inl id -> supported_kind id = true) ->
  (forall i, member i m -> by_software v mem m i = false) ->
  (st = PowerHigh -> forall i x, member i m -> mode_at v mem m i = inl x -> pm_state x <> PowerOff) ->
  (exists i j x y, member i (identified v mem st m) /\ member j (identified v mem st m) /\
     ident_told mem i = inl x /\ ident_told mem j = inl y /\ x <> y) ->
  exists r k ds rest, snd (set_power (honest_sp a) m st w) = Ok r /\ mr_modules r = 0 /\ mr_data r = [] /\
    first_kind v mem k st m /\ supported_kind k = true /\ wf_failed (mr_failures r) /\
    (forall i, failed r i <-> broke_kinds v mem k st m i) /\ Forall only_looks ds /\ Forall idle_write rest /\
    deeds (set_power (honest_sp a) m st) w =
      DRequest (HStatus m) None :: ds ++ power_deeds v mem st m ++
      DRequest (HWrite 0 (soft_place k)) (Some [soft_word k true st]) ::
      DRequest (HWrite (of_kind v mem k st m) (soft_place k)) (Some [soft_word k false st]) :: rest.
Proof. intros St a v mem w m st Ho Hs Hm. exact (set_power_kinds a Ho v Hs mem Hm w m st). Qed.
Print Assumptions C38_kinds.

(** Port 0 holds a QsfpDD, port 1 and port 2 a Qsfp28; port 2 refuses the write. *)
Definition zoo_board : board :=
  mkBoard (fun _ => 35) (mem_of (fun i => if i =? 0 then 24 else 17) (fun _ => 0) (fun _ => 64))
    (fun q i => match q with HWrite _ _ => if i =? 2 then Some 8 else None | _ => None end).
Definition zoo_v (q : HostRequest) (_ : option (list N)) (i : N) : verdict := board_verdict zoo_board q i.
Definition zoo_mem := board_mem zoo_board.
Example C38_kinds_witness :
  honest_ok (board_sp zoo_board) /\ steady (board_sp zoo_board) zoo_v /\
  (forall m rd i, zoo_v (HRead m rd) None i = zoo_mem i rd) /\
  (forall i id, member i 7 -> ident_told zoo_mem i = inl id -> supported_kind id = true) /\
  identified zoo_v zoo_mem PowerHigh 7 = 7 /\ of_kind zoo_v zoo_mem Qsfp28 PowerHigh 7 = 6 /\
  ident_told zoo_mem 0 = inl QsfpDD /\ ident_told zoo_mem 1 = inl Qsfp28 /\
  map (by_software zoo_v zoo_mem 7) [0; 1; 2] = [false; false; false] /\
  snd (set_power (honest_sp (board_sp zoo_board)) 7 PowerHigh w0) =
    Ok (mkResult 0 [] (mkFailed 4 [TeHardware 2 HwPowerFault None])) /\
  skipn 5 (deeds (set_power (honest_sp (board_sp zoo_board)) 7 PowerHigh) w0) =
    [DRequest (HDeassertLpMode 7) None; DRequest (HRead 7 (mkRead (PageSff SffLower) 0 1)) None;
     DRequest (HWrite 0 (mkWrite (PageSff SffLower) 93 1)) (Some [1]);
     DRequest (HWrite 6 (mkWrite (PageSff SffLower) 93 1)) (Some [0]);
     DRequest (HWrite 0 (mkWrite (PageSff SffLower) 26 1)) (Some [0]);
     DRequest (HWrite 0 (mkWrite (PageSff SffLower) 26 1)) (Some [64])].
Proof.
  split; [apply board_ok|]. split; [apply board_steady|]. split; [reflexivity|].
  split; [intros i id _; unfold ident_told, told, zoo_mem, board_mem, board_verdict; cbn [zoo_board b_fail b_mem rd_page rd_offset rd_len ident_read];
          unfold mem_of; destruct (i =? 0); intros [= <-]; reflexivity|].
  repeat (split; [vm_compute; reflexivity|]). vm_compute. reflexivity.
Qed.
