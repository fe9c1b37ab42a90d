(** Properties C59-C61: from a caller through the I/O loop and an unreliable network to the SP and
    back (controller/src/controller.rs, controller/src/ioloop.rs). *)
From Verif Require Import Tac Spec SpecNet NetProofs3 ControllerSim ControllerProofs9.

(** A board with Qsfp28 modules at ports 0 and 2, and a module at port 1 that does not answer reads. *)
Definition ex_sp : unit -> Rpc -> unit * reply :=
  honest_sp (board_sp (mkBoard (fun _ => 35) (mem_of (fun _ => 17) (fun _ => 0) (fun _ => 0))
    (fun q i => match q with HRead _ _ => if i =? 1 then Some 8 else None | _ => None end))).
Definition ex_request (id : N) : Rpc :=
  mkRpc (header_new id KHostRequest) (message_new (BHostRequest (HRead 7 (mkRead (PageSff SffLower) 100 2)))) None.
(** The first datagram is lost, the second arrives twice, both answers arrive, the second while the
    next request is in flight, whose own answer comes last. *)
Definition ex_moves : list (move unit) :=
  [MRequest 5 (ex_request 40) true; MTick true; MServe 1; MServe 1; MNoise 3 [1; 2]; MDeliver 0;
   MRequest 6 (ex_request 41) true; MDeliver 1; MServe 2; MDeliver 2].

(** C59: requests with pairwise distinct ids are handed over (C26), datagrams are lost, delayed,
    repeated and reordered in any way, other datagrams that are no SP responses arrive in between, and
    the SP may change at any time.  Every success reported to caller [tag] is what the SP answered to
    exactly the caller's request, in a state the SP had while the request was in flight and when a
    copy of it reached the SP. *)
Theorem C59_delivery : forall St (sp : St -> Rpc -> St * reply), polite sp ->
  forall retries s0 ms tag resp (n0 := net_new retries s0),
  forallb noise_ok ms = true ->
  Forall (fun r => wf_rpc r = true) (requests (net_log sp n0 ms)) ->
  NoDup (map rpc_id (requests (net_log sp n0 ms))) ->
  In (OReply tag (Ok resp)) (net_log sp n0 ms) ->
  exists pre q mid k post,
    ms = pre ++ (MRequest tag q true :: mid) ++ MServe k :: post /\
    l_out (nt_loop (net_after sp n0 pre)) = None /\
    (exists o, l_out (nt_loop (net_after sp n0 (pre ++ MRequest tag q true :: mid))) = Some o /\
               o_tag o = tag /\ o_request o = q) /\
    nth_error (nt_sent (net_after sp n0 (pre ++ MRequest tag q true :: mid))) k = Some (wire q) /\
    snd (sp (nt_sp (net_after sp n0 (pre ++ MRequest tag q true :: mid))) (as_received q)) = Ok resp.
Proof. exact @net_sound_copy. Qed.
Print Assumptions C59_delivery.
(** And when one copy of the request and its answer get through, the caller has the answer. *)
Theorem C59_progress : forall St (sp : St -> Rpc -> St * reply), polite sp ->
  forall (n : net St) o resp k j,
  l_status (nt_loop n) = Running -> l_out (nt_loop n) = Some o -> o_gone o = false ->
  wf_rpc (o_request o) = true -> nth_error (nt_sent n) k = Some (wire (o_request o)) ->
  snd (sp (nt_sp n) (as_received (o_request o))) = Ok resp ->
  (length (wire resp) <= MAX_PACKET_SIZE)%nat -> j = length (nt_mail n) ->
  net_log sp n [MServe k; MDeliver j] = [OReply (o_tag o) (Ok resp)].
Proof. exact @net_progress. Qed.
Print Assumptions C59_progress.
Example C59_witness : polite ex_sp /\ forallb noise_ok ex_moves = true /\
  forallb wf_rpc (requests (net_log ex_sp (net_new (Some 4) tt) ex_moves)) = true /\
  map rpc_id (requests (net_log ex_sp (net_new (Some 4) tt) ex_moves)) = [40; 41] /\
  filter (fun o => match o with OReply _ _ => true | _ => false end)
         (net_log ex_sp (net_new (Some 4) tt) ex_moves) =
    [OReply 5 (snd (ex_sp tt (ex_request 40))); OReply 6 (snd (ex_sp tt (ex_request 41)))] /\
  (exists n o, n = net_after ex_sp (net_new (Some 4) tt) [MRequest 5 (ex_request 40) true] /\
     l_out (nt_loop n) = Some o /\ nth_error (nt_sent n) 0 = Some (wire (o_request o))).
Proof.
  split; [apply honest_polite, board_ok|]. repeat (split; [vm_compute; reflexivity|]).
  eexists _, (mkOut 5 (ex_request 40) 1 0 false). split; [reflexivity|]. split; vm_compute; reflexivity.
Qed.

(** C60: [sp'] gives each time the answer of [sp], which does not depend on its state, or a failure.
    Then every call over [sp'] fails after some of the steps of the call over [sp], or does exactly
    these steps and returns exactly the same: losses never turn into other results.  [I] is any
    condition on the path that requests keep. *)
Theorem C60_lossy : forall St St' (I : St' -> N -> Prop) (sp' : St' -> Rpc -> St' * reply)
    (sp : St -> Rpc -> St * reply), lossy I sp' sp -> forall m,
  follows I (leds sp' m) (leds sp m) /\ follows I (ctl_status sp' m) (ctl_status sp m) /\
  follows I (extended_status sp' m) (extended_status sp m) /\ follows I (mac_addrs sp') (mac_addrs sp) /\
  follows I (identifier sp' m) (identifier sp m) /\ follows I (reset sp' m) (reset sp m) /\
  follows I (power sp' m) (power sp m) /\
  (forall q, follows I (no_payload_request sp' q) (no_payload_request sp q)) /\
  (forall rd, follows I (ctl_read sp' m rd) (ctl_read sp m rd)) /\
  (forall wr data, follows I (ctl_write sp' m wr data) (ctl_write sp m wr data)) /\
  (forall st, follows I (set_power sp' m st) (set_power sp m st)) /\
  (forall P reads (parse : Identifier -> list (list N) -> outcome DecodeError P),
     follows I (parse_modules_by_identifier sp' reads parse m) (parse_modules_by_identifier sp reads parse m)).
Proof. exact @all_follow. Qed.
Print Assumptions C60_lossy.
(** An SP behind a path that loses the second answer. *)
Definition ex_lossy (s : nat) (r : Rpc) : nat * reply :=
  (S s, if Nat.eqb s 1 then Err (EMaxRetries 4) else snd (ex_sp tt r)).
Example C60_witness : lossy (fun _ _ => True) ex_lossy ex_sp /\
  snd (ctl_read ex_lossy 7 (mkRead (PageSff SffLower) 100 3) (mkWorld 0%nat 0 [])) = Err (EMaxRetries 4) /\
  (exists r, snd (ctl_read ex_lossy 7 (mkRead (PageSff SffLower) 100 3) (mkWorld 5%nat 0 [])) = Ok r /\
             snd (ctl_read ex_sp 7 (mkRead (PageSff SffLower) 100 3) (mkWorld tt 0 [])) = Ok r).
Proof.
  split; [|split; [vm_compute; reflexivity|eexists; split; vm_compute; reflexivity]].
  intros s' [] q d c _. split; [exact I|]. unfold ex_lossy. cbn [snd].
  destruct (Nat.eqb s' 1); [right; intros a; discriminate|left; reflexivity].
Qed.

(** C61: the controller on top of the loop and the network is such a path: whatever the schedules say,
    as long as fewer than 2^64 requests are made. *)
Theorem C61_wired : forall St (sp : St -> Rpc -> St * reply), polite sp -> constant sp -> blind sp ->
  forall retries s0, lossy (in_use sp retries s0) (wired_sp sp) sp.
Proof. exact @wired_lossy. Qed.
Print Assumptions C61_wired.
(** So a read that succeeds over an unreliable network reports, for every module asked for and no
    other, what that module's memory holds or its own error. *)
Theorem C61_read : forall St (a : honest St), honest_ok a -> data_blind a -> forall v, steady a v ->
  forall mem, (forall m rd i, v (HRead m rd) None i = mem i rd) ->
  forall retries s0 (w : world (wired St)) m rd r,
  in_use (honest_sp a) retries s0 (w_sp w) (w_counter w) ->
  m < 2 ^ 64 -> 1 <= rd_len rd <= 255 ->
  snd (ctl_read (wired_sp (honest_sp a)) m rd w) = Ok r ->
  all_speak m (ident_told mem) (rd_page rd) /\
  reports m (and_then (ident_told mem) (told (fun x => x) (fun i => mem i rd))) r.
Proof. exact @wired_read. Qed.
Print Assumptions C61_read.
(** A new controller and loop; the identifier request is lost once, its answer arrives twice, and the
    page request is served twice. *)
Definition ex_schedules : list (list (move unit)) :=
  [[MTick true; MServe 1; MDeliver 0]; [MDeliver 0; MServe 2; MNoise 1 []; MServe 2; MDeliver 2]].
Example C61_witness :
  in_use ex_sp (Some 4) tt (net_new (Some 4) tt, ex_schedules) 0 /\
  snd (ctl_read (wired_sp ex_sp) 7 (mkRead (PageSff SffLower) 100 3)
         (mkWorld (net_new (Some 4) tt, ex_schedules) 0 [])) =
  Ok (mkResult 5 [[65; 65; 65]; [67; 67; 67]] (mkFailed 2 [TeHardware 1 HwPowerFault None])).
Proof.
  split; [|vm_compute; reflexivity]. exists []. cbn [fst snd].
  split; [reflexivity|]. split; [reflexivity|]. split; [intros ? ? ? []|]. split; [constructor|].
  split; [repeat constructor|]. split; [discriminate|]. split; [reflexivity|]. intros j _ [].
Qed.
