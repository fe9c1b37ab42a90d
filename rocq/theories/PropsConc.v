(** Property C78: calls made at the same time do not mix. *)
From Verif Require Import ConcProofs ControllerSim PropsController.

(** C78: each call of the controller is a program that asks the SP, looks at the body and the data of
    each answer, sleeps and ends, and that stops at the first error; with any SP it does the same as this program. *)
Theorem C78_calls :
  (forall m, program (fun St sp => leds sp m) /\ program (fun St sp => ctl_status sp m) /\
     program (fun St sp => extended_status sp m) /\ program (fun St sp => identifier sp m) /\
     program (fun St sp => reset sp m) /\ program (fun St sp => power sp m) /\ program (fun St sp => mac_addrs sp)) /\
  (forall q, program (fun St sp => no_payload_request sp q)) /\
  (forall m rd, program (fun St sp => ctl_read sp m rd)) /\
  (forall m wr data, program (fun St sp => ctl_write sp m wr data)) /\
  (forall m st, program (fun St sp => set_power sp m st)) /\
  (forall P reads (parse : Identifier -> list (list N) -> outcome DecodeError P) m,
     program (fun St sp => parse_modules_by_identifier sp reads parse m)).
Proof. exact calls_are_programs. Qed.
Print Assumptions C78_calls.
(** There is only one such program. *)
Theorem C78_one : forall A (c : forall St, (St -> Rpc -> St * reply) -> ctl (St := St) A) p p', steps_of c p -> steps_of c p' ->
  forall xs, question p xs = question p' xs /\ forall x, resume p xs = Ret x <-> resume p' xs = Ret x.
Proof. exact @one_program. Qed.
Print Assumptions C78_one.
(** Calls with results of different types are calls with results of one type. *)
Theorem C78_mixed : forall A B (c : forall St, (St -> Rpc -> St * reply) -> ctl (St := St) A) p (f : A -> B),
  steps_of c p -> exists p', steps_of (fun St sp => cbind (c St sp) (fun x => cret (Ok (f x)))) p'.
Proof. exact @steps_map. Qed.
Print Assumptions C78_mixed.

(** C78: any number of calls run at the same time over one loop and an unreliable network.  Whatever
    the order of their steps, each call is where the replies it got let it be, and each answer among
    them is the SP's answer to the question of this very call, given while the call waited for it.  It gets no reply
    without a question. *)
Theorem C78_own : forall St A (sp : St -> Rpc -> St * reply), polite sp ->
  forall retries s0 c0, c0 < 2 ^ 64 -> forall (ps : list (prog A)) ts i p,
  forallb turn_ok ts = true -> few_turns ts -> nth_error ps i = Some p ->
  exists c, nth_error (sy_calls (sys_run sp (sys_new retries s0 c0 ps) ts)) i = Some c /\ is_at p c /\
    (forall m y, nth_error (got c) m = Some y -> question p (firstn m (got c)) <> None) /\
    forall m resp, nth_error (got c) m = Some (Ok resp) ->
      given sp (sys_new retries s0 c0 ps) ts i p (firstn m (got c)) resp.
Proof. exact @own_answers. Qed.
Print Assumptions C78_own.

(** If the SP's answers depend on the question only, a call that ended got an error from the loop and, unless it
    handles errors itself, ended with it, or ended as it does alone. *)
Theorem C78_alone : forall St A (sp : St -> Rpc -> St * reply), polite sp ->
  forall retries s0 c0, c0 < 2 ^ 64 -> forall (ps : list (prog A)) ts i p xs x, alike sp ->
  forallb turn_ok ts = true -> few_turns ts -> nth_error ps i = Some p ->
  nth_error (sy_calls (sys_run sp (sys_new retries s0 c0 ps) ts)) i = Some (Going xs (Ret x)) ->
  (exists e, In (Err e) xs /\ (stops_at_errors p -> x = Err e)) \/ forall w, snd (alone p sp w) = x.
Proof. exact @ends_as_alone. Qed.
Print Assumptions C78_alone.

(** So a read that succeeds while other calls run reports, for every module asked for and no other,
    what that module's memory holds or its own error. *)
Theorem C78_read : forall St (a : honest St), honest_ok a -> data_blind a -> forall v, steady a v ->
  forall mem, (forall m rd i, v (HRead m rd) None i = mem i rd) ->
  forall retries s0 c0 ps ts i p m rd xs x, c0 < 2 ^ 64 -> forallb turn_ok ts = true -> few_turns ts ->
  nth_error ps i = Some p -> steps_of (fun St sp => ctl_read sp m rd) p -> m < 2 ^ 64 -> 1 <= rd_len rd <= 255 ->
  nth_error (sy_calls (sys_run (honest_sp a) (sys_new retries s0 c0 ps) ts)) i = Some (Going xs (Ret (Ok x))) ->
  all_speak m (ident_told mem) (rd_page rd) /\
  reports m (and_then (ident_told mem) (told (fun x => x) (fun i => mem i rd))) x.
Proof. exact @concurrent_read. Qed.
Print Assumptions C78_read.

(** Two reads at the same time.  The second one's request is sent first; a request is served twice,
    answers are repeated, and the ids wrap around. *)
Definition ex_calls : list (prog (Result (list N))) :=
  [proj1_sig (den_read 7 (mkRead (PageSff SffLower) 100 3)); proj1_sig (den_read 1 (mkRead (PageSff SffLower) 20 2))].
Definition ex_turns : list (turn unit) :=
  [TCall 0; TCall 1; TAccept 1 true; TNet (MTick true); TNet (MServe 0); TNet (MServe 1); TNet (MDeliver 1);
   TAccept 0 true; TNet (MDeliver 0); TNet (MServe 2); TCall 1; TNet (MDeliver 2); TCall 0; TAccept 0 true;
   TNet (MServe 3); TNet (MDeliver 2); TNet (MDeliver 3); TAccept 0 true; TNet (MServe 4); TNet (MDeliver 4)].
Definition ended {A} (c : call A) : option (outcome Error A) := match c with Going _ (Ret x) => Some x | _ => None end.
Example C78_witness : polite ex_sp /\ alike ex_sp /\ forallb turn_ok ex_turns = true /\ few_turns ex_turns /\
  map ended (sy_calls (sys_run ex_sp (sys_new None tt 18446744073709551615 ex_calls) ex_turns)) =
  [Some (Ok (mkResult 5 [[65; 65; 65]; [67; 67; 67]] (mkFailed 2 [TeHardware 1 HwPowerFault None])));
   Some (Ok (mkResult 1 [[65; 65]] (mkFailed 0 [])))].
Proof.
  split; [apply honest_polite, board_ok|].
  split; [|split; [reflexivity|split; [discriminate|vm_compute; reflexivity]]].
  eapply steady_alike with (v := fun q d i => hs_verdict (board_sp ex_board) tt q d i).
  - intros [] q. split; [|reflexivity]. destruct q; reflexivity.
  - intros [] q d i. reflexivity.
Qed.
