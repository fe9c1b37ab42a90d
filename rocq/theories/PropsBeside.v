(** C95: calls end in time beside a handler of SP requests. *)
From Coq Require Import Sorted.
From Verif Require Import SpecBeside SpecXcvradm BesideProofs3 BesideProofs4 BesideProofs5 ProgProofs.
Import ListNotations.
Open Scope N_scope.

(** Whatever the network, the SP and the other calls do: if the runtime serves timers and tasks within [slack], each step of the handler takes no longer
    than [lag], and the loop and the handler never wait for each other, the bounds of C92 hold with two slacks and three lags for each slack. *)
Theorem C95_calls : forall m,
  in_time_beside (fun St sp => leds sp m) 1 0 0 /\ in_time_beside (fun St sp => ctl_status sp m) 1 0 0 /\
  in_time_beside (fun St sp => extended_status sp m) 1 0 0 /\ in_time_beside (fun St sp => mac_addrs sp) 1 0 0 /\
  (forall q, in_time_beside (fun St sp => no_payload_request sp q) 1 0 0) /\ in_time_beside (fun St sp => identifier sp m) 1 0 0 /\
  (forall rd, rd_len rd <= 255 -> in_time_beside (fun St sp => ctl_read sp m rd) (1 + rounds (rd_len rd)) 0 0) /\
  (forall wr data, in_time_beside (fun St sp => ctl_write sp m wr data) 2 0 0) /\
  in_time_beside (fun St sp => reset sp m) 2 2000010 2 /\ in_time_beside (fun St sp => power sp m) 6 0 0 /\
  in_time_beside (fun St sp => set_power sp m PowerOff) 3 0 0 /\ (forall st, in_time_beside (fun St sp => set_power sp m st) 20 2000010 2) /\
  in_time_beside (fun St sp => vendor_info sp m) 27 0 0 /\ in_time_beside (fun St sp => memory_model sp m) 9 0 0 /\
  in_time_beside (fun St sp => monitors sp m) 33 0 0 /\ in_time_beside (fun St sp => datapath sp m) 41 0 0.
Proof. exact calls_in_time_beside. Qed.
Print Assumptions C95_calls.

(** A whole run of the tool. *)
Theorem C95_tool : forall show_f32 show a, let c := ar_cmd a in
  in_time_beside (xcvradm show_f32 show a) (selecting (chosen a) + fst (commanding c)) (snd (commanding c)) (napping c).
Proof. exact tool_in_time_beside. Qed.
Print Assumptions C95_tool.

(** They do not get stuck: whatever has happened in time, all calls that were not given up can still end in time. *)
Theorem C95_ends : forall A n_retries interval slack lag hd t id (ps : list (prog A * N)) ins busy outs hs, let b := beside_new t id ps ins busy outs in
  idle_timed n_retries interval t -> (1 <= hd_in hd)%nat -> (length ins <= hd_in hd)%nat ->
  forward hs -> all_served slack lag hd b hs -> never_jammed hd b hs ->
  exists hs', forward (hs ++ hs') /\ all_served slack lag hd b (hs ++ hs') /\ never_jammed hd b (hs ++ hs') /\
    forall i, (i < length ps)%nat -> ended_call i (bs_calls (beside_run hd b (hs ++ hs'))) \/ dropped i hs.
Proof. exact @beside_can_end. Qed.
Print Assumptions C95_ends.

(** They never wait for each other if there are no more SP requests than this, or if the loop takes the handler's replies before datagrams. *)
Theorem C95_few : forall A hd t id (ps : list (prog A * N)) ins busy outs hs, let b := beside_new t id ps ins busy outs in
  (length ins + length (one busy) + length outs + length (dispatched (beside_outputs hd b hs)) <= hd_in hd + hd_out hd + 1)%nat ->
  never_jammed hd b hs.
Proof. exact @few_not_jammed. Qed.
Print Assumptions C95_few.
Theorem C95_replies_first : forall A hd t id (ps : list (prog A * N)) ins busy outs hs, let b := beside_new t id ps ins busy outs in
  (length ins <= hd_in hd)%nat -> (1 <= hd_out hd)%nat -> replies_first hd b hs -> never_jammed hd b hs.
Proof. exact @first_not_jammed. Qed.
Print Assumptions C95_replies_first.

(** Each call returns what it returns when it is given its own replies one after the other. *)
Theorem C95_returns : forall A n_retries interval hd t id (ps : list (prog A * N)) ins busy outs i p start hs x at_, idle_timed n_retries interval t ->
  nth_error ps i = Some (p, start) -> let b := beside_new t id ps ins busy outs in
  nth_error (tcs_calls (bs_calls (beside_run hd b hs))) i = Some (CReady (Ret x) at_) ->
  forall n log, snd (alone p script (mkWorld (replies_to i (beside_outputs hd b hs)) n log)) = x.
Proof. exact @beside_returns. Qed.
Print Assumptions C95_returns.

(** As long as no call is given up, the loop and the handler do what C90 allows them to: each SP request reaches the handler, and each of its replies the
    loop, in order and once. *)
Theorem C95_as_alone : forall A hd t id (ps : list (prog A * N)) ins busy outs hs, let b := beside_new t id ps ins busy outs in
  (forall i, ~ dropped i hs) -> exists ms, duplex_run hd (as_duplex b) ms = (as_duplex (beside_run hd b hs), beside_outputs hd b hs).
Proof. exact @beside_is_duplex. Qed.
Print Assumptions C95_as_alone.
Theorem C95_order : forall A hd n_retries interval start t id (ps : list (prog A * N)) hs, timed_new n_retries interval start = Ok t ->
  (forall i, ~ dropped i hs) -> let b := beside_new t id ps [] None [] in let b' := beside_run hd b hs in let os := beside_outputs hd b hs in
  exists es taken, run (loop_new n_retries) es = (tm_loop (tcs_timed (bs_calls b')), os) /\ dispatched os = taken ++ bs_in b' ++ one (bs_wait b') /\
    (runs (tcs_timed (bs_calls b')) = true -> map (hd_reply hd) taken = served es ++ bs_out b' ++ one (bs_reply b')).
Proof. exact @beside_in_order. Qed.
Print Assumptions C95_order.

(** Once they wait for each other, the loop does nothing any more, and a call that waits for a reply waits for ever or until it is given up. *)
Theorem C95_jam : forall A hd (b : beside A) hs, jammed hd b -> runs (tcs_timed (bs_calls b)) = true ->
  jammed hd (beside_run hd b hs) /\ beside_outputs hd b hs = [] /\
  forall i, still_waits i (bs_calls b) -> ~ dropped i hs -> still_waits i (bs_calls (beside_run hd b hs)).
Proof. exact @jam_for_ever. Qed.
Print Assumptions C95_jam.

(** The LED states of port 0 are asked for.  The SP sends three requests of its own; at the third, at 99, the loop has to wait until the handler has
    replied to the first and taken the second.  The timer, due at 101, is served at 107. *)
Definition ex_gram : event := EvDatagram 0 (enc_header (header_new 7 KSpRequest) ++ enc_message (message_new (BError PeSerialization))) true.
Definition ex_beside : list (N * happens) :=
  [(1, HpCalls (OcCall 0)); (1, HpCalls (OcTake true)); (40, HpCalls (OcLoop ex_gram)); (41, HpTake); (45, HpCalls (OcLoop ex_gram));
   (99, HpCalls (OcLoop ex_gram)); (101, HpGive); (103, HpTake); (105, HpPut); (107, HpCalls (OcLoop (EvTick true))); (108, HpReply true);
   (120, HpCalls (OcLoop (EvDatagram 7 (enc_header (header_new 8 KSpResponse) ++ enc_message (message_new (BSpResponse (SLedState 1 0))) ++ [1]) true)))].
Example C95_witness : forall t0, timed_new (Some 2) 100 0 = Ok t0 -> let b := beside_new t0 8 [(proj1_sig (den_leds 1), 0)] [] None [] in
  idle_timed (Some 2) 100 t0 /\ steps_of (fun St sp => leds sp 1) (proj1_sig (den_leds 1)) /\ forward ex_beside /\ all_served 2 2 xcvradm_handler b ex_beside /\
  never_jammed xcvradm_handler b ex_beside /\ ~ dropped 0 ex_beside /\ length (dispatched (beside_outputs xcvradm_handler b ex_beside)) = 3%nat /\
  bs_wait (beside_run xcvradm_handler b (firstn 6 ex_beside)) <> None /\
  tcs_calls (bs_calls (beside_run xcvradm_handler b ex_beside)) = [CReady (Ret (Ok (mkResult 1 [LedOn] (mkFailed 0 [])))) 120].
Proof.
  intros t0 H b. split; [exists 0, t0, []; split; [exact H|]; injection H as <-; now split|]. split; [exact (proj1 (proj2_sig (den_leds 1)))|].
  injection H as <-. split; [repeat constructor; discriminate|]. split.
  { assert (X : forall c now h, ((forall i d, In d (call_due (bs_calls c) i) -> now <= d + 2) /\
      match bs_wait c with None => forallb (fun d => now <=? N.max d (bs_freed c) + 2) (loop_due (bs_calls c)) &&
         (match h with HpCalls (OcLoop (EvDatagram _ _ _)) => forallb (fun d => now <=? d + 2) (loop_due (bs_calls c)) | _ => true end)
       | Some _ => now <=? bs_last c + 2 end = true) -> @served_by (Result LedState) 2 2 xcvradm_handler c now h).
    { intros c now h [H1 H2]. split; [exact H1|]. destruct (bs_wait c).
      - split; [discriminate|]. intros _ _. now apply N.leb_le.
      - split; [|congruence]. intros _ d Hd. apply andb_prop in H2. destruct H2 as [H2 H3]. rewrite forallb_forall in H2. specialize (H2 d Hd).
        apply N.leb_le in H2. split; [exact H2|]. intros (p & dg & io & ->). rewrite forallb_forall in H3. now apply N.leb_le, H3. }
    intros hs1 now h hs2 E. revert E. unfold ex_beside.
    do 12 (destruct hs1 as [|x hs1]; [intros [= <- <- _]; apply X; split; [intros [|[|i]] d; vm_compute; intuition (subst; discriminate)|vm_compute; reflexivity]|intros [= <- E]; revert E]).
    destruct hs1; discriminate. }
  split; [apply few_not_jammed; vm_compute; repeat constructor|]. split; [unfold dropped; cbn; intuition discriminate|]. split; [vm_compute; reflexivity|].
  split; [vm_compute; discriminate|vm_compute; reflexivity].
Qed.

(** Without the condition that they never wait for each other the bound is false, also for the tool's handler: four SP requests, and the call waits on
    however late it gets. *)
Definition ex_jam : list (N * happens) :=
  [(1, HpCalls (OcCall 0)); (1, HpCalls (OcTake true)); (2, HpCalls (OcLoop ex_gram)); (2, HpTake); (2, HpGive); (2, HpCalls (OcLoop ex_gram)); (2, HpTake);
   (3, HpCalls (OcLoop ex_gram)); (4, HpCalls (OcLoop ex_gram))].
Theorem C95_always_refuted : forall now t0, 4 <= now -> timed_new (Some 2) 100 0 = Ok t0 -> let b := beside_new t0 8 [(proj1_sig (den_leds 1), 0)] [] None [] in
  forward (ex_jam ++ [(now, HpPut)]) /\ all_served 1 1 xcvradm_handler b (ex_jam ++ [(now, HpPut)]) /\ ~ dropped 0 ex_jam /\
  most_wait 1 xcvradm_handler b ex_jam /\ ~ ended_call 0 (bs_calls (beside_run xcvradm_handler b ex_jam)) /\ jammed xcvradm_handler (beside_run xcvradm_handler b ex_jam).
Proof.
  intros now0 t0 Hn [= <-] b.
  assert (J : jammed xcvradm_handler (beside_run xcvradm_handler b ex_jam)).
  { split; [vm_compute; discriminate|]. split; [vm_compute; discriminate|]. split; vm_compute; repeat constructor. }
  split; [unfold forward, ex_jam; cbn; repeat constructor; solve [exact Hn|discriminate|eapply N.le_trans; [|exact Hn]; discriminate]|]. split.
  { assert (X : forall c now h, ((forall i d, In d (call_due (bs_calls c) i) -> now <= d + 1) /\
      match bs_wait c with None => forallb (fun d => now <=? N.max d (bs_freed c) + 1) (loop_due (bs_calls c)) &&
         (match h with HpCalls (OcLoop (EvDatagram _ _ _)) => forallb (fun d => now <=? d + 1) (loop_due (bs_calls c)) | _ => true end)
       | Some _ => false end = true) -> @served_by (Result LedState) 1 1 xcvradm_handler c now h).
    { intros c now h [H1 H2]. split; [exact H1|]. destruct (bs_wait c); [discriminate H2|].
      split; [|congruence]. intros _ d Hd. apply andb_prop in H2. destruct H2 as [H2 H3]. rewrite forallb_forall in H2. specialize (H2 d Hd).
      apply N.leb_le in H2. split; [exact H2|]. intros (p & dg & io & ->). rewrite forallb_forall in H3. now apply N.leb_le, H3. }
    intros hs1 now h hs2 E. revert E. unfold ex_jam. cbn [app].
    do 9 (destruct hs1 as [|x hs1]; [intros [= <- <- _]; apply X; split; [intros [|[|i]] d; vm_compute; intuition (subst; discriminate)|vm_compute; reflexivity]|intros [= <- E]; revert E]).
    destruct hs1 as [|x hs1]; [intros [= <- <- _]|destruct hs1; discriminate]. fold ex_jam. split; [intros [|[|i]] d; vm_compute; intuition discriminate|].
    split; [intro W; exfalso; now apply (proj1 J)|]. intros _ K. now destruct K. }
  split; [unfold dropped; cbn; intuition discriminate|]. split.
  { intros hs1 hs2 E. revert E. unfold ex_jam.
    do 9 (destruct hs1 as [|x hs1]; [intros _; vm_compute; discriminate|intros [= <- E]; revert E]).
    destruct hs1; [intros _; vm_compute; discriminate|discriminate]. }
  split; [|exact J]. intros (x & y & K).
  assert (Z : match nth_error (tcs_calls (bs_calls (beside_run xcvradm_handler b ex_jam))) 0 with Some (CReady (Ret _) _) => true | _ => false end = false)
    by (vm_compute; reflexivity).
  rewrite K in Z. discriminate Z.
Qed.
Print Assumptions C95_always_refuted.
