(** C93: a call that is given up does not disturb the others. *)
From Coq Require Import Sorted.
From Verif Require Import SpecGiveUp GiveUpProofs GiveUpProofs2 GiveUpProofs3 ProgProofs.
Import ListNotations.
Open Scope N_scope.

(** The full statement: whenever calls are given up, the loop is stopped by nothing but what stops it otherwise. *)
Definition undisturbed : Prop := forall A n_retries interval t id (ps : list (prog A * N)) hs now h, idle_timed n_retries interval t ->
  ~ stopped (calls_run (calls_new t id ps) hs) -> stopped (calls_run (calls_new t id ps) (hs ++ [(now, h)])) -> deadly (calls_run (calls_new t id ps) hs) h.

(** It is false.  Two calls ask for LED states, the first is given up while its request is with the loop, and the SP answers it as it should: the loop panics
    (ioloop.rs:635-637), and so does the second call.  Without the give-up both get their answers. *)
Definition ex_leds := proj1_sig (den_leds 1).
Definition ex_answer (id : N) : event :=
  EvDatagram 7 (enc_header (header_new id KSpResponse) ++ enc_message (message_new (BSpResponse (SLedState 1 0))) ++ [1]) true.
Definition ex_before : list (N * occurrence) := [(0, OcCall 0); (1, OcTake true); (2, OcCall 1); (3, OcDrop 0)].
Definition ex_after : list (N * occurrence) := [(12, OcTake true); (20, OcLoop (ex_answer 9))].
Definition ex_start : timed_calls (Result LedState) := calls_new (mkTimed (loop_new (Some 3)) 100 0) 8 [(ex_leds, 0); (ex_leds, 1)].
Theorem C93_refuted : ~ undisturbed /\
  (let hs := ex_before ++ (10, OcLoop (ex_answer 8)) :: ex_after in
   tcs_calls (calls_run ex_start hs) = [CReady (Ret Panic) 10; CReady (Ret Panic) 10] /\ ~ given_up 1 hs /\
   tcs_calls (calls_run ex_start (filter (fun x => match snd x with OcDrop _ => false | _ => true end) hs)) =
     [CReady (Ret (Ok (mkResult 1 [LedOn] (mkFailed 0 [])))) 10; CReady (Ret (Ok (mkResult 1 [LedOn] (mkFailed 0 [])))) 20]).
Proof.
  split.
  - intro U.
    assert (I : idle_timed (Some 3) 100 (mkTimed (loop_new (Some 3)) 100 0)) by (exists 0, (mkTimed (loop_new (Some 3)) 100 0), []; repeat split).
    assert (D : deadly (calls_run ex_start ex_before) (OcLoop (ex_answer 8))).
    { apply (U _ (Some 3) 100 _ 8 [(ex_leds, 0); (ex_leds, 1)] ex_before 10 (OcLoop (ex_answer 8)) I); unfold stopped; vm_compute; [intro X; now apply X|discriminate]. }
    destruct D as (hd & rest & E & D). vm_compute in E. injection E as <- <-. destruct D as [[D _]|(_ & D & _)]; discriminate.
  - split; [vm_compute; reflexivity|]. split; [unfold given_up; cbn; intuition discriminate|vm_compute; reflexivity].
Qed.
Print Assumptions C93_refuted.

(** It holds when calls are given up only while their requests are neither in the channel nor with the loop. *)
Theorem C93_partial : forall A n_retries interval t id (ps : list (prog A * N)) hs now h, idle_timed n_retries interval t ->
  harmless (calls_new t id ps) (hs ++ [(now, h)]) ->
  ~ stopped (calls_run (calls_new t id ps) hs) -> stopped (calls_run (calls_new t id ps) (hs ++ [(now, h)])) -> deadly (calls_run (calls_new t id ps) hs) h.
Proof. exact @stops_only. Qed.
Print Assumptions C93_partial.
(** Then the loop does what it does when nobody leaves. *)
Theorem C93_plain : forall A n_retries interval t id (ps : list (prog A * N)) hs, idle_timed n_retries interval t -> harmless (calls_new t id ps) hs ->
  exists es, (forall now, ~ In (now, EvCallerGone) es) /\
    fst (timed_run t es) = tcs_timed (calls_run (calls_new t id ps) hs) /\ map snd (snd (timed_run t es)) = calls_outputs (calls_new t id ps) hs.
Proof. exact @no_harm. Qed.
Print Assumptions C93_plain.

(** Otherwise the loop is lost.  Once a call is given up while its request is with the loop, nobody is given a reply and no request is taken any more ... *)
Theorem C93_lost : forall A n_retries interval t id (ps : list (prog A * N)) hs now i hs2, idle_timed n_retries interval t ->
  (exists k, nth_error (tcs_calls (calls_run (calls_new t id ps) hs)) i = Some (CPending k)) ->
  let out := calls_outputs (calls_run (calls_new t id ps) (hs ++ [(now, OcDrop i)])) hs2 in replies_of out = [] /\ taken out = [].
Proof. exact @given_up_with_loop. Qed.
Print Assumptions C93_lost.
(** ... while it is in the channel, so it is from when the loop takes it ... *)
Theorem C93_left : forall A n_retries interval t id (ps : list (prog A * N)) hs now i hs2, idle_timed n_retries interval t ->
  (exists since gone, tcs_slot (calls_run (calls_new t id ps) hs) = Some (mkSlot i true since gone)) ->
  forall a r b, calls_outputs (calls_run (calls_new t id ps) (hs ++ [(now, OcDrop i)])) hs2 = a ++ OAccept (N.of_nat i) r :: b -> replies_of b = [] /\ taken b = [].
Proof. exact @given_up_in_channel. Qed.
Print Assumptions C93_left.
(** ... and in either case the loop stops soon ... *)
Theorem C93_stops : forall A n_retries interval slack t id (ps : list (prog A * N)) hs now i hs2 now' h', idle_timed n_retries interval t ->
  goes_forward (hs ++ (now, OcDrop i) :: hs2 ++ [(now', h')]) -> all_punctual slack (calls_new t id ps) (hs ++ (now, OcDrop i) :: hs2 ++ [(now', h')]) ->
  submitted i (calls_run (calls_new t id ps) hs) -> now + slack + 2 * (attempts n_retries * (interval + slack)) < now' ->
  stopped (calls_run (calls_new t id ps) (hs ++ (now, OcDrop i) :: hs2)).
Proof. exact @stops_soon. Qed.
Print Assumptions C93_stops.
(** ... after which no call waits any more, every call that makes a request panics, and this does not change. *)
Theorem C93_panics : forall A n_retries interval t id (ps : list (prog A * N)) hs, idle_timed n_retries interval t ->
  let c := calls_run (calls_new t id ps) hs in stopped c ->
  (forall i x, nth_error (tcs_calls c) i = Some x -> call_waits x = false) /\
  (forall i q d k since now, nth_error (tcs_calls c) i = Some (CReady (Ask q d k) since) -> since <= now ->
    nth_error (tcs_calls (calls_step c now (OcCall i))) i = Some (CReady (Ret Panic) now)) /\
  (forall hs', stopped (calls_run c hs')).
Proof. exact @all_panic. Qed.
Print Assumptions C93_panics.

(** A call given up before it is polled, one while it waits for the channel, and one that gets its answer. *)
Definition ex_calm : list (N * occurrence) :=
  [(0, OcCall 0); (1, OcCall 1); (2, OcDrop 1); (2, OcDrop 2); (3, OcTake true); (10, OcLoop (ex_answer 8)); (11, OcDrop 0)].
Example C93_witness :
  let c0 := calls_new (mkTimed (loop_new (Some 3)) 100 0) 8 [(ex_leds, 0); (ex_leds, 1); (ex_leds, 2)] in
  harmless c0 ex_calm /\
  tcs_calls (calls_run c0 ex_calm) = [CReady (Ret (Ok (mkResult 1 [LedOn] (mkFailed 0 [])))) 10; CGone; CGone] /\
  ~ stopped (calls_run c0 ex_calm) /\
  stopped (calls_run c0 (ex_calm ++ [(12, OcLoop EvHandlerGone); (13, OcLoop (EvDatagram 7 (enc_header (header_new 3 KSpRequest) ++ enc_message (message_new (BSpResponse (SLedState 1 0)))) true))])).
Proof.
  split.
  { assert (N0 : forall i (c : timed_calls (Result LedState)),
      match tcs_slot c with Some s => negb (Nat.eqb (sl_call s) i && sl_sent s) | None => true end = true ->
      match nth_error (tcs_calls c) i with Some (CPending _) => false | _ => true end = true -> ~ submitted i c).
    { intros i c H1 H2 [(s & g & E)|(k & E)]; rewrite E in *; [|discriminate]. cbn in H1. rewrite Nat.eqb_refl in H1. discriminate. }
    intros hs1 now i hs2 E. revert E. unfold ex_calm.
    do 7 (destruct hs1 as [|x hs1]; [intro E; try discriminate E; injection E as _ <- _; apply N0; vm_compute; reflexivity|intro E; injection E as <- E; revert E]).
    destruct hs1; discriminate. }
  split; [vm_compute; reflexivity|]. split; [unfold stopped; vm_compute; intro X; now apply X|unfold stopped; vm_compute; discriminate].
Qed.
(** A call is given up at 3 while its request is with the loop; the other waits for the channel.  The SP says nothing.  All attempts later the loop panics. *)
Definition ex_silence : list (N * occurrence) := [(104, OcLoop (EvTick true)); (207, OcLoop (EvTick true)); (310, OcLoop (EvTick true))].
Example C93_silence :
  let hs := ex_before ++ ex_silence in
  idle_timed (Some 3) 100 (mkTimed (loop_new (Some 3)) 100 0) /\ goes_forward (hs ++ [(900, OcTake true)]) /\ all_punctual 3 ex_start (hs ++ [(900, OcTake true)]) /\
  submitted 0 (calls_run ex_start (firstn 3 ex_before)) /\ 3 + 3 + 2 * (attempts (Some 3) * (100 + 3)) = 624 /\
  tcs_calls (calls_run ex_start hs) = [CReady (Ret Panic) 310; CReady (Ret Panic) 310].
Proof.
  split; [exists 0, (mkTimed (loop_new (Some 3)) 100 0), []; repeat split|]. split; [repeat constructor; discriminate|]. split.
  { intros hs1 now h hs2 E. revert E. unfold ex_before, ex_silence. cbn [app].
    do 8 (destruct hs1 as [|x hs1]; [intros [= <- _ _]; unfold on_time; vm_compute; repeat constructor; discriminate|intros [= <- E]; revert E]).
    destruct hs1; discriminate. }
  split.
  { right. assert (X : forall c, match nth_error (tcs_calls c) 0 with Some (CPending _) => true | _ => false end = true ->
      exists k, nth_error (tcs_calls c) 0 = Some (@CPending (Result LedState) k)).
    { intro c. destruct (nth_error (tcs_calls c) 0) as [[| | |k|]|]; try discriminate. intros _. now exists k. }
    apply X. vm_compute. reflexivity. }
  split; vm_compute; reflexivity.
Qed.
(** A call given up while its request is in the channel: another's request is with the loop and is still answered; then the loop takes the one of the gone call. *)
Definition ex_channel : list (N * occurrence) := [(0, OcCall 0); (1, OcTake true); (2, OcCall 1)].
Definition ex_taken : list (N * occurrence) := [(10, OcLoop (ex_answer 8)); (12, OcTake true); (20, OcLoop (ex_answer 9))].
Example C93_channel :
  (exists since gone, tcs_slot (calls_run ex_start ex_channel) = Some (mkSlot 1 true since gone)) /\
  exists a r b, calls_outputs (calls_run ex_start (ex_channel ++ [(3, OcDrop 1)])) ex_taken = a ++ OAccept 1 r :: b /\ replies_of a <> [] /\ In OPanic b /\
  tcs_calls (calls_run ex_start (ex_channel ++ (3, OcDrop 1) :: ex_taken)) = [CReady (Ret (Ok (mkResult 1 [LedOn] (mkFailed 0 [])))) 10; CReady (Ret Panic) 20].
Proof.
  split; [exists 2, false; vm_compute; reflexivity|].
  assert (X : forall l, match l with x :: OAccept 1 _ :: y => match x with OReply _ _ => match y with [_; OPanic] => true | _ => false end | _ => false end | _ => false end = true ->
    exists a r b, l = a ++ OAccept 1 r :: b /\ replies_of a <> [] /\ In OPanic b).
  { intro l. destruct l as [|[| |g x| | | |] [|[g' r| | | | | |] y]]; try discriminate; destruct g' as [|[]]; try discriminate. destruct y as [|z [|[] []]]; try discriminate.
    intros _. exists [OReply g x], r, [z; OPanic]. split; [reflexivity|]. split; [discriminate|]. right. now left. }
  destruct (X (calls_outputs (calls_run ex_start (ex_channel ++ [(3, OcDrop 1)])) ex_taken)) as (a & r & b & X1 & X2 & X3); [vm_compute; reflexivity|].
  exists a, r, b. split; [exact X1|]. split; [exact X2|]. split; [exact X3|]. vm_compute. reflexivity.
Qed.
