(** C33: exactly which answers crash the caller. *)
From Verif Require Import CrashProofs ControllerSim.

(** C33: for an answer that the I/O loop passes on, the LED query crashes exactly when some LED
    state is undefined, the extended status query exactly when some undefined bit is set, a read
    exactly when the data does not make one piece per module, the identifier query exactly when the
    answer describes another length than one byte of some module; a status query, the MAC query,
    acknowledged requests and writes never crash.  A read that does not crash hands out the pieces,
    even if the answer states another length. *)
Theorem C33_crashes : forall St (sp : St -> Rpc -> St * reply) w m resp, passed_on resp ->
  (answer sp w (HLedState m) None = Ok resp -> (snd (leds sp m w) = Panic <-> strange_led resp)) /\
  (answer sp w (HExtendedStatus m) None = Ok resp ->
     (snd (extended_status sp m w) = Panic <-> strange_status resp)) /\
  (forall rd, fits_in_one_message m rd = true -> rd_len rd <> 0 -> answer sp w (HRead m rd) None = Ok resp ->
     (snd (read_impl_one_message sp m rd w) = Panic <-> strange_read (rd_len rd) resp) /\
     (forall res, snd (read_impl_one_message sp m rd w) = Ok res -> cut_read (rd_len rd) resp res)) /\
  (m < 2 ^ 64 -> m <> 0 -> answer sp w (HRead m ident_read) None = Ok resp ->
     (snd (identifier sp m w) = Panic <-> exists good bad rd data,
        carries resp (SRead good bad rd) data /\ ports good <> 0 /\ rd_len rd <> 1)) /\
  (answer sp w (HStatus m) None = Ok resp -> snd (ctl_status sp m w) <> Panic) /\
  (answer sp w HMacAddrs None = Ok resp -> snd (mac_addrs sp w) <> Panic) /\
  (forall q, answer sp w q None = Ok resp -> snd (no_payload_request sp q w) <> Panic) /\
  (forall wr data, answer sp w (HWrite m wr) (Some data) = Ok resp -> snd (write_impl sp m wr data w) <> Panic).
Proof. exact @crashes. Qed.
Print Assumptions C33_crashes.

(** One module, two bytes asked for: an answer about one byte crashes, an answer about three bytes
    is cut to two, an answer about four bytes crashes. *)
Definition said_of (len : N) (data : list N) : Rpc := says_back (SRead 1 0 (mkRead (PageSff SffLower) 0 len)) data.
Example C33_crashes_witness :
  let two := mkRead (PageSff SffLower) 0 2 in
  passed_on (said_of 1 [7]) /\ passed_on (said_of 3 [7; 8; 9]) /\ passed_on (said_of 4 [7; 8; 9; 10]) /\
  strange_read 2 (said_of 1 [7]) /\ strange_read 2 (said_of 4 [7; 8; 9; 10]) /\
  snd (read_impl_one_message (parrot (said_of 3 [7; 8; 9])) 1 two w0) = Ok (mkResult 1 [[7; 8]] (mkFailed 0 [])).
Proof.
  assert (P : forall len data, let r := SRead 1 0 (mkRead (PageSff SffLower) 0 len) in
    bytes (on_wire r data) = true -> wf_message (message_new (BSpResponse r)) = true ->
    length data = announced r -> (length (on_wire r data) <= 100)%nat -> passed_on (said_of len data)).
  { intros len data r Hb Hw Hl Hs. exists (sent HMacAddrs). eexists. split; [exact Hb|]. apply parrot_completes; try assumption.
    - discriminate.
    - eapply Nat.le_trans; [exact Hs|]. apply Nat.leb_le. vm_compute. reflexivity. }
  cbv zeta. split; [apply P; try (vm_compute; reflexivity); vm_compute; repeat constructor|].
  split; [apply P; try (vm_compute; reflexivity); vm_compute; repeat constructor|].
  split; [apply P; try (vm_compute; reflexivity); vm_compute; repeat constructor|].
  split. { exists 1, 0, (mkRead (PageSff SffLower) 0 1), [7]. split; [now split|left; vm_compute; reflexivity]. }
  split. { exists 1, 0, (mkRead (PageSff SffLower) 0 4), [7; 8; 9; 10]. split; [now split|right; vm_compute; discriminate]. }
  vm_compute. reflexivity.
Qed.
