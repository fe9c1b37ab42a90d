(** Model of the calls of TimedCalls.v beside the handler of SP requests of Duplex.v, in time: the loop also hands requests from the SP to the handler
    (controller/src/ioloop.rs:288-296), waits while the channel to it is full, and does nothing else then; the handler replies on a second channel
    (ioloop.rs:78, 774-806; bin/xcvradm.rs:918-940).  The calls' own steps go on while the loop waits.  Times are in microseconds. *)
From Verif Require Export TimedCalls Duplex.

(** [bs_wait]: the loop waits to put this on the channel.  [bs_last]: when there last was a change in what the loop waits for.  [bs_freed]: when the loop
    last came back from such a wait. *)
Record beside (A : Type) := mkBeside
  { bs_calls : timed_calls A; bs_in : list Rpc; bs_wait : option Rpc; bs_reply : option handler_reply; bs_out : list handler_reply; bs_last : N; bs_freed : N }.
Arguments mkBeside {A}. Arguments bs_calls {A}. Arguments bs_in {A}. Arguments bs_wait {A}. Arguments bs_reply {A}. Arguments bs_out {A}.
Arguments bs_last {A}. Arguments bs_freed {A}.

(** What happens next: something to the calls or the loop, the loop takes a reply of the handler, the waiting request goes on the channel, the handler takes
    a request, or its reply goes on its channel. *)
Inductive happens := HpCalls (h : occurrence) | HpReply (io : bool) | HpPut | HpTake | HpGive.

(** Whether the loop does this; the handler's replies are for [HpReply] only and the handler keeps its channel open. *)
Definition by_loop (h : occurrence) : bool := match h with OcTake _ | OcLoop _ => true | _ => false end.
Definition not_handler (h : occurrence) : bool := match h with OcLoop e => outside e | _ => true end.

(** The occurrence [h]; if it hands a request over, the loop may have to wait. *)
Definition beside_iterate {A} (hd : handler) (c : beside A) (now : N) (h : occurrence) (out : list handler_reply) : beside A * list output :=
  let (cs, os) := calls_does (bs_calls c) now h in
  match dispatch_of os with
  | None => (mkBeside cs (bs_in c) (bs_wait c) (bs_reply c) out (bs_last c) (bs_freed c), os)
  | Some r => if room (hd_in hd) (bs_in c)
              then (mkBeside cs (bs_in c ++ [r]) (bs_wait c) (bs_reply c) out (bs_last c) (bs_freed c), os)
              else (mkBeside cs (bs_in c) (Some r) (bs_reply c) out now (bs_freed c), os)
  end.
(** Once there is room for the waiting request, it does not matter what else the handler does. *)
Definition stamp {A} (hd : handler) (c : beside A) (now : N) : N := if room (hd_in hd) (bs_in c) then bs_last c else now.
Definition beside_does {A} (hd : handler) (c : beside A) (now : N) (h : happens) : beside A * list output :=
  match h with
  | HpCalls o =>
      match bs_wait c with
      | Some _ => if by_loop o then (c, []) else beside_iterate hd c now o (bs_out c)
      | None => if not_handler o then beside_iterate hd c now o (bs_out c) else (c, [])
      end
  | HpReply io =>
      match bs_wait c, bs_out c with
      | None, x :: rest => beside_iterate hd c now (OcLoop (EvHandler x io)) rest
      | _, _ => (c, [])
      end
  | HpPut =>
      match bs_wait c with
      | Some r => if room (hd_in hd) (bs_in c)
                  then (mkBeside (bs_calls c) (bs_in c ++ [r]) None (bs_reply c) (bs_out c) now now, [])
                  else (c, [])
      | None => (c, [])
      end
  | HpTake =>
      match bs_reply c, bs_in c with
      | None, r :: rest => (mkBeside (bs_calls c) rest (bs_wait c) (Some (hd_reply hd r)) (bs_out c) (stamp hd c now) (bs_freed c), [])
      | _, _ => (c, [])
      end
  | HpGive =>
      match bs_reply c with
      | Some x =>
          if runs (tcs_timed (bs_calls c))
          then if room (hd_out hd) (bs_out c)
               then (mkBeside (bs_calls c) (bs_in c) (bs_wait c) None (bs_out c ++ [x]) (stamp hd c now) (bs_freed c), [])
               else (c, [])
          else (* the loop is gone, sending fails *)
               (mkBeside (bs_calls c) (bs_in c) (bs_wait c) None (bs_out c) (stamp hd c now) (bs_freed c), [])
      | None => (c, [])
      end
  end.
Definition beside_step {A} (hd : handler) (c : beside A) (now : N) (h : happens) : beside A := fst (beside_does hd c now h).
Definition beside_run {A} (hd : handler) (c : beside A) (hs : list (N * happens)) : beside A :=
  fold_left (fun c x => beside_step hd c (fst x) (snd x)) hs c.
Fixpoint beside_outputs {A} (hd : handler) (c : beside A) (hs : list (N * happens)) : list output :=
  match hs with
  | [] => []
  | (now, h) :: r => snd (beside_does hd c now h) ++ beside_outputs hd (beside_step hd c now h) r
  end.
(** The calls [ps], each made at its time, with this on the channels and the handler busy or not. *)
Definition beside_new {A} (t : timed) (counter : N) (ps : list (prog A * N)) (ins : list Rpc) (busy : option handler_reply) (outs : list handler_reply) : beside A :=
  mkBeside (calls_new t counter ps) ins None busy outs 0 0.
