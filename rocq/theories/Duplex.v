(** Model of the I/O loop together with the task that handles requests from the SP: the loop puts each such
    request on a bounded channel (controller/src/ioloop.rs:288-296) and waits there while that channel is full;
    the handler takes a request, makes a reply and puts it on a second bounded channel (ioloop.rs:78,
    bin/xcvradm.rs:918-940), waiting while that one is full; only the loop empties the second channel
    (ioloop.rs:774-806).  While the loop waits it does nothing else.  tokio's channels are trusted: they hold up
    to their capacity, in order. *)
From Verif Require Export IoLoop.

(** How a handler is set up: the capacity of the channel it reads from (an argument of [Controller::new]), that
    of the channel it replies on, and what it replies. *)
Record handler := mkHandler { hd_in : nat; hd_out : nat; hd_reply : Rpc -> handler_reply }.
(** controller/src/bin/xcvradm.rs:915-940, controller/src/lib.rs:333: both hold one item; everything is
    dropped. *)
Definition NUM_OUTSTANDING_REQUESTS : nat := 1.
Definition xcvradm_handler : handler := mkHandler 1 NUM_OUTSTANDING_REQUESTS (fun _ => HandlerDrop).

Record duplex := mkDuplex
  { dx_loop : loop;
    dx_in : list Rpc;                     (* on the channel to the handler *)
    dx_wait : option Rpc;                 (* the loop waits to put this on that channel *)
    dx_reply : option handler_reply;      (* the handler is sending this *)
    dx_out : list handler_reply }.        (* on the channel back to the loop *)

(** What happens next. *)
Inductive move :=
| MvLoop (e : event)                      (* a branch of [select!] other than a handler's reply *)
| MvReply (io : bool)                     (* the branch that takes a handler's reply *)
| MvPut                                   (* the waiting request goes on the channel *)
| MvTake                                  (* the handler takes a request *)
| MvGive.                                 (* the handler's reply goes on its channel *)

Definition dispatch_of (l : list output) : option Rpc :=
  match find (fun o => match o with ODispatch _ => true | _ => false end) l with
  | Some (ODispatch r) => Some r
  | _ => None
  end.
Definition room {A} (cap : nat) (l : list A) : bool := Nat.ltb (length l) cap.
(** Events that come from the handler are moves of their own; the handler keeps its channel open. *)
Definition outside (e : event) : bool :=
  match e with EvHandler _ _ | EvHandlerGone => false | _ => true end.

(** One iteration of the loop, ending in [incoming_request_tx.send(item).await] if a request came in. *)
Definition iterate (h : handler) (d : duplex) (e : event) (out : list handler_reply)
    : duplex * list output :=
  let (s, os) := step (dx_loop d) e in
  match dispatch_of os with
  | None => (mkDuplex s (dx_in d) None (dx_reply d) out, os)
  | Some r => if room (hd_in h) (dx_in d)
              then (mkDuplex s (dx_in d ++ [r]) None (dx_reply d) out, os)
              else (mkDuplex s (dx_in d) (Some r) (dx_reply d) out, os)
  end.

Definition duplex_step (h : handler) (d : duplex) (m : move) : duplex * list output :=
  match m with
  | MvLoop e =>
      match dx_wait d with
      | Some _ => (d, [])
      | None => if outside e then iterate h d e (dx_out d) else (d, [])
      end
  | MvReply io =>
      match dx_wait d, dx_out d with
      | None, x :: rest => iterate h d (EvHandler x io) rest
      | _, _ => (d, [])
      end
  | MvPut =>
      match dx_wait d with
      | Some r => if room (hd_in h) (dx_in d)
                  then (mkDuplex (dx_loop d) (dx_in d ++ [r]) None (dx_reply d) (dx_out d), [])
                  else (d, [])
      | None => (d, [])
      end
  | MvTake =>
      match dx_reply d, dx_in d with
      | None, r :: rest => (mkDuplex (dx_loop d) rest (dx_wait d) (Some (hd_reply h r)) (dx_out d), [])
      | _, _ => (d, [])
      end
  | MvGive =>
      match dx_reply d with
      | Some x =>
          match l_status (dx_loop d) with
          | Running => if room (hd_out h) (dx_out d)
                       then (mkDuplex (dx_loop d) (dx_in d) (dx_wait d) None (dx_out d ++ [x]), [])
                       else (d, [])
          (* the loop is gone, sending fails *)
          | _ => (mkDuplex (dx_loop d) (dx_in d) (dx_wait d) None (dx_out d), [])
          end
      | None => (d, [])
      end
  end.

Fixpoint duplex_run (h : handler) (d : duplex) (ms : list move) : duplex * list output :=
  match ms with
  | [] => (d, [])
  | m :: r => let (d1, o1) := duplex_step h d m in
              let (d2, o2) := duplex_run h d1 r in (d2, o1 ++ o2)
  end.
Definition duplex_new (n_retries : option N) : duplex := mkDuplex (loop_new n_retries) [] None None [].
