(** Statement of C85: what calls cost. *)
From Verif Require Export SpecController SpecCmd Queries CliMain.

(** How long the deeds [l] take when each request is answered within [d] microseconds (C84 bounds the
    time to an answer); with [d = 1] and no pauses this counts requests. *)
Definition takes (d : N) (l : list done) : N :=
  fold_right (fun x n => match x with DRequest _ _ => d | DSleep t => t end + n) 0 l.
(** Whatever the SP answers, the call makes at most [n] requests and pauses for [pause] at most. *)
Definition costs {St A} (c : ctl (St := St) A) (n pause : N) : Prop :=
  forall d w, takes d (deeds c w) <= n * d + pause.
(** Messages needed to read [len] bytes of each of 64 modules: as many modules as fit in 1024 bytes share
    one. *)
Definition rounds (len : N) : N := if len =? 0 then 0 else 63 / (1024 / len) + 1.

(** The most requests and the longest pause (in microseconds) of the words that select modules and of the
    commands. *)
Definition selecting (t : Transceivers) : N :=
  match t with TPresent | TKind _ => 1 | TPowerState _ => 6 | TAll | TIndex _ => 0 end.
Definition commanding (c : Cmd) : N * N :=
  match c with
  | CStatus _ _ _ _ _ _ _ => (2, 0)
  | CReset => (2, 2000010)
  | CSetPower PowerOff => (3, 0)
  | CSetPower _ => (20, 2000010)
  | CPower _ => (6, 0)
  | CVendorInfo _ => (27, 0)
  | CMemoryModel _ => (9, 0)
  | CMonitors _ => (33, 0)
  | CDatapath => (41, 0)
  | CWrite _ _ _ => (2, 0)
  | CRead page _ _ len _ =>
      (* pieces of 8 or 64 bytes, each read after the identifiers *)
      (if pg_cmis page then 2 * ((len + 7) / 8) else 5 * ((len + 63) / 64), 0)
  | _ => (1, 0)
  end.
(** How many pauses it makes. *)
Definition napping (c : Cmd) : N :=
  match c with CReset | CSetPower PowerLow | CSetPower PowerHigh => 2 | _ => 0 end.
