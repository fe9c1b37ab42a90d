(** Specification vocabulary for the commands of the command-line tool (C53, C56-C58). *)
From Coq Require Import String.
From Verif Require Export SpecController SpecCli Cli.
Import ListNotations.
Open Scope N_scope.

(** ** Reads *)
(** Successful reads return the contents of the module's memory. *)
Definition shows (mem : N -> MemoryRead -> verdict) (content : N -> Page -> N -> N) : Prop :=
  forall i rd d, mem i rd = inl d ->
    d = map (content i (rd_page rd)) (nrange (rd_offset rd) (N.to_nat (rd_len rd))).
(** What a read of the window from [offset], done by the operations [rds], has to say about module
    [i]: all the bytes of the window, or the first error. *)
Definition window_says (mem : N -> MemoryRead -> verdict) (content : N -> Page -> N -> N) (p : Page)
    (offset len : N) (rds : list MemoryRead) (i : N) : list N + TransceiverError :=
  match ident_told mem i with
  | inr e => inr e
  | inl _ => match gather mem i rds with
             | inl _ => inl (map (content i p) (nrange offset (N.to_nat len)))
             | inr e => inr e
             end
  end.
(** Module [i] answers in every operation but the last. *)
Definition early_ok (mem : N -> MemoryRead -> verdict) (i : N) (rds : list MemoryRead) : Prop :=
  forall before last, rds = before ++ [last] -> before <> [] ->
    (exists id, ident_told mem i = inl id) /\ Forall (fun rd => is_good (mem i rd) = true) before.

(** The values and the errors reported by [f], in port order. *)
Definition told_ports {P} (m : N) (f : N -> P + TransceiverError) : list (N * P) :=
  flat_map (fun i => match f i with inl x => [(i, x)] | inr _ => [] end) (to_indices m).
Definition failed_ports {P} (m : N) (f : N -> P + TransceiverError) : list (N * TransceiverError) :=
  flat_map (fun i => match f i with inl _ => [] | inr e => [(i, e)] end) (to_indices m).

(** A line of the table: the port right-aligned in four columns, the bytes in brackets. *)
Definition byte_shown (binary : bool) (b : N) : text :=
  if binary then T "0b" ++ pad 8 (digits_of 8 2 b) else T "0x" ++ pad 2 (digits_of 8 16 b).
Definition port_shown (i : N) : text := repeat 32 (4 - List.length (digits_of 8 10 i)) ++ digits_of 8 10 i.
Definition read_line (binary : bool) (i : N) (d : list N) : text :=
  port_shown i ++ T " [" ++ join (T ",") (map (byte_shown binary) d) ++ T "]".

(** ** Flags *)
(** Every flag of [f] is in [s]; none is. *)
Definition has_all (s f : N) : Prop := forall i, member i f -> member i s.
Definition has_none (s f : N) : Prop := forall i, member i f -> ~ member i s.

(** ** Writes *)
(** What command [c] does from world [w]. *)
Definition deeds_of {St A} (c : world St -> world St * A) (w : world St) : list done :=
  flat_map deed (skipn (List.length (w_log w)) (w_log (fst (c w)))).
