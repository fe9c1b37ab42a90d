(** Specification vocabulary for writing back what the tool shows of memory (C102). *)
From Coq Require Import String.
From Verif Require Export SpecTool.
Import ListNotations.
Open Scope N_scope.

(** The bytes [d] as the tool shows them: [0x0a,0xff], or in binary. *)
Definition data_shown (binary : bool) (d : list N) : text := join (T ",") (map (byte_shown binary) d).
(** A printed line as [tr , ' '] passes it on, and as it is. *)
Definition spaced (t : text) : text := map (fun c => if c =? 44 then 32 else c) t ++ [10].
Definition as_is (t : text) : text := t ++ [10].
(** [--parseable --output data --omit-header] *)
Definition data_only (sep : option text) : ParsableArgs ReadDataFields := mkParsable true [FReadData] sep true.
Definition kind_shown (binary : bool) : InputKind := if binary then BinaryString else Hex.
(** How many bytes can be passed on this way. *)
Definition can_pass (binary : bool) : N := if binary then 46 else 102.
(** The tool reads [t] from standard input, told the kind of data or left to find it. *)
Definition typed (binary : bool) (t : text) (i : Input) : Prop :=
  (512 <= in_cap i)%nat /\ in_file i = None /\ (in_kind i = None \/ in_kind i = Some (kind_shown binary)) /\ in_stdin i = t.
(** The window of [len] bytes from [offset] on page [g] is in [y] as in [x]; outside it [y] is as [before]. *)
Definition restored (g : Page) (offset len : N) (x before y : slot) : Prop :=
  sl_status y = sl_status before /\ sl_led y = sl_led before /\
  forall q o, (reaches (mkWrite g offset len) q o -> sl_cell y q o = sl_cell x g o) /\
              (~ reaches (mkWrite g offset len) q o -> sl_cell y q o = sl_cell before q o).
