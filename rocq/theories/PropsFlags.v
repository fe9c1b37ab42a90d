(** Property C89: status flags as text. *)
From Coq Require Import String.
From Verif Require Import SpecFlags FlagProofs FlagProofs2.
Import ListNotations.
Open Scope N_scope.

(** Which texts are flags, and which flags they are: of a status ... *)
Theorem C89_status : forall s v, status_from_str s = Some v <-> flag_text 8 8 s v.
Proof. exact status_text. Qed.
Print Assumptions C89_status.
(** ... and of an extended status, as after [--with] and [--without]. *)
Theorem C89_extended : forall s v, ext_status_from_str s = Some v <-> flag_text 9 32 s v.
Proof. exact ext_status_text. Qed.
Print Assumptions C89_extended.
(** How they are shown. *)
Theorem C89_shown : forall v, status_display v = flags_shown 8 v /\ ext_status_display v = flags_shown 9 v.
Proof. exact both_shown. Qed.
Print Assumptions C89_shown.
(** The title over a table of flags looked for tells which: read as flags it gives them back. *)
Theorem C89_title : forall w x, w < 2 ^ 32 -> x < 2 ^ 32 -> (w <> 0 \/ x <> 0) -> exists a b,
  flag_text 9 32 a w /\ flag_text 9 32 b x /\
  limited_title w x = Ok (if x =? 0 then a else if w =? 0 then T "!(" ++ b ++ T ")" else a ++ T " && !(" ++ b ++ T ")").
Proof. exact title_ok. Qed.
Print Assumptions C89_title.
(** Bits without a name can be asked for, but no module has them. *)
Theorem C89_strange : forall w x s i, s < 2 ^ 9 -> 9 <= i ->
  (member i w -> limited_test w x s = false) /\
  (member i x -> limited_test w x s = true <-> (w = 0 \/ has_all s w)).
Proof. exact strange_bits. Qed.
Print Assumptions C89_strange.
(** "The flags the tool accepts are flags that a module can have" is false. *)
Theorem C89_defined_refuted : exists s v, ext_status_from_str s = Some v /\
  forall status, status < 2 ^ 9 -> limited_test v 0 status = false.
Proof.
  exists (T "0x200"), 512. split; [reflexivity|]. intros status H. now apply (strange_bits 512 0 status 9 H).
Qed.
Print Assumptions C89_defined_refuted.

Example C89_witness :
  ext_status_from_str (T " PRESENT|0x2 | RESET |0x+80000000 ") = Some 0x80000007 /\
  status_from_str (T "ENABLED | 0xFF") = Some 255 /\ status_from_str (T "0x100") = None /\
  status_from_str (T "DISABLED_BY_SP") = None /\ ext_status_from_str (T "present") = None /\
  ext_status_from_str (T "RESET |") = None /\ ext_status_from_str (T " ") = Some 0 /\
  ext_status_display 0x80000a07 = T "PRESENT | ENABLED | RESET | 0x80000a00" /\
  limited_title 1 0x204 = Ok (T "PRESENT && !(RESET | 0x200)").
Proof. repeat split; vm_compute; reflexivity. Qed.
