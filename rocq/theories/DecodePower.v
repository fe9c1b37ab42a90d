(** Model of decode/src/power.rs. *)
From Verif Require Export Types.

(** decode/src/ident.rs patterns used by every decoder. *)
Definition is_sff (id : Identifier) : bool := benum_eqb id QsfpPlusSff8636 || benum_eqb id Qsfp28.
Definition is_cmis (id : Identifier) : bool := benum_eqb id QsfpPlusCmis || benum_eqb id QsfpDD.

(** decode/src/power.rs:17-28 *)
Inductive PowerControl := UseLpModePin | OverrideLpModePin (low_power : bool).

(** decode/src/power.rs:31-56 *)
Definition power_reads (id : Identifier) : outcome DecodeError (list MemoryRead) :=
  if is_sff id then r <-? ounwrap (read_new (PageSff SffLower) 93 1) ;; Ok [r]
  else if is_cmis id then r <-? ounwrap (read_new (PageCmis CmisLower) 26 1) ;; Ok [r]
  else Err (DeUnsupportedIdentifier id).

(** decode/src/power.rs:58-94 *)
Definition first_byte (reads : list (list N)) : outcome DecodeError N :=
  match reads with (b :: _) :: _ => Ok b | _ => Err DeParseFailed end.
Definition power_parse (id : Identifier) (reads : list (list N))
    : outcome DecodeError PowerControl :=
  if is_sff id then
    power <-? first_byte reads ;;
    Ok (if N.land power 1 =? 0 then UseLpModePin
        else OverrideLpModePin (negb (N.land power 2 =? 0)))
  else if is_cmis id then
    power <-? first_byte reads ;;
    Ok (if negb (N.land power 64 =? 0) then UseLpModePin
        else OverrideLpModePin (negb (N.land power 16 =? 0)))
  else Err (DeUnsupportedIdentifier id).
