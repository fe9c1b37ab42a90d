(** Model of the commands of controller/src/bin/xcvradm.rs on top of the controller: addressing
    (1455-1516), status (960-1005, 1577-1685), raw reads and writes (1119-1330, 1687-1733) and the
    printed failures (1522-1530).  What [clap] does before [main] is not modelled beyond its value
    parsers (CliText.v).  An error of the tool itself is [None]; the context strings are dropped.
    Standard output is a list of lines; the lines of one command are printed in order. *)
From Coq Require Import String.
From Verif Require Export Controller LargeAccess StatusText CliText.
Import ListNotations.

(** [{:>w}] and [{:<w}] and [{}] of a number below 256. *)
Definition align_right (w : nat) (s : text) : text := repeat 32 (w - List.length s) ++ s.
Definition align_left (w : nat) (s : text) : text := s ++ repeat 32 (w - List.length s).
Definition show_u8 (n : N) : text :=
  if n <? 10 then [48 + n]
  else if n <? 100 then [48 + n / 10; 48 + n mod 10]
  else [48 + n / 100; 48 + n / 10 mod 10; 48 + n mod 10].
(** [{:08b}] *)
Definition bin08 (b : N) : text := map (fun k => if N.testbit b k then 49 else 48) [7; 6; 5; 4; 3; 2; 1; 0].

(** controller/src/bin/xcvradm.rs:229-270 *)
Inductive OutputKind (F : Type) :=
| OutDefault (header : bool)
| OutParseable (header : bool) (fields : list F) (separator : text).
Arguments OutDefault {F}. Arguments OutParseable {F}.
Definition display_header {F} (k : OutputKind F) : bool :=
  match k with OutDefault h => h | OutParseable h _ _ => h end.
(** controller/src/bin/xcvradm.rs:261-269, 273-289: the separator. *)
Definition output_kind {F} (parseable omit_header : bool) (fields : list F) (separator : option text) : OutputKind F :=
  if parseable
  then OutParseable (negb omit_header) fields (match separator with Some s => s | None => T ":" end)
  else OutDefault (negb omit_header).

(** controller/src/bin/xcvradm.rs:2349-2367; [name] is the clap name of a field. *)
Definition parseable_header {F} (name : F -> text) (fields : list F) (sep : text) : list text :=
  match fields with [] => [] | _ => [join sep (map name fields)] end.
(** The shape shared by the tables: a header, then one line for each module. *)
Definition table {F P} (title : text) (name : F -> text) (line : N -> P -> text) (field : N -> P -> F -> text)
    (k : OutputKind F) (items : list (N * P)) : list text :=
  (if display_header k
   then match k with OutDefault _ => [title] | OutParseable _ fs sep => parseable_header name fs sep end
   else []) ++
  match k with
  | OutDefault _ => map (fun p => line (fst p) (snd p)) items
  | OutParseable _ [] _ => []
  | OutParseable _ fs sep => map (fun p => join sep (map (field (fst p) (snd p)) fs)) items
  end.

(** controller/src/bin/xcvradm.rs:800-806 *)
Inductive ReadDataFields := FReadPort | FReadData.
(** controller/src/bin/xcvradm.rs:1698-1702, 1708 *)
Definition fmt_byte (binary : bool) (b : N) : text :=
  if binary then T "0b" ++ bin08 b else T "0x" ++ hex02 b.
Definition fmt_bytes (binary : bool) (d : list N) : text := join (T ",") (map (fmt_byte binary) d).
(** controller/src/bin/xcvradm.rs:1687-1733 *)
Definition print_read_data (r : Result (list N)) (binary : bool) (k : OutputKind ReadDataFields) : list text :=
  table (T "Port Data") (fun f => match f with FReadPort => T "port" | FReadData => T "data" end)
    (fun port d => align_right 4 (show_u8 port) ++ T " [" ++ fmt_bytes binary d ++ T "]")
    (fun port d f => match f with FReadPort => show_u8 port | FReadData => fmt_bytes binary d end)
    k (result_iter r).

(** controller/src/bin/xcvradm.rs:1522-1530: the lines on standard error; [show] is the [Display] of
    an error. *)
Definition print_failures {E} (show : E -> text) (f : FailedModules E) : list text :=
  if Nat.eqb (m_count (fm_modules f)) 0 then []
  else [T "Some operations failed, errors below"; T "Port Error"] ++
       map (fun p => align_right 4 (show_u8 (fst p)) ++ [32] ++ show (snd p)) (failed_iter f).

(** controller/src/bin/xcvradm.rs:292-306, 756-762 *)
Inductive StatusKind :=
| SkNormal
| SkLimited (with_ without_ : N)
| SkAll
| SkParseable (separator : text).
Inductive StatusFields := FStatusPort | FStatusStatus.
(** controller/src/bin/xcvradm.rs:970-991.  The warning on standard error is [status_warning] in CliMain. *)
Definition status_kind (with_ without_ : option N) (all parseable : bool) (separator : option text)
    : outcome unit StatusKind :=
  match with_, without_, all, parseable with
  | None, None, false, true => Ok (SkParseable (match separator with Some s => s | None => T ":" end))
  | None, None, false, false => Ok SkNormal
  | None, None, true, false => Ok SkAll
  | w, x, false, false =>
      let flags o := match o with Some f => f | None => 0 end in
      Ok (SkLimited (flags w) (flags x))
  | _, _, _, _ => Panic
  end.
(** controller/src/bin/xcvradm.rs:1622-1639: the head line and the test, [unreachable!] when both
    sets are empty. *)
Definition limited_title (w x : N) : outcome unit text :=
  match w =? 0, x =? 0 with
  | true, true => Panic
  | false, true => Ok (ext_status_display w)
  | true, false => Ok (T "!(" ++ ext_status_display x ++ T ")")
  | false, false => Ok (ext_status_display w ++ T " && !(" ++ ext_status_display x ++ T ")")
  end.
Definition limited_test (w x status : N) : bool :=
  match w =? 0, x =? 0 with
  | true, true => false
  | false, true => st_contains status w
  | true, false => negb (st_contains status x)
  | false, false => st_contains status w && negb (st_contains status x)
  end.
(** controller/src/bin/xcvradm.rs:1648-1664; each line of the head names one column. *)
Definition all_head : list text :=
  [T " +------------------------------------- Port";
   T " |   +--------------------------------- " ++ ext_status_display ST_PRESENT;
   T " |   |   +----------------------------- " ++ ext_status_display ST_ENABLED;
   T " |   |   |   +------------------------- " ++ ext_status_display ST_RESET;
   T " |   |   |   |   +--------------------- " ++ ext_status_display ST_LOW_POWER_MODE;
   T " |   |   |   |   |   +----------------- " ++ ext_status_display ST_INTERRUPT;
   T " |   |   |   |   |   |   +------------- " ++ ext_status_display ST_POWER_GOOD;
   T " |   |   |   |   |   |   |   +--------- " ++ ext_status_display ST_FAULT_POWER_TIMEOUT;
   T " |   |   |   |   |   |   |   |   +----- " ++ ext_status_display ST_FAULT_POWER_LOST;
   T " |   |   |   |   |   |   |   |   |   +- " ++ ext_status_display ST_DISABLED_BY_SP;
   T " v   v   v   v   v   v   v   v   v   v"].
(** controller/src/bin/xcvradm.rs:1666-1680.  [ExtendedStatus::all().iter()] gives the flags in
    declaration order. *)
Definition all_line (port status : N) : text :=
  align_right 2 (show_u8 port) ++ T "   " ++
  List.concat (map (fun f => align_left 4 [if st_contains status (snd f) then 49 else 48]) ext_status_flags).
(** controller/src/bin/xcvradm.rs:1577-1644 *)
Definition print_module_status (r : Result N) (omit_header : bool) (k : StatusKind) (output : list StatusFields)
    : outcome unit (list text) :=
  match k with
  | SkParseable sep =>
      Ok ((if omit_header then []
           else [join sep (map (fun f => match f with FStatusPort => T "port" | FStatusStatus => T "status" end) output)]) ++
          map (fun p => join sep (map (fun f => match f with
                                                | FStatusPort => show_u8 (fst p)
                                                | FStatusStatus => ext_status_display (snd p)
                                                end) output)) (result_iter r))
  | SkNormal =>
      Ok ((if omit_header then [] else [T "Port Status"]) ++
          map (fun p => align_right 4 (show_u8 (fst p)) ++ [32] ++ ext_status_display (snd p)) (result_iter r))
  | SkLimited w x =>
      title <-? limited_title w x ;;
      Ok ((T "Port " ++ title) ::
          map (fun p => align_right 4 (show_u8 (fst p)) ++ [32; if limited_test w x (snd p) then 49 else 48])
              (result_iter r))
  | SkAll => Ok (all_head ++ map (fun p => all_line (fst p) (snd p)) (result_iter r))
  end.

(** The page a read or write names: controller/src/bin/xcvradm.rs:1141-1147, 1189-1195 and
    1229-1249, 1297-1317. *)
Definition lower_page (sff cmis : bool) : outcome Error Page :=
  match sff, cmis with
  | true, false => Ok (PageSff SffLower)
  | false, true => Ok (PageCmis CmisLower)
  | _, _ => Panic
  end.
Definition upper_page (sff cmis : bool) (page : N) (bank : option N) : outcome Error Page :=
  match sff, cmis with
  | true, false => omap PageSff (omap_err error_of_mgmt (sff_upper_new page))
  | false, true =>
      omap (fun u => PageCmis (CmisUpper u))
           (omap_err error_of_mgmt (match bank with
                                    | Some b => cmis_new_banked page b
                                    | None => cmis_new_unbanked page
                                    end))
  | _, _ => Panic
  end.

Section Cli.
  Context {St : Type} (sp : St -> Rpc -> St * reply).
  Local Notation "x <-! c ;; f" := (cbind c (fun x => f))
    (at level 61, c at next level, right associativity).

  (** controller/src/bin/xcvradm.rs:1455-1516 *)
  Definition address_transceivers (t : Transceivers) : ctl ModuleId :=
    match t with
    | TAll => cret (Ok (2 ^ 32 - 1))
    | TPresent =>
        st <-! ctl_status sp m_all_sidecar ;;
        cret (Ok (fst (filter_module_data (mr_modules st) (mr_data st) (fun _ s => st_contains s ST_PRESENT))))
    | TPowerState state =>
        modes <-! power sp m_all_sidecar ;;
        cret (Ok (fst (filter_module_data (mr_modules modes) (mr_data modes)
               (fun _ p => match pm_state p, state with
                           | PowerOff, PowerOff | PowerLow, PowerLow | PowerHigh, PowerHigh => true
                           | _, _ => false
                           end))))
    | TKind kind =>
        ids <-! identifier sp m_all_sidecar ;;
        cret (Ok (fst (filter_module_data (mr_modules ids) (mr_data ids)
               (fun _ id => match management_interface id, kind with
                            | Ok Sff8636, Sff8636 | Ok Cmis, Cmis => true
                            | _, _ => false
                            end))))
    | TIndex p => cret (Ok p)
    end.

  (** controller/src/bin/xcvradm.rs:992-1009: the plain status when the extended one is not to be
      had. *)
  Definition status_result (modules : ModuleId) : ctl (Result N) := fun w =>
    match extended_status sp modules w with
    | (w', Ok v) => (w', Ok v)
    | (w', Panic) => (w', Panic)
    | (w', Err _) =>
        (r <-! ctl_status sp modules ;;
         cret (data <-? omapM (fun s => ounwrap (ext_of_status s)) (mr_data r) ;; Ok (mkResult (mr_modules r) data (mr_failures r)))) w'
    end.

  (** controller/src/bin/xcvradm.rs:1148-1157, 1251-1260 *)
  Fixpoint read_loop (modules : ModuleId) (rds : list MemoryRead) (result : Result (list N))
      : ctl (Result (list N)) :=
    match rds with
    | [] => cret (Ok result)
    | rd :: rest =>
        res <-! ctl_read sp modules rd ;;
        next <-! cret (opt_unwrap (result_append result res)) ;;
        read_loop modules rest next
    end.
  (** controller/src/bin/xcvradm.rs:1119-1163, 1211-1266: [None] when nothing is printed. *)
  Definition cmd_read (modules : ModuleId) (page : outcome Error Page) (offset len : N)
      : ctl (option (Result (list N))) :=
    if len =? 0 then cret (Ok None)
    else
      p <-! cret page ;;
      rds <-! cret (build_many_reads p offset len) ;;
      start <-! cret (opt_unwrap (result_success modules (repeat [] (m_count modules)))) ;;
      r <-! read_loop modules rds start ;;
      cret (Ok (Some r)).

  (** controller/src/bin/xcvradm.rs:1165-1192, 1268-1330, after the input was loaded: [data] is the
      outcome of [load_write_data].  [None] is an error of the tool itself. *)
  Definition cmd_write (modules : ModuleId) (page : outcome Error Page) (offset : N)
      (data : outcome unit (list N)) (w : world St) : world St * outcome (option Error) (Result unit) :=
    match data with
    | Panic => (w, Panic)
    | Err _ => (w, Err None)
    | Ok data =>
        if 255 <? Nlen data then (w, Err None)
        else
          let (w', r) := (p <-! cret page ;;
                          write <-! cret (omap_err error_of_mgmt (write_new p offset (Nlen data))) ;;
                          ctl_write sp modules write data) w in
          (w', omap_err Some r)
    end.
End Cli.
