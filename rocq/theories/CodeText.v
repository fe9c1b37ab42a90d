(** Models of the remaining code tables and text forms of the decode crate: OUIs, Ethernet
    compliance codes and CMIS datapath states. *)
From Coq Require Import String.
From Verif Require Export Tables Types.
Import ListNotations.

(** [str::len]: bytes of the UTF-8 encoding. *)
Definition utf8_len (c : N) : N :=
  if c <? 0x80 then 1 else if c <? 0x800 then 2 else if c <? 0x10000 then 3 else 4.
Definition str_len (s : text) : N := fold_right (fun c n => utf8_len c + n) 0 s.

(** [str::splitn(n, c)]: at most [n] pieces, the last one keeps the remaining separators. *)
Fixpoint splitn (n : nat) (c : N) (s : text) : list text :=
  match n with
  | O => []
  | S O => [s]
  | S k => (fix go (cur s : text) :=
              match s with
              | [] => [rev cur]
              | x :: r => if x =? c then rev cur :: splitn k c r else go (x :: cur) r
              end) [] s
  end.

(** decode/src/ident.rs:82 *)
Record Oui := mkOui { oui0 : N; oui1 : N; oui2 : N }.

(** decode/src/ident.rs:84-107.  The loop stores the parts in order; [splitn] yields at most 3, so
    the array is never indexed out of bounds. *)
Definition oui_from_str (s : text) : outcome DecodeError Oui :=
  if 8 <? str_len s then Err DeInvalidOui
  else
    match omapM (fun p => match parse_u8 16 p with Some b => Ok b | None => Err DeInvalidOui end)
            (splitn 3 45 s) with
    | Ok [a; b; c] => Ok (mkOui a b c)
    | Ok _ => Err DeInvalidOui
    | Err e => Err e
    | Panic => Panic
    end.
(** decode/src/ident.rs:123-127 *)
Definition oui_display (o : Oui) : text :=
  hex02 (oui0 o) ++ [45] ++ hex02 (oui1 o) ++ [45] ++ hex02 (oui2 o).

(** decode/src/datapath.rs:151-164 and 173-191.  The code is a byte. *)
Definition eth_names : list (N * text) :=
  [(1, T "40G Active Cable"); (2, T "40GBASE-LR4"); (4, T "40GBASE-SR4"); (8, T "40GBASE-CR4");
   (16, T "10GBASE-SR"); (32, T "10GBASE-LR"); (64, T "10GBASE-LRM")].
Definition eth_display (x : N) : text :=
  match lookup x eth_names with
  | Some n => n
  | None => T "Unknown (0x" ++ hex02 x ++ T ")"
  end.
Definition eth_from_str (s : text) : option N := find_display eth_names s.

(** decode/src/datapath.rs:863-875 through decode/src/utils.rs:205-335 (the form without
    catch-alls): codes 1..7 in bits 2:0. *)
Inductive CmisDatapathState :=
| DpDeactivated | DpInit | DpDeinit | DpActivated | DpTxTurnOn | DpTxTurnOff | DpInitialized.
Definition dps_table : list (N * (CmisDatapathState * text)) :=
  [(1, (DpDeactivated, T "Deactivated")); (2, (DpInit, T "Initializing"));
   (3, (DpDeinit, T "Deinitializing")); (4, (DpActivated, T "Activated"));
   (5, (DpTxTurnOn, T "Tx turning on")); (6, (DpTxTurnOff, T "Tx turning off"));
   (7, (DpInitialized, T "Initialized"))].
(** decode/src/utils.rs:223-230: MASK = (0xff << 0) & (0xff >> 5) = 7; 256-264. *)
Definition dps_try_from (x : N) : outcome DecodeError CmisDatapathState :=
  match lookup (N.land x 7) dps_table with
  | Some (s, _) => Ok s
  | None => Err DeInvalidBitField
  end.
Definition dps_eqb (a b : CmisDatapathState) : bool :=
  match a, b with
  | DpDeactivated, DpDeactivated | DpInit, DpInit | DpDeinit, DpDeinit | DpActivated, DpActivated
  | DpTxTurnOn, DpTxTurnOn | DpTxTurnOff, DpTxTurnOff | DpInitialized, DpInitialized => true
  | _, _ => false
  end.
Definition dps_to_u8 (s : CmisDatapathState) : N :=
  match find (fun e => dps_eqb (fst (snd e)) s) dps_table with Some (c, _) => c | None => 0 end.
Definition dps_display (s : CmisDatapathState) : text :=
  match find (fun e => dps_eqb (fst (snd e)) s) dps_table with Some (_, (_, t)) => t | None => [] end.
Definition dps_from_str (t : text) : option CmisDatapathState :=
  match find (fun e => text_eqb (snd (snd e)) t) dps_table with Some (_, (s, _)) => Some s | None => None end.
