(** Specification vocabulary for the printed datapaths (C67). *)
From Coq Require Import String.
From Verif Require Export SpecTable CliDatapath.
Import ListNotations.
Open Scope N_scope.

(** ** Reading a table *)
(** A table with a column for each lane: the [j]-th column as pairs of row name and cell. *)
Definition column (j : nat) (t : list (list text)) : option (list (text * text)) :=
  match t with
  | [] => None
  | _ :: rows =>
      fold_right (fun row acc =>
        match row, acc with
        | name :: cells, Some l => match nth_error cells j with Some c => Some ((name, c) :: l) | None => None end
        | _, _ => None
        end) (Some []) rows
  end.
(** One column for each lane, headed by the lane's number, holding its values and nothing else. *)
Definition lane_table {A} (number : A -> N) (values : A -> list (text * text)) (lanes : list A) (t : list (list text)) : Prop :=
  (exists rows, t = ([] :: map (fun k => T "Lane " ++ number_shown (number k)) lanes) :: rows /\
     Forall (fun row => List.length row = S (List.length lanes)) rows) /\
  forall j k, nth_error lanes j = Some k -> column j t = Some (values k).

(** ** The values *)
(** The description of a code in a table of SFF-8024. *)
Definition code_name (t : enum_table) (b : N) : text :=
  match lookup b (et_named t) with
  | Some x => x
  | None => match find (fun o => in_ranges b (snd o)) (et_other t) with
            | Some o => fst o ++ T " (0x" ++ hex_shown b ++ T ")"
            | None => []
            end
  end.
Definition ethernet_name (b : N) : text :=
  match b with
  | 1 => T "40G Active Cable" | 2 => T "40GBASE-LR4" | 4 => T "40GBASE-SR4" | 8 => T "40GBASE-CR4"
  | 16 => T "10GBASE-SR" | 32 => T "10GBASE-LR" | 64 => T "10GBASE-LRM"
  | _ => T "Unknown (0x" ++ hex_shown b ++ T ")"
  end.
Definition truth (b : bool) : text := if b then T "true" else T "false".
Definition if_supported (c : bool) (t : text) : text := if c then t else T "Unsupported".

(** SFF-8636 modules; lanes are counted from 0. *)
Definition sff_values (mem : memory) (k : N) : list (text * text) :=
  let b n i := truth (N.testbit (mem sff_low n) i) in
  [(T "Tx enabled", truth (negb (N.testbit (mem sff_low 86) k))); (T "Tx LOS", b 3 (4 + k)); (T "Tx LOL", b 5 (4 + k));
   (T "Tx CDR enabled", b 98 (4 + k)); (T "Tx adapt EQ fault", b 4 (4 + k)); (T "Tx fault", b 4 k);
   (T "Rx LOS", b 3 k); (T "Rx LOL", b 5 k); (T "Rx CDR enabled", b 98 k)].
Definition sff_block (mem : memory) (i : N) (block : list printed_item) : Prop :=
  exists t, block =
    [Line (T "Port " ++ number_shown i);
     Line (T "        Connector: " ++ code_name tbl_ConnectorType (mem (sff_up 0) 130));
     Line (T "    Specification: " ++
             (if mem (sff_up 0) 131 =? 128 then code_name tbl_ExtendedSpecificationComplianceCode (mem (sff_up 0) 192)
              else ethernet_name (mem (sff_up 0) 131)));
     Line []; Table t] /\
    lane_table (fun k => k) (sff_values mem) [0; 1; 2; 3] t.

(** CMIS modules; lanes are counted from 1 in the output, from 0 here.  [nib] gives the lane's state code, [unsup]
    the set of lanes that are not supported. *)
Definition state_name (n : N) : text :=
  match n mod 8 with
  | 1 => T "Deactivated" | 2 => T "Initializing" | 3 => T "Deinitializing" | 4 => T "Activated"
  | 5 => T "Tx turning on" | 6 => T "Tx turning off" | 7 => T "Initialized" | _ => []
  end.
Definition cmis_values (nib : memory -> N -> N) (mem : memory) (k : N) : list (text * text) :=
  let can n i := N.testbit (mem (cmis_up 1) n) i in
  let ctl n := N.testbit (mem p10 n) k in
  let flag n := N.testbit (mem p11 n) k in
  let pol x := if x : bool then T "Flipped" else T "Normal" in
  let off x := if x : bool then T "Disabled" else T "Enabled" in
  let out x := if x : bool then T "Valid" else T "Invalid" in
  [(T "State", state_name (nib mem k));
   (T "Tx enabled", if_supported (can 155 1) (truth (negb (ctl 130))));
   (T "Tx input polarity", if_supported (can 155 0) (pol (ctl 129)));
   (T "Tx auto-squelch", if_supported (can 155 2) (off (ctl 131)));
   (T "Tx force-squelch", if_supported (can 155 3) (truth (ctl 132)));
   (T "Tx output", out (flag 133));
   (T "Tx failure", if_supported (can 157 0) (truth (flag 135)));
   (T "Tx LOS", if_supported (can 157 1) (truth (flag 136)));
   (T "Tx LOL", if_supported (can 157 2) (truth (flag 137)));
   (T "Tx adaptive EQ fail", if_supported (can 157 3) (truth (flag 138)));
   (T "Rx enabled", if_supported (can 156 1) (truth (negb (ctl 138))));
   (T "Rx output polarity", if_supported (can 156 0) (pol (ctl 137)));
   (T "Rx auto-squelch", if_supported (can 156 2) (off (ctl 139)));
   (T "Rx output", out (flag 132));
   (T "Rx LOS", if_supported (can 158 1) (truth (flag 147)));
   (T "Rx LOL", if_supported (can 158 2) (truth (flag 148)))].
Definition media_name (mem : memory) (b : N) : text :=
  match mem cmis_low 85 with
  | 1 => code_name tbl_MmfMediaInterfaceId b ++ T " (MMF)"
  | 2 => code_name tbl_SmfMediaInterfaceId b ++ T " (SMF)"
  | 3 => code_name tbl_PassiveCopperMediaInterfaceId b ++ T " (Passive copper)"
  | 4 => code_name tbl_ActiveCableMediaInterfaceId b ++ T " (Active cable)"
  | 5 => code_name tbl_BaseTMediaInterfaceId b ++ T " (BASE-T)"
  | _ => []
  end.
(** The lines about application [a]: its lanes are those assigned to it, in order. *)
Definition application_block (nib : memory -> N -> N) (unsup : N) (mem : memory) (a : N) (block : list printed_item) : Prop :=
  exists t lanes, block =
    [Line (T "   Application ID: " ++ number_shown a);
     Line (T "  Supported lanes: [" ++
             join [44] (map (fun k => number_shown (k + 1)) (filter (fun k => negb (N.testbit unsup k)) [0; 1; 2; 3; 4; 5; 6; 7])) ++
             T "]");
     Line (T "   Host interface: " ++ code_name tbl_HostElectricalInterfaceId (mem cmis_low (82 + 4 * a)));
     Line (T "  Media interface: " ++ media_name mem (mem cmis_low (83 + 4 * a)));
     Table t; Line []] /\
    StronglySorted N.lt lanes /\ lanes <> [] /\ (forall k, In k lanes <-> in_use mem k /\ app_of mem k = a) /\
    lane_table (fun k => k + 1) (cmis_values nib mem) lanes t.
Definition cmis_block (nib : memory -> N -> N) (unsup : memory -> N) (mem : memory) (i : N) (block : list printed_item) : Prop :=
  exists apps blocks, block =
    [Line (T "Port " ++ number_shown i);
     Line (T "        Connector: " ++ code_name tbl_ConnectorType (mem (cmis_up 0) 203))] ++ List.concat blocks /\
    StronglySorted N.lt apps /\ (forall a, In a apps <-> exists k, in_use mem k /\ app_of mem k = a) /\
    Forall2 (application_block nib (unsup mem) mem) apps blocks.
Definition path_block (nib : memory -> N -> N) (unsup : memory -> N) (mem : memory) (i : N) (block : list printed_item) : Prop :=
  if sff_kind (kind_of mem) then sff_block mem i block else cmis_block nib unsup mem i block.
(** Blocks with an empty line between them. *)
Fixpoint apart (bs : list (list printed_item)) : list printed_item :=
  match bs with [] => [] | [b] => b | b :: r => b ++ Line [] :: apart r end.

(** The text of lines and cells. *)
Definition texts_of (x : printed_item) : list text := match x with Line t => [t] | Table rs => List.concat rs end.
