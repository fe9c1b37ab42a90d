(** Statement of C99: calls for several modules and calls for one. *)
From Verif Require Export SpecController.
Import ListNotations.
Open Scope N_scope.

(** A request without the modules it is for. *)
Definition bare (q : HostRequest) : HostRequest :=
  match q with
  | HRead _ rd => HRead 0 rd
  | HWrite _ wr => HWrite 0 wr
  | HStatus _ => HStatus 0
  | HAssertReset _ => HAssertReset 0
  | HDeassertReset _ => HDeassertReset 0
  | HAssertLpMode _ => HAssertLpMode 0
  | HDeassertLpMode _ => HDeassertLpMode 0
  | HEnablePower _ => HEnablePower 0
  | HDisablePower _ => HDisablePower 0
  | HClearPowerFault _ => HClearPowerFault 0
  | HLedState _ => HLedState 0
  | HExtendedStatus _ => HExtendedStatus 0
  | HClearDisableLatch _ => HClearDisableLatch 0
  | HManagementInterface _ x => HManagementInterface 0 x
  | HSetLedState _ l => HSetLedState 0 l
  | HMacAddrs => HMacAddrs
  end.

(** Modules that know nothing of each other: what the one in port [i], in state [x], answers to a request, and the
    state it is in then, both arbitrary. *)
Record bay (X : Type) := mkBay
  { by_verdict : N -> X -> HostRequest -> option (list N) -> verdict;
    by_next : N -> X -> HostRequest -> option (list N) -> X }.
Arguments by_verdict {X}. Arguments by_next {X}. Arguments mkBay {X}.
(** The SP that asks each of them. *)
Definition apart {X} (b : bay X) : honest (N -> X) :=
  mkHonest (fun s q d i => by_verdict b i (s i) (bare q) d)
           (fun s q d i => if N.testbit (request_modules q) i then by_next b i (s i) (bare q) d else s i).
(** Answers have the size asked for, and are values of their types. *)
Definition bay_ok {X} (b : bay X) : Prop := forall i x q d,
  match by_verdict b i x q d with
  | inl y => length y = request_unit q /\ bytes y = true /\
             match q with HLedState _ => hd 0 y < 3 | HExtendedStatus _ => le_value y < 512 | _ => True end
  | inr e => e < 256
  end.

(** The call [c] does to each module what it does to the module alone, from any world in which the module is in
    the same state, and reports the same of it. *)
Definition one_by_one {X P} (same : Result P -> Result P -> N -> Prop) (c : N -> ctl (St := N -> X) (Result P)) : Prop :=
  forall m w w' r, m < 2 ^ 64 -> c m w = (w', Ok r) -> forall i w0, member i m -> w_sp w0 i = w_sp w i ->
  exists w1 r1, c (2 ^ i) w0 = (w1, Ok r1) /\ w_sp w1 i = w_sp w' i /\ same r r1 i.
(** A call for two sets of modules does the same as a call for one and then one for the other. *)
Definition in_parts {X P} (same : Result P -> Result P -> N -> Prop) (c : N -> ctl (St := N -> X) (Result P)) : Prop :=
  forall m1 m2 w w' r, m1 < 2 ^ 64 -> m2 < 2 ^ 64 -> (forall i, member i m1 -> ~ member i m2) -> c (N.lor m1 m2) w = (w', Ok r) ->
  m1 <> 0 -> m2 <> 0 ->
  exists w1 r1 w2 r2, c m1 w = (w1, Ok r1) /\ c m2 w1 = (w2, Ok r2) /\
    (forall i, w_sp w2 i = w_sp w' i) /\ (forall i, member i m1 -> same r r1 i) /\ (forall i, member i m2 -> same r r2 i).
(** The same data or error; the same data, or some error. *)
Definition same_report {P} (r1 r2 : Result P) (i : N) : Prop :=
  (forall x, succeeds r1 i x <-> succeeds r2 i x) /\ (forall e, fails r1 i e <-> fails r2 i e).
Definition same_data {P} (r1 r2 : Result P) (i : N) : Prop :=
  (forall x, succeeds r1 i x <-> succeeds r2 i x) /\ (failed r1 i <-> failed r2 i).
(** The call returns for several modules exactly if it does for each alone. *)
Definition returns_together {X P} (c : N -> ctl (St := N -> X) (Result P)) : Prop :=
  forall m w, m < 2 ^ 64 -> m <> 0 -> ((exists w' r, c m w = (w', Ok r)) <-> forall i, member i m -> exists w' r, c (2 ^ i) w = (w', Ok r)).
Definition alike {X P} (same : Result P -> Result P -> N -> Prop) (c : N -> ctl (St := N -> X) (Result P)) : Prop :=
  one_by_one same c /\ in_parts same c /\ returns_together c.
