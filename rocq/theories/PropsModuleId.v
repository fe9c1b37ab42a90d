(** Properties C01-C04: module sets and per-module data (messages/src/module_id.rs). *)
From Verif Require Import Tac Spec ModuleId ModuleIdProofs ModuleIdProps.

(** C01: is_set reports membership and rejects indices of 64 and above. *)
Theorem C01_is_set : forall m i,
  (i < 64 -> exists b, m_is_set m i = Ok b /\ (b = true <-> member i m)) /\
  (64 <= i -> m_is_set m i = Err (mkInvalidPort i)).
Proof. exact is_set_correct. Qed.
Print Assumptions C01_is_set.

(** C01: set adds exactly one index. *)
Theorem C01_set : forall m i,
  (i < 64 -> exists m', m_set m i = Ok m' /\ (forall j, member j m' <-> j = i \/ member j m)
                        /\ (m < 2 ^ 64 -> m' < 2 ^ 64)) /\
  (64 <= i -> m_set m i = Err (mkInvalidPort i)).
Proof. exact set_correct. Qed.
Print Assumptions C01_set.

(** C01: clear removes exactly one index. *)
Theorem C01_clear : forall m i, m < 2 ^ 64 ->
  (i < 64 -> exists m', m_clear m i = Ok m' /\ (forall j, member j m' <-> j <> i /\ member j m)
                        /\ m' < 2 ^ 64) /\
  (64 <= i -> m_clear m i = Err (mkInvalidPort i)).
Proof. exact clear_correct. Qed.
Print Assumptions C01_clear.

(** C01: from_indices contains exactly the listed indices, or names the first bad one. *)
Theorem C01_from_indices : forall l,
  (Forall (fun i => i < 64) l ->
     exists m, from_indices l = Ok m /\ m < 2 ^ 64 /\ forall j, member j m <-> In j l) /\
  (forall a i b, l = a ++ i :: b -> Forall (fun i => i < 64) a -> 64 <= i ->
     from_indices l = Err (mkInvalidPort i)).
Proof. exact from_indices_correct. Qed.
Print Assumptions C01_from_indices.

(** C01: to_indices lists the members in increasing order; from_indices inverts it; the count is
    the number of members. *)
Theorem C01_to_indices : forall m, m < 2 ^ 64 ->
  enumerates (to_indices m) (fun i => member i m) /\
  from_indices (to_indices m) = Ok m /\
  m_count m = length (to_indices m) /\
  (m_is_empty m = true <-> forall i, ~ member i m).
Proof. exact to_indices_correct. Qed.
Print Assumptions C01_to_indices.

(** C01: the named sets and single; contains agrees with is_set below 64. *)
Theorem C01_constants :
  (forall i, member i m_all <-> i < 64) /\
  (forall i, member i m_all_sidecar <-> i < 32) /\
  (forall i, ~ member i m_empty) /\
  (forall i, i < 64 -> exists m, m_single i = Ok m /\ forall j, member j m <-> j = i) /\
  (forall i, 64 <= i -> m_single i = Err (mkInvalidPort i)) /\
  (forall m i, i < 64 -> exists b, m_contains_checked m i = Ok b /\ (b = true <-> member i m)).
Proof. exact constants_correct. Qed.
Print Assumptions C01_constants.

Example C01_witness :
  from_indices [63; 5; 0; 5] = Ok 9223372036854775841 /\
  to_indices 9223372036854775841 = [0; 5; 63] /\ m_count 9223372036854775841 = 3%nat /\
  member 63 9223372036854775841 /\ from_indices [3; 64; 70] = Err (mkInvalidPort 64).
Proof. repeat split; vm_compute; reflexivity. Qed.

(** C01: unlike is_set, [contains] does not reject an index of 64 or more: it panics. *)
Theorem C01_contains_total_refuted : exists m i, i < 256 /\ m_contains_checked m i = Panic.
Proof. exact contains_panics. Qed.
Print Assumptions C01_contains_total_refuted.

(** C02: the operators are the set operations. *)
Theorem C02_set_algebra : forall a b, a < 2 ^ 64 -> b < 2 ^ 64 ->
  (forall i, member i (m_merge a b) <-> member i a \/ member i b) /\
  (forall i, member i (m_or a b) <-> member i a \/ member i b) /\
  (forall i, member i (m_and a b) <-> member i a /\ member i b) /\
  (forall i, member i (m_not a) <-> i < 64 /\ ~ member i a) /\
  (forall i, member i (m_remove a b) <-> member i a /\ ~ member i b) /\
  (m_is_subset a b = true <-> (forall i, member i b -> member i a)) /\
  (m_count (m_or a b) + m_count (m_and a b) = m_count a + m_count b)%nat /\
  m_merge a b < 2 ^ 64 /\ m_or a b < 2 ^ 64 /\ m_and a b < 2 ^ 64 /\ m_not a < 2 ^ 64 /\
  m_remove a b < 2 ^ 64.
Proof. exact set_algebra. Qed.
Print Assumptions C02_set_algebra.

(** C02: a mask is determined by its members. *)
Theorem C02_extensional : forall a b, (forall i, member i a <-> member i b) -> a = b.
Proof. exact mask_extensional. Qed.
Print Assumptions C02_extensional.

Example C02_witness : m_remove 13 (2 ^ 63 + 5) = 8 /\ m_is_subset 13 5 = true /\
  m_is_subset 5 13 = false /\ m_not (m_not 13) = 13.
Proof. repeat split; vm_compute; reflexivity. Qed.

(** C03: filtering keeps exactly the satisfying (port, datum) pairs, in order. *)
Theorem C03_filter : forall A m (d : list A) f m' d', m < 2 ^ 64 ->
  filter_module_data m d f = (m', d') ->
  m' < 2 ^ 64 /\ length d' = length (to_indices m') /\
  combine (to_indices m') d' = filter (fun p => f (fst p) (snd p)) (combine (to_indices m) d).
Proof. exact filter_correct. Qed.
Print Assumptions C03_filter.

Theorem C03_remove : forall A m (d : list A) r m' d', m < 2 ^ 64 ->
  length d = length (to_indices m) ->
  remove_module_data m d r = (m', d') ->
  m' < 2 ^ 64 /\ length d' = length (to_indices m') /\
  (forall i, member i m' <-> member i m /\ ~ member i r) /\
  (forall i x, In (i, x) (combine (to_indices m') d') <->
               In (i, x) (combine (to_indices m) d) /\ ~ member i r).
Proof. exact remove_correct. Qed.
Print Assumptions C03_remove.

Theorem C03_keep : forall A m (d : list A) k m' d', m < 2 ^ 64 -> k < 2 ^ 64 ->
  length d = length (to_indices m) ->
  keep_module_data m d k = (m', d') ->
  m' < 2 ^ 64 /\ length d' = length (to_indices m') /\
  (forall i, member i m' <-> member i m /\ member i k) /\
  (forall i x, In (i, x) (combine (to_indices m') d') <->
               In (i, x) (combine (to_indices m) d) /\ member i k).
Proof. exact keep_correct. Qed.
Print Assumptions C03_keep.

Example C03_witness :
  filter_module_data 2147483661 [10; 20; 30; 40] (fun i x => negb (i =? 2) && (10 <? x)) =
    (2147483656, [30; 40]) /\
  remove_module_data 2147483661 [10; 20; 30; 40] 9 = (2147483652, [20; 40]) /\
  keep_module_data 2147483661 [10; 20; 30; 40] 9 = (9, [10; 30]) /\
  length [10; 20; 30; 40] = length (to_indices 2147483661).
Proof. repeat split; vm_compute; reflexivity. Qed.

(** C04: merging is the union, the second argument winning on common ports. *)
Theorem C04_merge : forall A a (da : list A) b db m' d', a < 2 ^ 64 -> b < 2 ^ 64 ->
  length da = length (to_indices a) -> length db = length (to_indices b) ->
  merge_module_data a da b db = (m', d') ->
  m' < 2 ^ 64 /\ length d' = length (to_indices m') /\
  (forall i, member i m' <-> member i a \/ member i b) /\
  (forall i x, In (i, x) (combine (to_indices m') d') <->
               In (i, x) (combine (to_indices b) db) \/
               (In (i, x) (combine (to_indices a) da) /\ ~ member i b)).
Proof. exact merge_correct. Qed.
Print Assumptions C04_merge.

Example C04_witness :
  merge_module_data 2147483661 [10; 20; 30; 40] 12 [77; 78] = (2147483661, [10; 77; 78; 40]) /\
  merge_module_data 5 [0; 2] 2 [1] = (7, [0; 1; 2]).
Proof. split; vm_compute; reflexivity. Qed.
