(** Model of messages/src/module_id.rs: port sets as 64-bit masks and the helpers which keep
    per-module data aligned with them. *)
From Verif Require Export Base.

(** messages/src/module_id.rs:20-39: [pub struct ModuleId(pub u64)].  The mask itself. *)
Definition ModuleId := N.

(** A value of the Rust type, i.e. a mask of at most 64 bits. *)
Definition mask_ok (m : ModuleId) : bool := m <? 2 ^ 64.

(** messages/src/module_id.rs:45: [InvalidPort(index)]. *)
Inductive InvalidPort := mkInvalidPort (index : N).

(** messages/src/module_id.rs:54: [MAX_INDEX = u64::BITS]. *)
Definition MAX_INDEX : N := 64.

(** [!x] on u64. *)
Definition not64 (m : N) : N := N.ldiff (N.ones 64) m.

(** messages/src/module_id.rs:58-64 *)
Definition m_is_set (m : ModuleId) (index : N) : outcome InvalidPort bool :=
  if MAX_INDEX <=? index then Err (mkInvalidPort index)
  else Ok (negb (N.land m (N.shiftl 1 index) =? 0)).

(** messages/src/module_id.rs:68-75; returns the new mask instead of mutating. *)
Definition m_set (m : ModuleId) (index : N) : outcome InvalidPort ModuleId :=
  if MAX_INDEX <=? index then Err (mkInvalidPort index)
  else Ok (N.lor m (N.shiftl 1 index)).

(** messages/src/module_id.rs:79-86; returns the new mask instead of mutating. *)
Definition m_clear (m : ModuleId) (index : N) : outcome InvalidPort ModuleId :=
  if MAX_INDEX <=? index then Err (mkInvalidPort index)
  else Ok (N.land m (not64 (N.shiftl 1 index))).

(** messages/src/module_id.rs:91-100: the loop, with its accumulator [out]. *)
Fixpoint from_index_iter_loop (out : N) (l : list N) : outcome InvalidPort ModuleId :=
  match l with
  | [] => Ok out
  | index :: r => if MAX_INDEX <=? index then Err (mkInvalidPort index)
                  else from_index_iter_loop (N.lor out (N.shiftl 1 index)) r
  end.

(** messages/src/module_id.rs:105-107 *)
Definition from_indices (l : list N) : outcome InvalidPort ModuleId := from_index_iter_loop 0 l.

(** messages/src/module_id.rs:161-163: [contains].  The shift amount is not checked in the code;
    for an index of 64 or more it overflows: a panic in a checked build.  [m_contains] is the mask
    test used by every caller in the repository (their index is always below 64) and
    [m_contains_checked] includes the panic. *)
Definition m_contains (m : ModuleId) (ix : N) : bool := negb (N.land m (N.shiftl 1 ix) =? 0).
Definition m_contains_checked (m : ModuleId) (ix : N) : outcome InvalidPort bool :=
  if MAX_INDEX <=? ix then Panic else Ok (m_contains m ix).

(** messages/src/module_id.rs:110-112: [(0..64).filter(|i| self.is_set( *i).unwrap())]; [is_set]
    cannot fail below 64, so the unwrap is dropped. *)
Definition to_indices (m : ModuleId) : list N := filter (m_contains m) (nrange 0 64).

(** messages/src/module_id.rs:116-122 *)
Definition m_single (index : N) : outcome InvalidPort ModuleId :=
  if MAX_INDEX <=? index then Err (mkInvalidPort index) else Ok (N.shiftl 1 index).

(** [u64::count_ones]: number of one bits, from the binary representation. *)
Fixpoint pos_popcount (p : positive) : nat :=
  match p with
  | xH => 1
  | xO q => pos_popcount q
  | xI q => S (pos_popcount q)
  end%nat.
Definition popcount (m : N) : nat := match m with N0 => O | Npos p => pos_popcount p end.

(** messages/src/module_id.rs:125-127 *)
Definition m_count (m : ModuleId) : nat := popcount m.

(** messages/src/module_id.rs:130-132 *)
Definition m_is_empty (m : ModuleId) : bool := Nat.eqb (m_count m) 0.

(** messages/src/module_id.rs:135-147 *)
Definition m_all : ModuleId := N.ones 64.
Definition m_all_sidecar : ModuleId := 2 ^ 32 - 1.
Definition m_empty : ModuleId := 0.

(** messages/src/module_id.rs:150-152: [self.0 & !other.0] *)
Definition m_remove (m other : ModuleId) : ModuleId := N.land m (not64 other).

(** messages/src/module_id.rs:155-157 *)
Definition m_merge (m other : ModuleId) : ModuleId := N.lor m other.

(** messages/src/module_id.rs:166-168: true if [other] is a subset of [self]. *)
Definition m_is_subset (m other : ModuleId) : bool := m =? N.lor m other.

(** messages/src/module_id.rs:171-233: operators &, |, !. *)
Definition m_and (m other : ModuleId) : ModuleId := N.land m other.
Definition m_or (m other : ModuleId) : ModuleId := N.lor m other.
Definition m_not (m : ModuleId) : ModuleId := not64 m.

(** [modules.to_indices().zip(data)], the pairing used throughout. *)
Definition zip_data {A} (m : ModuleId) (data : list A) : list (N * A) :=
  combine (to_indices m) data.

(** messages/src/module_id.rs:280-297: the merge loop over the two peekable iterators, followed
    by draining whichever is left. *)
Fixpoint merge_loop {A} (f : list (N * A)) : list (N * A) -> list A :=
  fix go (s : list (N * A)) : list A :=
    match f, s with
    | [], _ => map snd s
    | _, [] => map snd f
    | (i, x) :: f', (j, y) :: s' =>
        match N.compare i j with
        | Lt => x :: merge_loop f' s
        | Gt => y :: go s'
        | Eq => y :: merge_loop f' s'
        end
    end.

(** messages/src/module_id.rs:269-300 *)
Definition merge_module_data {A} (first : ModuleId) (first_data : list A)
    (second : ModuleId) (second_data : list A) : ModuleId * list A :=
  (m_merge first second, merge_loop (zip_data first first_data) (zip_data second second_data)).

(** messages/src/module_id.rs:305-319 *)
Definition remove_module_data {A} (modules : ModuleId) (data : list A) (to_remove : ModuleId)
    : ModuleId * list A :=
  (m_remove modules to_remove,
   map snd (filter (fun p => negb (m_contains to_remove (fst p))) (zip_data modules data))).

(** messages/src/module_id.rs:324-330 *)
Definition keep_module_data {A} (modules : ModuleId) (data : list A) (to_keep : ModuleId)
    : ModuleId * list A :=
  remove_module_data modules data (not64 to_keep).

(** messages/src/module_id.rs:341-357.  [new_modules.set(ix)] cannot fail since every [ix]
    comes from [to_indices]; the fold below performs the same or. *)
Definition filter_module_data {A} (modules : ModuleId) (data : list A) (f : N -> A -> bool)
    : ModuleId * list A :=
  let kept := filter (fun p => f (fst p) (snd p)) (zip_data modules data) in
  (fold_left (fun m p => N.lor m (N.shiftl 1 (fst p))) kept m_empty, map snd kept).
