(** Common definitions shared by all model files.  No proofs here. *)
From Coq Require Export List NArith ZArith Bool.
Export ListNotations.
#[global] Open Scope N_scope.

(** The three ways a Rust call can end: a value, an [Err], or a panic
    (slice index out of range, [unwrap]/[expect] on the wrong variant, [assert!],
    [unreachable!], arithmetic overflow in a checked build). *)
Inductive outcome (E A : Type) : Type :=
| Ok (a : A)
| Err (e : E)
| Panic.
Arguments Ok {E A} a.
Arguments Err {E A} e.
Arguments Panic {E A}.

(** [?] on a [Result] that may also panic. *)
Definition obind {E A B} (x : outcome E A) (f : A -> outcome E B) : outcome E B :=
  match x with
  | Ok a => f a
  | Err e => Err e
  | Panic => Panic
  end.

Definition omap {E A B} (f : A -> B) (x : outcome E A) : outcome E B :=
  obind x (fun a => Ok (f a)).

(** [.map_err(f)] *)
Definition omap_err {E F A} (f : E -> F) (x : outcome E A) : outcome F A :=
  match x with
  | Ok a => Ok a
  | Err e => Err (f e)
  | Panic => Panic
  end.

(** [.unwrap()] / [.expect()] on a [Result]. *)
Definition ounwrap {E F A} (x : outcome E A) : outcome F A :=
  match x with
  | Ok a => Ok a
  | Err _ | Panic => Panic
  end.

(** [.unwrap()] on an [Option]. *)
Definition opt_unwrap {E A} (x : option A) : outcome E A :=
  match x with
  | Some a => Ok a
  | None => Panic
  end.

(** [.collect::<Result<Vec<_>, _>>()] of a mapped iterator: stops at the first failure. *)
Fixpoint omapM {E A B} (f : A -> outcome E B) (l : list A) : outcome E (list B) :=
  match l with
  | [] => Ok []
  | x :: r => obind (f x) (fun y => obind (omapM f r) (fun ys => Ok (y :: ys)))
  end.

Declare Scope outcome_scope.
Notation "x <-? e1 ;; e2" := (obind e1 (fun x => e2))
  (at level 61, e1 at next level, right associativity) : outcome_scope.
#[global] Open Scope outcome_scope.

(** Fixed-width integers are [N] with these bounds. *)
Definition u8 (x : N) : bool := x <? 2 ^ 8.
Definition u16 (x : N) : bool := x <? 2 ^ 16.
Definition u32 (x : N) : bool := x <? 2 ^ 32.
Definition u64 (x : N) : bool := x <? 2 ^ 64.
Definition bytes (l : list N) : bool := forallb u8 l.

(** Length of a list as [N]. *)
Definition Nlen {A} (l : list A) : N := N.of_nat (length l).

(** [start..start+n] as a list, the Rust range iterator. *)
Fixpoint nrange (start : N) (n : nat) : list N :=
  match n with
  | O => []
  | S k => start :: nrange (start + 1) k
  end.

(** [slice.get(start..start+len)], [None] when out of range. *)
Definition slice {A} (l : list A) (start len : nat) : option (list A) :=
  if Nat.leb (start + len) (length l) then Some (firstn len (skipn start l)) else None.

(** [slice.chunks(n)]: pieces of [n] elements, the last may be shorter.  The fuel argument is
    the list length, which always suffices for [n > 0]. *)
Fixpoint chunks_fuel {A} (fuel n : nat) (l : list A) : list (list A) :=
  match fuel with
  | O => []
  | S k => match l with
           | [] => []
           | _ => firstn n l :: chunks_fuel k n (skipn n l)
           end
  end.
Definition chunks {A} (n : nat) (l : list A) : list (list A) := chunks_fuel (length l) n l.

(** [slice.chunks_exact(n)]: only the full pieces. *)
Definition chunks_exact {A} (n : nat) (l : list A) : list (list A) :=
  filter (fun c => Nat.eqb (length c) n) (chunks n l).

(** First binding of a key in an association list. *)
Fixpoint lookup {A} (i : N) (l : list (N * A)) : option A :=
  match l with
  | [] => None
  | (j, x) :: r => if i =? j then Some x else lookup i r
  end.
