(** Model of controller/src/large_access.rs. *)
From Verif Require Export Types.

(** [LargeMemoryAccess::SIZE] for reads and writes: controller/src/large_access.rs:66, 75 (both
    64 for SFF-8636), 83, 91 (MAX_READ_SIZE / MAX_WRITE_SIZE for CMIS). *)
Definition split_read_size (p : Page) : N := match p with PageSff _ => 64 | PageCmis _ => 8 end.
Definition split_write_size (p : Page) : N := match p with PageSff _ => 64 | PageCmis _ => 8 end.

(** [(offset..stop).step_by(size)]: the fuel is the length of the range. *)
Fixpoint step_by (fuel : nat) (offset stop size : N) : list N :=
  match fuel with
  | O => []
  | S k => if offset <? stop then offset :: step_by k (offset + size) stop size else []
  end.

(** controller/src/large_access.rs:41-61.  [u8::try_from(..).unwrap()] panics on 256 or more. *)
Definition u8_unwrap {E} (x : N) : outcome E N := if x <? 256 then Ok x else Panic.
Definition build_many {A} (build_one : Page -> N -> N -> outcome MgmtError A) (size : N)
    (page : Page) (offset len : N) : outcome Error (list A) :=
  let stop := offset + len in
  if 256 <? stop then Err (EByteOutOfRange stop)
  else
    omapM (fun new_offset =>
             remainder <-? u8_unwrap (stop - new_offset) ;;
             o <-? u8_unwrap new_offset ;;
             omap_err error_of_mgmt (build_one page o (N.min size remainder)))
          (step_by (N.to_nat len) offset stop size).

Definition build_many_reads (p : Page) (offset len : N) : outcome Error (list MemoryRead) :=
  build_many read_new (split_read_size p) p offset len.
Definition build_many_writes (p : Page) (offset len : N) : outcome Error (list MemoryWrite) :=
  build_many write_new (split_write_size p) p offset len.
