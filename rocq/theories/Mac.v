(** Model of messages/src/mac.rs: MAC address ranges. *)
From Verif Require Export Base.

(** A MAC address [[u8; 6]]. *)
Record Mac := mkMac { mac0 : N; mac1 : N; mac2 : N; mac3 : N; mac4 : N; mac5 : N }.

Definition mac_bytes (m : Mac) : list N := [mac0 m; mac1 m; mac2 m; mac3 m; mac4 m; mac5 m].
Definition mac_ok (m : Mac) : bool := forallb u8 (mac_bytes m).

(** messages/src/mac.rs:37-55, variants in declaration order. *)
Inductive BadMacAddrReason := SpansMultipleOuis | ZeroStrideOrCount | MulticastBaseAddr.

(** messages/src/mac.rs:16-21 *)
Record BadMacAddrRange := mkBadRange
  { br_reason : BadMacAddrReason; br_base : Mac; br_count : N; br_stride : N }.

(** messages/src/mac.rs:59-70 *)
Record MacAddrs := mkMacAddrs { ma_base : Mac; ma_count : N; ma_stride : N }.

(** [u32::from_be_bytes] / [to_be_bytes] *)
Definition be32 (a b c d : N) : N := ((a * 256 + b) * 256 + c) * 256 + d.
Definition be32_byte (n : N) (k : N) : N := (n / 256 ^ (3 - k)) mod 256.

(** messages/src/mac.rs:79-116 *)
Definition mac_addrs_new (base : Mac) (count stride : N) : outcome BadMacAddrRange MacAddrs :=
  if (count =? 0) || (stride =? 0) then Err (mkBadRange ZeroStrideOrCount base count stride)
  else if negb (N.land (mac0 base) 1 =? 0)
  then Err (mkBadRange MulticastBaseAddr base count stride)
  else
    let base_n := be32 (mac2 base) (mac3 base) (mac4 base) (mac5 base) in
    let offset := count * stride in
    (* checked_add *)
    let last := base_n + offset in
    if (last <? 2 ^ 32) && (be32_byte last 0 =? mac2 base)
    then Ok (mkMacAddrs base count stride)
    else Err (mkBadRange SpansMultipleOuis base count stride).

(** messages/src/mac.rs:142-172.  [base_n + offset] is an unchecked u32 addition: it panics in a
    checked build when it overflows. *)
Definition mac_nth (m : MacAddrs) (n : N) : outcome unit (option Mac) :=
  if ma_count m <=? n then Ok None
  else
    let base := ma_base m in
    let base_n := be32 (mac2 base) (mac3 base) (mac4 base) (mac5 base) in
    let offset := n * ma_stride m in
    let new_n := base_n + offset in
    if 2 ^ 32 <=? new_n then Panic
    else Ok (Some (mkMac (mac0 base) (mac1 base) (mac2 base)
                         (be32_byte new_n 1) (be32_byte new_n 2) (be32_byte new_n 3))).

(** messages/src/mac.rs:134-139, 182-194: the iterator collected into a list.  [fuel] bounds the
    number of [next] calls; u16 counts need at most 65536. *)
Fixpoint mac_iter_from (fuel : nat) (m : MacAddrs) (current : N) : outcome unit (list Mac) :=
  match fuel with
  | O => Ok []
  | S k => x <-? mac_nth m current ;;
           match x with
           | None => Ok []
           | Some a => r <-? mac_iter_from k m (current + 1) ;; Ok (a :: r)
           end
  end.
Definition mac_iter (m : MacAddrs) : outcome unit (list Mac) :=
  mac_iter_from (N.to_nat (ma_count m + 1)) m 0.
