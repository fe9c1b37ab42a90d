(** A concrete SP with fixed module contents, used in examples and counterexamples. *)
From Verif Require Export SpecController ControllerProofs8.

(** What each port answers: a status byte, memory, and error codes for refused requests. *)
Record board := mkBoard
  { b_status : N -> N;
    b_mem : N -> Page -> N -> N;
    b_fail : HostRequest -> N -> option N }.
Definition board_verdict (b : board) (q : HostRequest) (i : N) : verdict :=
  match b_fail b q i with
  | Some e => inr (e mod 256)
  | None =>
      match q with
      | HRead _ rd => inl (map (fun k => b_mem b i (rd_page rd) (rd_offset rd + k) mod 256)
                               (nrange 0 (N.to_nat (rd_len rd))))
      | HStatus _ => inl [b_status b i mod 256]
      | HLedState _ => inl [0]
      | HExtendedStatus _ => inl [0; 0; 0; 0]
      | _ => inl []
      end
  end.
Definition board_sp (b : board) : honest unit :=
  mkHonest (fun _ q _ i => board_verdict b q i) (fun s _ _ => s).
Definition w0 : world unit := mkWorld tt 0 [].
(** Errors on reads do not depend on the other modules of the request. *)
Definition fail_each (b : board) : Prop :=
  forall m m' rd i, b_fail b (HRead m rd) i = b_fail b (HRead m' rd) i.
Definition board_mem (b : board) (i : N) (rd : MemoryRead) : verdict := board_verdict b (HRead 0 rd) i.

Lemma board_ok b : honest_ok (board_sp b).
Proof.
  intros s q d i. cbn [board_sp hs_verdict]. unfold board_verdict. destruct (b_fail b q i) as [e|].
  - apply N.mod_lt. discriminate.
  - assert (Hb : forall x, (x mod 256 <? 256) = true) by (intros x; apply N.ltb_lt, N.mod_lt; discriminate).
    destruct q; try (split; reflexivity).
    + split; [now rewrite map_length, nrange_length|].
      unfold bytes. apply forallb_forall. intros x Hx. apply in_map_iff in Hx. destruct Hx as (k & <- & _). exact (Hb _).
    + split; [reflexivity|]. unfold bytes. cbn [forallb]. unfold u8. now rewrite Hb.
Qed.
Lemma board_steady b : steady (board_sp b) (fun q _ i => board_verdict b q i).
Proof. intros s q d i. reflexivity. Qed.
Lemma board_reads b s : fail_each b -> reads_as (board_sp b) s (board_mem b).
Proof.
  intros H before m rd i. cbn [board_sp hs_verdict]. unfold board_mem, board_verdict. now rewrite (H m 0 rd i).
Qed.

(** Module memory: identifier and power control bytes. *)
Definition mem_of (id : N -> N) (sff : N -> N) (cmis : N -> N) (i : N) (p : Page) (k : N) : N :=
  if k =? 0 then id i else if k =? 93 then sff i else if k =? 26 then cmis i else 65 + i.
Definition none_fail (q : HostRequest) (i : N) : option N := None.
