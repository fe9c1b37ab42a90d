(** Proofs about splitting large memory accesses (C14, C15). *)
From Verif Require Import Tac Spec SpecMessages SpecResults MessageProofs LargeAccess.

Lemma nrange_app s a b : nrange s (a + b) = nrange s a ++ nrange (s + N.of_nat a) b.
Proof.
  revert s; induction a as [|a IH]; intros s; cbn [Nat.add nrange app].
  - f_equal. lia.
  - rewrite IH. do 2 f_equal. f_equal. lia.
Qed.

Lemma access_ok_dec limit p o n : access_ok limit p o n \/ ~ access_ok limit p o n.
Proof.
  pose proof (access_generic tt limit p o n) as [H _].
  match type of H with ?r = _ <-> _ => destruct r as [[]|e|] end.
  - left. now apply H.
  - right. intros K. apply H in K. discriminate.
  - right. intros K. apply H in K. discriminate.
Qed.

Section Many.
  Context {A : Type} (build_one : Page -> N -> N -> outcome MgmtError A)
    (mk : Page -> N -> N -> A) (limit : N) (page : Page).
  Context (Hspec : forall o n, access_result (build_one page o n) (mk page o n) limit page o n).

  Let one stop size o : outcome Error A :=
    remainder <-? u8_unwrap (stop - o) ;;
    o' <-? u8_unwrap o ;;
    omap_err error_of_mgmt (build_one page o' (N.min size remainder)).

  (** The chunks, as offset and length. *)
  Fixpoint pieces (fuel : nat) (offset stop size : N) : list (N * N) :=
    match fuel with
    | O => []
    | S k => if offset <? stop
             then (offset, N.min size (stop - offset)) :: pieces k (offset + size) stop size
             else []
    end.

  Lemma one_spec stop size o : stop <= 256 -> o < stop -> stop - o < 256 ->
    (access_ok limit page o (N.min size (stop - o)) ->
       one stop size o = Ok (mk page o (N.min size (stop - o)))) /\
    (~ access_ok limit page o (N.min size (stop - o)) -> exists e, one stop size o = Err e).
  Proof.
    intros Hs Ho Hr. unfold one, u8_unwrap. replace (stop - o <? 256) with true by lia.
    replace (o <? 256) with true by lia. cbn [obind].
    destruct (Hspec o (N.min size (stop - o))) as [H1 H2]. split; intros H.
    - apply H1 in H. rewrite H. reflexivity.
    - assert (Hn : build_one page o (N.min size (stop - o)) <> Ok (mk page o (N.min size (stop - o))))
        by tauto.
      destruct (H2 Hn) as [[-> _]|[-> _]]; eexists; reflexivity.
  Qed.

  Lemma many_spec fuel stop size : forall offset, stop <= 256 -> stop - offset < 256 ->
    match omapM (one stop size) (step_by fuel offset stop size) with
    | Ok l => l = map (fun p => mk page (fst p) (snd p)) (pieces fuel offset stop size) /\
              Forall (fun p => access_ok limit page (fst p) (snd p)) (pieces fuel offset stop size)
    | Err _ => Exists (fun p => ~ access_ok limit page (fst p) (snd p))
                      (pieces fuel offset stop size)
    | Panic => False
    end.
  Proof.
    induction fuel as [|k IH]; intros offset Hs Hd; cbn [step_by pieces omapM].
    - split; [reflexivity|constructor].
    - destruct (offset <? stop) eqn:E; cbn [omapM]; [|split; [reflexivity|constructor]].
      destruct (one_spec stop size offset Hs ltac:(lia) ltac:(lia)) as [H1 H2].
      specialize (IH (offset + size) Hs ltac:(lia)).
      destruct (access_ok_dec limit page offset (N.min size (stop - offset))) as [Ha|Ha].
      + rewrite (H1 Ha). cbn [obind].
        destruct (omapM (one stop size) _) as [l|e|]; cbn [obind].
        * destruct IH as [-> IH]. split; [reflexivity|]. now constructor.
        * now apply Exists_cons_tl.
        * exact IH.
      + destruct (H2 Ha) as [e ->]. cbn [obind]. now apply Exists_cons_hd.
  Qed.

  Lemma pieces_tile fuel stop size : 0 < size -> forall offset, stop <= offset + N.of_nat fuel ->
    concat (map (fun p => nrange (fst p) (N.to_nat (snd p))) (pieces fuel offset stop size))
    = nrange offset (N.to_nat (stop - offset)).
  Proof.
    intros Hs. induction fuel as [|k IH]; intros offset Hf; cbn [pieces].
    - replace (stop - offset) with 0 by lia. reflexivity.
    - destruct (offset <? stop) eqn:E.
      2:{ replace (stop - offset) with 0 by lia. reflexivity. }
      cbn [map concat fst snd]. rewrite IH by lia.
      replace (N.to_nat (stop - offset))
        with (N.to_nat (N.min size (stop - offset)) + N.to_nat (stop - (offset + size)))%nat by lia.
      rewrite nrange_app. f_equal. destruct (N.min_spec size (stop - offset)) as [[Hm ->]|[Hm ->]].
      + f_equal. lia.
      + replace (stop - (offset + size)) with 0 by lia. reflexivity.
  Qed.

  Lemma pieces_bound fuel stop size : 0 < size -> forall offset p,
    In p (pieces fuel offset stop size) ->
    offset <= fst p /\ fst p + snd p <= stop /\ 1 <= snd p <= size.
  Proof.
    intros Hs. induction fuel as [|k IH]; intros offset p Hp; [destruct Hp|].
    cbn [pieces] in Hp. destruct (offset <? stop) eqn:E; [|destruct Hp].
    destruct Hp as [<-|Hp]; [cbn [fst snd]; lia|]. apply IH in Hp. lia.
  Qed.

  Lemma build_many_spec size offset len : 0 < size -> offset < 256 -> len < 256 ->
    match build_many build_one size page offset len with
    | Ok l => offset + len <= 256 /\ exists ps,
        l = map (fun p => mk page (fst p) (snd p)) ps /\
        Forall (fun p => access_ok limit page (fst p) (snd p) /\ snd p <= size) ps /\
        concat (map (fun p => nrange (fst p) (N.to_nat (snd p))) ps) = nrange offset (N.to_nat len)
    | Err e => (256 < offset + len /\ e = EByteOutOfRange (offset + len)) \/
               (offset + len <= 256 /\
                exists o n, offset <= o /\ o + n <= offset + len /\ 1 <= n <= size /\
                       (n < size -> o + n = offset + len) /\ (o = offset \/ offset + size <= o) /\
                       ~ access_ok limit page o n)
    | Panic => False
    end.
  Proof.
    intros Hs Ho Hl. unfold build_many. destruct (256 <? offset + len) eqn:E.
    { left. split; [lia|reflexivity]. }
    pose proof (many_spec (N.to_nat len) (offset + len) size offset ltac:(lia) ltac:(lia)) as H.
    unfold one in H. destruct (omapM _ _) as [l|e|].
    - destruct H as [-> H]. split; [lia|]. eexists. split; [reflexivity|]. split.
      + apply Forall_forall. intros p Hp. rewrite Forall_forall in H. split; [now apply H|].
        apply pieces_bound in Hp; [lia|assumption].
      + rewrite pieces_tile by lia. f_equal. lia.
    - right. split; [lia|].
      assert (G : forall fuel o0 stop, Exists (fun p => ~ access_ok limit page (fst p) (snd p))
                 (pieces fuel o0 stop size) -> exists o n, o0 <= o /\ o + n <= stop /\ 1 <= n <= size /\
                 (n < size -> o + n = stop) /\ (o = o0 \/ o0 + size <= o) /\ ~ access_ok limit page o n).
      { clear H. induction fuel as [|k IH]; intros o0 stop H; [inversion H|]. cbn [pieces] in H.
        destruct (o0 <? stop) eqn:E2; [|inversion H]. apply Exists_cons in H. destruct H as [H|H].
        - exists o0, (N.min size (stop - o0)). cbn [fst snd] in H.
          split; [lia|]. split; [lia|]. split; [lia|]. split; [lia|]. split; [now left|exact H].
        - apply IH in H. destruct H as (o & n & H1 & H2 & H3 & H4 & H5 & H6).
          exists o, n. split; [lia|]. split; [lia|]. split; [lia|]. split; [exact H4|].
          split; [right; lia|exact H6]. }
      exact (G _ _ _ H).
    - exact H.
  Qed.
End Many.

(** ** The four instances *)
Lemma split_read_pos p : 0 < split_read_size p. Proof. destruct p; reflexivity. Qed.
Lemma split_write_pos p : 0 < split_write_size p. Proof. destruct p; reflexivity. Qed.

Lemma ranges_map {A} (mk : Page -> N -> N -> A) page (ps : list (N * N)) (f : A -> list N) :
  (forall o n, f (mk page o n) = nrange o (N.to_nat n)) ->
  map f (map (fun p => mk page (fst p) (snd p)) ps)
  = map (fun p => nrange (fst p) (N.to_nat (snd p))) ps.
Proof. intros H. rewrite map_map. apply map_ext. intros [o n]. apply H. Qed.

Lemma build_many_reads_correct p offset len l : offset < 256 -> len < 256 ->
  build_many_reads p offset len = Ok l ->
  concat (map (fun r => nrange (rd_offset r) (N.to_nat (rd_len r))) l) = nrange offset (N.to_nat len) /\
  (forall r, In r l -> rd_page r = p /\ access_ok (read_limit p) p (rd_offset r) (rd_len r) /\
                  rd_len r <= piece_limit p).
Proof.
  intros Ho Hl E. unfold build_many_reads in E.
  pose proof (build_many_spec read_new mkRead (read_limit p) p (read_new_spec p)
                (split_read_size p) offset len (split_read_pos p) Ho Hl) as H.
  rewrite E in H. destruct H as (_ & ps & -> & Hf & Hc). split.
  - rewrite (ranges_map mkRead) by reflexivity. exact Hc.
  - intros r Hr. apply in_map_iff in Hr. destruct Hr as ([o n] & <- & Hp). cbn.
    rewrite Forall_forall in Hf. apply Hf in Hp. cbn in Hp. tauto.
Qed.

Lemma build_many_writes_correct p offset len l : offset < 256 -> len < 256 ->
  build_many_writes p offset len = Ok l ->
  concat (map (fun r => nrange (wr_offset r) (N.to_nat (wr_len r))) l) = nrange offset (N.to_nat len) /\
  (forall r, In r l -> wr_page r = p /\ access_ok (write_limit p) p (wr_offset r) (wr_len r) /\
                  wr_len r <= piece_limit p).
Proof.
  intros Ho Hl E. unfold build_many_writes in E.
  pose proof (build_many_spec write_new mkWrite (write_limit p) p (write_new_spec p)
                (split_write_size p) offset len (split_write_pos p) Ho Hl) as H.
  rewrite E in H. destruct H as (_ & ps & -> & Hf & Hc). split.
  - rewrite (ranges_map mkWrite) by reflexivity. exact Hc.
  - intros r Hr. apply in_map_iff in Hr. destruct Hr as ([o n] & <- & Hp). cbn.
    rewrite Forall_forall in Hf. apply Hf in Hp. cbn in Hp. tauto.
Qed.

Lemma build_many_too_far {A} (f : Page -> N -> N -> outcome MgmtError A) size p offset len :
  256 < offset + len -> build_many f size p offset len = Err (EByteOutOfRange (offset + len)).
Proof. intros H. unfold build_many. now replace (256 <? offset + len) with true by lia. Qed.

Lemma build_many_reads_no_panic p offset len : offset < 256 -> len < 256 ->
  build_many_reads p offset len <> Panic.
Proof.
  intros Ho Hl E. unfold build_many_reads in E.
  pose proof (build_many_spec read_new mkRead (read_limit p) p (read_new_spec p)
                (split_read_size p) offset len (split_read_pos p) Ho Hl) as H.
  rewrite E in H. exact H.
Qed.
Lemma build_many_writes_no_panic p offset len : offset < 256 -> len < 256 ->
  build_many_writes p offset len <> Panic.
Proof.
  intros Ho Hl E. unfold build_many_writes in E.
  pose proof (build_many_spec write_new mkWrite (write_limit p) p (write_new_spec p)
                (split_write_size p) offset len (split_write_pos p) Ho Hl) as H.
  rewrite E in H. exact H.
Qed.

Lemma in_page_end p k : in_page p k -> k <= 255.
Proof.
  unfold in_page. rewrite <- is_lower_spec. destruct (is_lower p); intros [H1 H2];
    [specialize (H1 eq_refl)|specialize (H2 ltac:(discriminate))]; lia.
Qed.

Lemma build_many_reads_complete p offset len : 1 <= len -> len < 256 ->
  (forall k, offset <= k < offset + len -> in_page p k) ->
  exists l, build_many_reads p offset len = Ok l.
Proof.
  intros H1 H2 Hin. pose proof (in_page_end p _ (Hin (offset + len - 1) ltac:(lia))) as He.
  pose proof (build_many_spec read_new mkRead (read_limit p) p (read_new_spec p)
                (split_read_size p) offset len (split_read_pos p) ltac:(lia) H2) as H.
  unfold build_many_reads. destruct (build_many _ _ _ _ _) as [l|e|]; [eauto| |destruct H].
  exfalso. destruct H as [[H _]|(_ & o & n & Ho & Hn & Hs & _ & _ & Hna)]; [lia|]. apply Hna. split.
  - destruct p; cbn in *; lia.
  - intros k Hk. apply Hin. lia.
Qed.

Lemma build_many_writes_complete p offset len : 1 <= len -> len < 256 ->
  (iface p = Sff8636 -> len <= 4) ->
  (forall k, offset <= k < offset + len -> in_page p k) ->
  exists l, build_many_writes p offset len = Ok l.
Proof.
  intros H1 H2 Hi Hin. pose proof (in_page_end p _ (Hin (offset + len - 1) ltac:(lia))) as He.
  pose proof (build_many_spec write_new mkWrite (write_limit p) p (write_new_spec p)
                (split_write_size p) offset len (split_write_pos p) ltac:(lia) H2) as H.
  unfold build_many_writes. destruct (build_many _ _ _ _ _) as [l|e|]; [eauto| |destruct H].
  exfalso. destruct H as [[H _]|(_ & o & n & Ho & Hn & Hs & _ & _ & Hna)]; [lia|]. apply Hna. split.
  - destruct p; cbn in *; [specialize (Hi eq_refl)|]; lia.
  - intros k Hk. apply Hin. lia.
Qed.

Lemma build_many_sff_writes_fail q offset len : 4 < len -> offset + len <= 256 -> len < 256 ->
  exists e, build_many_writes (PageSff q) offset len = Err e.
Proof.
  intros H1 H2 H3. unfold build_many_writes, build_many. cbn [split_write_size].
  replace (256 <? offset + len) with false by lia.
  destruct (N.to_nat len) as [|k] eqn:Ek; [lia|]. cbn [step_by].
  replace (offset <? offset + len) with true by lia. cbn [omapM].
  unfold u8_unwrap at 1. replace (offset + len - offset <? 256) with true by lia. cbn [obind].
  unfold u8_unwrap at 1. replace (offset <? 256) with true by lia. cbn [obind].
  destruct (write_new_spec (PageSff q) offset (N.min 64 (offset + len - offset))) as [Hs Hr].
  assert (Hn : write_new (PageSff q) offset (N.min 64 (offset + len - offset)) <>
               Ok (mkWrite (PageSff q) offset (N.min 64 (offset + len - offset)))).
  { intros K. apply Hs in K. destruct K as [K _]. cbn in K. lia. }
  destruct (Hr Hn) as [[-> _]|[-> _]]; cbn; eauto.
Qed.
