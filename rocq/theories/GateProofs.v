(** The gate in front of reads and writes, for any SP (C31). *)
From Verif Require Export ControllerProofs9.

Lemma verify_stops p m ids : (exists i id, at_port m ids i id /\ ~ speaks id p) ->
  exists i id, at_port m ids i id /\ ~ speaks id p /\
    verify_ids_for_page p m ids = Err (ETransceiver (TeInvalidInterfaceForModule i id (page_interface p))).
Proof.
  intros (i & id & Hi & Hn). unfold verify_ids_for_page.
  destruct (find (fun q => negb (ident_matches (page_interface p) (snd q))) (zip_data m ids)) as [[j jd]|] eqn:F.
  - apply find_some in F. destruct F as [Hj Hb]. exists j, jd. split; [exact Hj|]. split.
    + intros S. apply ident_matches_speaks in S. cbn [snd] in Hb. now rewrite S in Hb.
    + destruct p; reflexivity.
  - exfalso. apply Hn. pose proof (find_none _ _ F (i, id) Hi) as Hb. apply Bool.negb_false_iff in Hb. now apply ident_matches_speaks.
Qed.

Lemma gate_correct {St} (sp : St -> Rpc -> St * reply) (w w1 : world St) m page ids :
  m < 2 ^ 64 -> m <> 0 ->
  identifier sp m w = (w1, Ok ids) ->
  (exists i id, at_port (mr_modules ids) (mr_data ids) i id /\ ~ speaks id page) ->
  exists i id, at_port (mr_modules ids) (mr_data ids) i id /\ ~ speaks id page /\
    (forall off len, len <> 0 ->
       ctl_read sp m (mkRead page off len) w =
         (w1, Err (ETransceiver (TeInvalidInterfaceForModule i id (page_interface page))))) /\
    (forall off len data,
       ctl_write sp m (mkWrite page off len) data w =
         (w1, Err (ETransceiver (TeInvalidInterfaceForModule i id (page_interface page))))).
Proof.
  intros Hm H0 E H. destruct (verify_stops _ _ _ H) as (i & id & Hi & Hn & V).
  exists i, id. split; [exact Hi|]. split; [exact Hn|]. split.
  - intros off len Hl. unfold ctl_read. cbn [rd_len rd_page].
    replace (Nat.eqb (m_count m) 0) with false.
    2:{ symmetry. apply Nat.eqb_neq. rewrite count0 by now apply mask_ok_lt. exact H0. }
    apply N.eqb_neq in Hl. rewrite Hl. cbn [orb]. unfold cbind at 1. rewrite E.
    unfold cbind at 1, cret at 1. rewrite V. reflexivity.
  - intros off len data. unfold ctl_write. cbn [wr_page]. unfold cbind at 1. rewrite E.
    unfold cbind at 1, cret at 1. rewrite V. reflexivity.
Qed.
