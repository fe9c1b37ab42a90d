(** Why calls fail (C77). *)
From Verif Require Export ControllerProofs9 SpecCause.

Section Causes.
  Context {St : Type} (sp : St -> Rpc -> St * reply).
  Implicit Type w : world St.

  Lemma state_after_app l l' : forall s, state_after sp s (l ++ l') = state_after sp (state_after sp s l) l'.
  Proof. induction l as [|[r|t] l IH]; intros s; cbn; auto. Qed.
  Lemma all_answered_app l l' : forall s,
    all_answered sp s (l ++ l') <-> all_answered sp s l /\ all_answered sp (state_after sp s l) l'.
  Proof.
    induction l as [|[r|t] l IH]; intros s; cbn [app all_answered state_after]; [tauto| |apply IH].
    rewrite IH. tauto.
  Qed.

  Lemma acc_ret {A} (own : Error -> Prop) (o : outcome Error A) w :
    match o with Err e => own e | _ => True end -> accounted sp own (cret o) w.
  Proof.
    intros H. exists []. cbn. rewrite app_nil_r. split; [reflexivity|]. split; [reflexivity|].
    destruct o; [exact I| |exact I]. left. split; [exact I|exact H].
  Qed.
  Lemma acc_sleep (own : Error -> Prop) t w : accounted sp own (sleep t) w.
  Proof. exists [ASleep t]. cbn. auto. Qed.
  Lemma acc_bind {A B} own (c : ctl (St := St) A) (f : A -> ctl (St := St) B) w :
    accounted sp own c w -> (forall x w', c w = (w', Ok x) -> accounted sp own (f x) w') ->
    accounted sp own (cbind c f) w.
  Proof.
    intros (l & L & S & H) F. unfold accounted, cbind. destruct (c w) as [w' o] eqn:E. cbn [fst snd] in *.
    destruct o as [x|e|].
    - destruct (F x w' eq_refl) as (l' & L' & S' & H'). exists (l ++ l'). rewrite L', L, app_assoc.
      split; [reflexivity|]. rewrite state_after_app, <- S. split; [exact S'|].
      destruct (snd (f x w')) as [y|e|]; [| |exact I].
      + apply all_answered_app. rewrite <- S. auto.
      + destruct H' as [[G O]|(l1 & r & q & -> & G & B1 & B2)].
        * left. split; [|exact O]. apply all_answered_app. rewrite <- S. auto.
        * right. exists (l ++ l1), r, q. rewrite app_assoc. split; [reflexivity|].
          split; [apply all_answered_app; rewrite <- S; auto|]. split; [exact B1|].
          rewrite state_after_app, <- S. exact B2.
    - exists l. cbn [fst snd]. auto.
    - exists l. cbn [fst snd]. auto.
  Qed.
  Lemma acc_weaken {A} (own own' : Error -> Prop) (c : ctl (St := St) A) w :
    (forall e, own e -> own' e) -> accounted sp own c w -> accounted sp own' c w.
  Proof.
    intros W (l & L & S & H). exists l. split; [exact L|]. split; [exact S|].
    destruct (snd (c w)) as [x|e|]; [exact H| |exact I]. destruct H as [[G O]|H]; [left; auto|right; exact H].
  Qed.

  (** A request and the handling of its answer. *)
  Lemma acc_rpc {A} (own : Error -> Prop) q d (k : Rpc -> outcome Error A) w :
    (forall resp v, msg_body (rpc_message resp) = BSpResponse v -> answers q v = true ->
       match k resp with Err e => blames q (Ok resp) e | _ => True end) ->
    (forall resp, (forall v, msg_body (rpc_message resp) = BSpResponse v -> answers q v = false) ->
       k resp = Err (EUnexpectedMessage (msg_body (rpc_message resp)))) ->
    accounted sp own (cbind (rpc sp q d) (fun resp => cret (k resp))) w.
  Proof.
    intros Hr Hw. unfold accounted, cbind, rpc. destruct (next_header (w_counter w) KHostRequest) as [c h].
    set (r := mkRpc h (message_new (BHostRequest q)) d). destruct (sp (w_sp w) r) as [s x] eqn:E.
    exists [ASend r].
    assert (Sx : s = state_after sp (w_sp w) [ASend r]) by (cbn; now rewrite E).
    assert (Blame : forall e, blames q x e ->
      all_answered sp (w_sp w) [ASend r] /\ own e \/
      (exists l' r0 q0, [ASend r] = l' ++ [ASend r0] /\ all_answered sp (w_sp w) l' /\
         msg_body (rpc_message r0) = BHostRequest q0 /\ blames q0 (snd (sp (state_after sp (w_sp w) l') r0)) e)).
    { intros e B. right. exists [], r, q. split; [reflexivity|]. split; [exact I|]. split; [reflexivity|].
      cbn [state_after]. now rewrite E. }
    destruct x as [resp|e|]; cbn [fst snd w_log w_sp cret].
    - split; [reflexivity|]. split; [exact Sx|].
      assert (Kind : (exists v, msg_body (rpc_message resp) = BSpResponse v /\ answers q v = true) \/
                     (forall v, msg_body (rpc_message resp) = BSpResponse v -> answers q v = false)).
      { destruct (msg_body (rpc_message resp)) as [| |v| |]; try (right; congruence).
        destruct (answers q v) eqn:Ea; [left; eauto|right]. intros v' [= <-]. exact Ea. }
      destruct Kind as [(v & Ev & Ea)|Hk].
      + specialize (Hr resp v Ev Ea). destruct (k resp) as [y|e|]; [| |exact I].
        * cbn. split; [|exact I]. exists q, resp, v. rewrite E. auto.
        * apply Blame. exact Hr.
      + rewrite (Hw resp Hk). apply Blame. right. exists resp. split; [reflexivity|]. left. auto.
    - split; [reflexivity|]. split; [exact Sx|]. apply Blame. now left.
    - split; [reflexivity|]. split; [exact Sx|]. exact I.
  Qed.

  Lemma bind_ext {A B} (c : ctl (St := St) A) (f g : A -> ctl (St := St) B) own w :
    (forall x w', f x w' = g x w') -> accounted sp own (cbind c g) w -> accounted sp own (cbind c f) w.
  Proof.
    intros E. replace (accounted sp own (cbind c f) w) with (accounted sp own (cbind c g) w); [auto|].
    unfold accounted, cbind. destruct (c w) as [w' [x|e|]]; [|reflexivity..]. now rewrite E.
  Qed.

  (** Outcomes that are never errors. *)
  Definition no_err {E A} (o : outcome E A) : Prop := match o with Err _ => False | _ => True end.
  Lemma no_err_bind {E A B} (o : outcome E A) (f : A -> outcome E B) :
    no_err o -> (forall x, no_err (f x)) -> no_err (obind o f).
  Proof. intros Ho Hf. destruct o; [apply Hf|contradiction|exact I]. Qed.
  Lemma no_err_opt {E A} (x : option A) : no_err (E := E) (opt_unwrap x).
  Proof. now destruct x. Qed.
  Lemma no_err_unwrap {E F A} (x : outcome F A) : no_err (E := E) (ounwrap x).
  Proof. now destruct x. Qed.
  Lemma no_err_map {E A B} (f : A -> outcome E B) l : (forall x, no_err (f x)) -> no_err (omapM f l).
  Proof.
    intros H. induction l as [|x l IH]; [exact I|]. cbn [omapM]. apply no_err_bind; [apply H|]. intros y.
    apply no_err_bind; [exact IH|]. intros ys. exact I.
  Qed.
  Lemma no_err_split {E} n l : no_err (E := E) (split_at n l).
  Proof. unfold split_at. now destruct (Nat.leb _ _). Qed.
  Lemma no_err_ext n : forall l, no_err (ext_status_loop n l).
  Proof.
    induction n as [|n IH]; intros l; [exact I|]. cbn [ext_status_loop]. destruct (dec_ext_status l) as [[d r]|]; [|exact I].
    apply no_err_bind; [apply IH|]. intros ds. exact I.
  Qed.

  (** Errors of handling an answer are errors of decoding its error list. *)
  Definition proto_err {A} (o : outcome Error A) : Prop :=
    match o with Err e => exists pe, e = EProtocol pe | _ => True end.
  Lemma proto_of_no {A} (o : outcome Error A) : no_err o -> proto_err o.
  Proof. now destruct o. Qed.
  Lemma proto_bind {A B} (o : outcome Error A) (f : A -> outcome Error B) :
    proto_err o -> (forall x, proto_err (f x)) -> proto_err (obind o f).
  Proof. intros Ho Hf. destruct o; [apply Hf|exact Ho|exact I]. Qed.
  Lemma proto_hw f d : proto_err (ctl_hw_errors f d).
  Proof.
    unfold ctl_hw_errors. destruct (deserialize_hw_errors f d) as [x|e|]; cbn; [exact I| |exact I]. now exists e.
  Qed.
  Lemma proto_blames {A} q resp v (o : outcome Error A) :
    msg_body (rpc_message resp) = BSpResponse v -> answers q v = true -> proto_err o ->
    match o with Err e => blames q (Ok resp) e | _ => True end.
  Proof.
    intros Ev Ea H. destruct o as [x|e|]; [exact I| |exact I]. destruct H as [pe ->]. right. exists resp.
    split; [reflexivity|]. right. left. exists v, pe. auto.
  Qed.

  Local Ltac proto :=
    repeat first
      [ exact I
      | apply proto_hw
      | apply proto_bind; [|intros ?]
      | apply proto_of_no;
        first [apply no_err_opt|apply no_err_unwrap|apply no_err_split|apply no_err_ext
              |apply no_err_map; intros ?; unfold led_of_chunk; first [apply no_err_opt|destruct (dec_led _) as [[? ?]|]; exact I]]
      | match goal with |- proto_err (if ?b then _ else _) => destruct b end ].
  Local Ltac answered K :=
    apply (bind_ext _ _ (fun resp => cret (K resp)));
    [intros resp w'; destruct (msg_body (rpc_message resp)) as [| |[]| |]; try reflexivity
    |apply acc_rpc;
     [intros resp v Ev Ea; apply (proto_blames _ _ v); [exact Ev|exact Ea|];
      rewrite Ev; destruct v; try discriminate Ea; proto
     |intros resp Hk; destruct (msg_body (rpc_message resp)) as [| |v| |]; try reflexivity;
      specialize (Hk v eq_refl); destruct v; try discriminate Hk; try reflexivity]].

  Lemma acc_leds (own : Error -> Prop) m w : accounted sp own (leds sp m) w.
  Proof.
    unfold leds, unexpected.
    answered (fun response : Rpc => match msg_body (rpc_message response) with
      | BSpResponse (SLedState m0 f) =>
          obind (opt_unwrap (rpc_data response)) (fun data =>
          obind (opt_unwrap (sp_expected_data_len (SLedState m0 f))) (fun n =>
          obind (split_at n data) (fun p =>
          obind (omapM led_of_chunk (chunks 1 (fst p))) (fun state =>
          obind (ctl_hw_errors f (snd p)) (fun failures => Ok (mkResult m0 state failures))))))
      | b => Err (EUnexpectedMessage b) end).
  Qed.
  Lemma acc_status (own : Error -> Prop) m w : accounted sp own (ctl_status sp m) w.
  Proof.
    unfold ctl_status, unexpected.
    answered (fun response : Rpc => match msg_body (rpc_message response) with
      | BSpResponse (SStatus m0 f) =>
          obind (opt_unwrap (rpc_data response)) (fun data =>
          obind (opt_unwrap (sp_expected_data_len (SStatus m0 f))) (fun n =>
          obind (split_at n data) (fun p =>
          obind (omapM (fun x => opt_unwrap (status_from_bits x)) (fst p)) (fun state =>
          obind (ctl_hw_errors f (snd p)) (fun failures => Ok (mkResult m0 state failures))))))
      | b => Err (EUnexpectedMessage b) end).
  Qed.
  Lemma acc_ext (own : Error -> Prop) m w : accounted sp own (extended_status sp m) w.
  Proof.
    unfold extended_status, unexpected.
    answered (fun response : Rpc => match msg_body (rpc_message response) with
      | BSpResponse (SExtendedStatus m0 f) =>
          obind (opt_unwrap (rpc_data response)) (fun data =>
          obind (opt_unwrap (sp_expected_data_len (SExtendedStatus m0 f))) (fun n =>
          obind (split_at n data) (fun p =>
          obind (ext_status_loop (m_count m0) (fst p)) (fun state =>
          obind (ctl_hw_errors f (snd p)) (fun failures => Ok (mkResult m0 state failures))))))
      | b => Err (EUnexpectedMessage b) end).
  Qed.
  Lemma acc_ack (own : Error -> Prop) q w : (forall x y, answers q (SAck x y) = true) ->
    accounted sp own (no_payload_request sp q) w.
  Proof.
    intros Ha. assert (Hb : forall v, answers q v = true -> exists x y, v = SAck x y).
    { intros v. specialize (Ha 0 0). destruct q, v; try discriminate; eauto. }
    unfold no_payload_request, unexpected.
    apply (bind_ext _ _ (fun response => cret (match msg_body (rpc_message response) with
      | BSpResponse (SAck m0 f) =>
          obind (opt_unwrap (rpc_data response)) (fun data =>
          obind (ctl_hw_errors f data) (fun failures => Ok (ack_new m0 failures)))
      | b => Err (EUnexpectedMessage b) end))).
    { intros resp w'. destruct (msg_body (rpc_message resp)) as [| |[]| |]; reflexivity. }
    apply acc_rpc.
    - intros resp v Ev Ea. apply (proto_blames _ _ v); [exact Ev|exact Ea|]. rewrite Ev.
      destruct (Hb v Ea) as (x & y & ->). proto.
    - intros resp Hk. destruct (msg_body (rpc_message resp)) as [| |v| |]; try reflexivity.
      specialize (Hk v eq_refl). destruct v; try reflexivity. rewrite Ha in Hk. discriminate.
  Qed.
  Lemma acc_mac (own : Error -> Prop) w : accounted sp own (mac_addrs sp) w.
  Proof.
    unfold mac_addrs, unexpected.
    apply (bind_ext _ _ (fun response => cret (match msg_body (rpc_message response) with
      | BSpResponse (SMacAddrs (MacOk macs)) => Ok macs
      | BSpResponse (SMacAddrs (MacError e)) => Err (EMac e)
      | b => Err (EUnexpectedMessage b) end))).
    { intros resp w'. destruct (msg_body (rpc_message resp)) as [| |v| |]; try reflexivity.
      destruct v as [| | | |d| |]; try reflexivity; destruct d; reflexivity. }
    apply acc_rpc.
    - intros resp v Ev Ea. rewrite Ev. destruct v as [| | | |[x|e]| |]; try discriminate Ea; [exact I|].
      right. exists resp. split; [reflexivity|]. right. right. exists e. auto.
    - intros resp Hk. destruct (msg_body (rpc_message resp)) as [| |v| |]; try reflexivity.
      specialize (Hk v eq_refl). destruct v; try discriminate Hk; reflexivity.
  Qed.

  Lemma acc_read_one (own : Error -> Prop) m rd w : accounted sp own (read_impl_one_message sp m rd) w.
  Proof.
    unfold read_impl_one_message. destruct (negb _); [apply acc_ret; exact I|]. unfold unexpected.
    answered (fun response : Rpc => match msg_body (rpc_message response) with
      | BSpResponse (SRead m0 f r0) =>
          obind (opt_unwrap (rpc_data response)) (fun data =>
          obind (opt_unwrap (sp_expected_data_len (SRead m0 f r0))) (fun n =>
          obind (split_at n data) (fun p =>
          if rd_len rd =? 0 then Panic
          else
            let d := chunks_exact (N.to_nat (rd_len rd)) (fst p) in
            if negb (Nat.eqb (length d) (m_count m0)) then Panic
            else obind (ctl_hw_errors f (snd p)) (fun failures => Ok (mkResult m0 d failures)))))
      | b => Err (EUnexpectedMessage b) end).
    - cbv zeta. destruct (negb _); proto.
  Qed.
  Lemma acc_write_impl (own : Error -> Prop) m wr data w : (forall e, bad_length wr data e -> own e) ->
    accounted sp own (write_impl sp m wr data) w.
  Proof.
    intros Ho. unfold write_impl. destruct (N.eqb_spec (wr_len wr) (Nlen data)) as [E|E]; cbn [negb].
    2: { apply acc_ret. apply Ho. split; [exact E|reflexivity]. }
    unfold unexpected.
    answered (fun response : Rpc => match msg_body (rpc_message response) with
      | BSpResponse (SWrite m0 f r0) =>
          obind (opt_unwrap (rpc_data response)) (fun data0 =>
          obind (ctl_hw_errors f data0) (fun failures => Ok (ack_new m0 failures)))
      | b => Err (EUnexpectedMessage b) end).
  Qed.

  Lemma acc_no_err {A} (own : Error -> Prop) (o : outcome Error A) w : no_err o -> accounted sp own (cret o) w.
  Proof. intros H. apply acc_ret. destruct o; [exact I|contradiction|exact I]. Qed.
  Local Ltac bnd := apply acc_bind; [|intros ? ? ?].

  Lemma acc_read_impl (own : Error -> Prop) m rd w : accounted sp own (read_impl sp m rd) w.
  Proof.
    assert (Rest : forall l r w, accounted sp own (read_rest sp l rd r) w).
    { induction l as [|x l IH]; intros r w'; cbn [read_rest]; [apply acc_ret; exact I|].
      bnd; [apply acc_read_one|]. bnd; [apply acc_no_err, no_err_opt|]. apply IH. }
    unfold read_impl. destruct (_ || _); [apply acc_no_err, no_err_opt|].
    bnd.
    - apply acc_no_err. unfold split_large_reads. destruct (_ =? _); [exact I|].
      apply no_err_map. intros c. apply no_err_unwrap.
    - destruct x as [|x l]; [apply acc_ret; exact I|]. bnd; [apply acc_read_one|]. apply Rest.
  Qed.
  Lemma acc_identifier (own : Error -> Prop) m w : accounted sp own (identifier sp m) w.
  Proof.
    unfold identifier. bnd; [apply acc_no_err, no_err_unwrap|]. bnd; [apply acc_read_impl|].
    apply acc_no_err. apply no_err_bind; [|intros; exact I]. apply no_err_map. intros [|b v]; exact I.
  Qed.
  Lemma acc_verify (own : Error -> Prop) p m ids w : (forall e, other_interface p e -> own e) ->
    accounted sp own (cret (verify_ids_for_page p m ids)) w.
  Proof.
    intros Ho. apply acc_ret. unfold verify_ids_for_page.
    destruct (find (fun q => negb (ident_matches (page_interface p) (snd q))) (zip_data m ids)) as [[i id]|] eqn:F.
    - apply find_some in F. destruct F as [_ F]. cbn [snd] in F. apply Bool.negb_true_iff in F.
      assert (X : ~ speaks id p) by (rewrite <- ident_matches_speaks, F; discriminate).
      destruct (page_interface p) eqn:Ei; [| |exact I]; apply Ho; exists i, id; rewrite Ei; auto.
    - destruct (page_interface p); exact I.
  Qed.
  Lemma acc_read m rd w : accounted sp (other_interface (rd_page rd)) (ctl_read sp m rd) w.
  Proof.
    unfold ctl_read. destruct (_ || _); [apply acc_no_err, no_err_opt|].
    bnd; [apply acc_identifier|]. bnd; [apply acc_verify; auto|]. bnd; [apply acc_read_impl|].
    apply acc_ret. exact I.
  Qed.
  Lemma acc_write m wr data w :
    accounted sp (fun e => other_interface (wr_page wr) e \/ bad_length wr data e) (ctl_write sp m wr data) w.
  Proof.
    unfold ctl_write.
    bnd; [apply acc_identifier|]. bnd; [apply acc_verify; auto|]. bnd; [apply acc_write_impl; auto|].
    apply acc_ret. exact I.
  Qed.
  Lemma acc_reset (own : Error -> Prop) m w : accounted sp own (reset sp m) w.
  Proof.
    unfold reset. bnd; [apply acc_ack; reflexivity|]. bnd; [apply acc_sleep|]. bnd; [apply acc_ack; reflexivity|].
    bnd; [apply acc_sleep|]. apply acc_ret. exact I.
  Qed.

  Section Query.
    Context {P : Type} (reads : Identifier -> outcome DecodeError (list MemoryRead))
            (parse : Identifier -> list (list N) -> outcome DecodeError P).
    Lemma no_err_parse_each id rs l : forall s, no_err (parse_each parse id rs l s).
    Proof.
      assert (Fail : forall (s : parsing P) i e, no_err (parse_fail s i e)).
      { intros. unfold parse_fail. apply no_err_bind; [apply no_err_unwrap|]. intros ?.
        apply no_err_bind; [apply no_err_unwrap|]. intros ?. exact I. }
      induction l as [|i l IH]; intros s; cbn [parse_each]; [exact I|]. apply no_err_bind; [|exact IH].
      unfold parse_one. destruct (first_err rs i); [apply Fail|].
      apply no_err_bind; [apply no_err_map; intros ?; apply no_err_opt|]. intros d.
      destruct (parse id d); [exact I|apply Fail|exact I].
    Qed.
    Lemma acc_query (own : Error -> Prop) m w : (forall e, undecodable reads e -> own e) ->
      accounted sp own (parse_modules_by_identifier sp reads parse m) w.
    Proof.
      intros Ho.
      assert (Each : forall rds m w, accounted sp own (read_each sp m rds) w).
      { induction rds as [|rd rds IH]; intros m0 w0; cbn [read_each]; [apply acc_ret; exact I|].
        bnd; [apply acc_read_impl|]. bnd; [apply IH|]. apply acc_ret. exact I. }
      assert (Groups : forall gs s w, accounted sp own (parse_groups sp reads parse gs s) w).
      { induction gs as [|[id g] gs IH]; intros s w0; cbn [parse_groups]; [apply acc_ret; exact I|].
        bnd. { apply acc_ret. destruct (reads id) as [x|d|] eqn:E; cbn; [exact I| |exact I].
               apply Ho. exists id, d. auto. }
        bnd; [apply Each|]. bnd; [apply acc_no_err, no_err_parse_each|]. apply IH. }
      unfold parse_modules_by_identifier. bnd; [apply acc_identifier|]. bnd.
      { apply acc_no_err. unfold split_modules_by_identifier. destruct (Nat.eqb _ _); exact I. }
      bnd; [apply Groups|]. apply acc_ret. exact I.
    Qed.
  End Query.

  Lemma power_undecodable e : undecodable power_reads e -> unsupported e.
  Proof.
    intros (id & d & E & ->). unfold power_reads in E. exists id. unfold supported_kind, sff_kind, cmis_kind.
    destruct (is_sff id) eqn:X; [|destruct (is_cmis id) eqn:Y].
    - vm_compute in E. discriminate.
    - vm_compute in E. discriminate.
    - split; [|congruence]. revert X Y. unfold is_sff, is_cmis. intros X Y. rewrite X, Y. reflexivity.
  Qed.
  Lemma acc_power (own : Error -> Prop) m w : (forall e, unsupported e -> own e) -> accounted sp own (power sp m) w.
  Proof.
    intros Ho. unfold power. bnd; [apply acc_status|].
    destruct (filter_module_data (mr_modules x) (mr_data x) _) as [p ps].
    destruct (filter_module_data p ps _) as [y ys]. destruct (remove_module_data p ps y) as [z zs].
    bnd.
    - destruct (Nat.eqb _ _); [apply acc_ret; exact I|]. bnd.
      + apply acc_query. intros e He. apply Ho, power_undecodable, He.
      + destruct (filter_module_data z zs _). apply acc_ret. exact I.
    - destruct (merge_module_data _ _ _ _). apply acc_ret. exact I.
  Qed.
  Lemma power_word_err id ov st e : power_word id ov st = Err e -> unsupported e.
  Proof.
    unfold power_word. destruct (_ || _) eqn:X.
    { change (write_new (PageSff SffLower) 93 1) with (@Ok MgmtError _ (mkWrite (PageSff SffLower) 93 1)). discriminate. }
    destruct (benum_eqb id QsfpPlusCmis || benum_eqb id QsfpDD) eqn:Y.
    { change (write_new (PageSff SffLower) 26 1) with (@Ok MgmtError _ (mkWrite (PageSff SffLower) 26 1)). discriminate. }
    intros [= <-]. exists id. unfold supported_kind, sff_kind, cmis_kind. now rewrite X, Y.
  Qed.
  Lemma power_word_len id ov st wr b : power_word id ov st = Ok (wr, b) -> wr_len wr = 1.
  Proof.
    unfold power_word. destruct (_ || _).
    { change (write_new (PageSff SffLower) 93 1) with (@Ok MgmtError _ (mkWrite (PageSff SffLower) 93 1)).
      intros [= <- _]. reflexivity. }
    destruct (_ || _); [|discriminate].
    change (write_new (PageSff SffLower) 26 1) with (@Ok MgmtError _ (mkWrite (PageSff SffLower) 26 1)).
    intros [= <- _]. reflexivity.
  Qed.
  Lemma acc_soft_write (own : Error -> Prop) id st ov m s w : (forall e, unsupported e -> own e) ->
    accounted sp own (soft_write sp id st ov m s) w.
  Proof.
    intros Ho. unfold soft_write. destruct s as [[x modes] failures]. bnd.
    - apply acc_ret. destruct (power_word id ov st) as [y|e|] eqn:E; [exact I| |exact I].
      apply Ho. eapply power_word_err. exact E.
    - destruct x0 as [wr b]. unfold cret in H. injection H as _ H. apply power_word_len in H. bnd.
      + apply acc_write_impl. intros e [Hl _]. contradiction.
      + destruct (remove_module_data _ _ _). apply acc_ret. exact I.
  Qed.
  Lemma acc_soft_groups (own : Error -> Prop) st gs : (forall e, unsupported e -> own e) ->
    forall s w, accounted sp own (soft_groups sp st gs s) w.
  Proof.
    intros Ho. induction gs as [|[id m] gs IH]; intros [[x modes] failures] w; cbn [soft_groups].
    - apply acc_ret. exact I.
    - destruct (filter_module_data x modes _) as [a ?]. destruct (filter_module_data m modes _) as [b ?].
      bnd; [now apply acc_soft_write|]. bnd; [now apply acc_soft_write|]. apply IH.
  Qed.
  Lemma acc_software (own : Error -> Prop) pr st w : (forall e, unsupported e -> own e) ->
    accounted sp own (set_software_power_state sp pr st) w.
  Proof.
    intros Ho. unfold set_software_power_state.
    destruct st; [apply acc_ret; exact I| |].
    all: bnd; [apply acc_identifier|]; bnd;
      [apply acc_no_err; unfold split_modules_by_identifier; destruct (Nat.eqb _ _); exact I|];
      destruct (keep_module_data _ _ _); bnd; [now apply acc_soft_groups|]; apply acc_ret; exact I.
  Qed.
  Lemma acc_set_power m st w :
    accounted sp (fun e => unsupported e \/ high_while_off sp w m st e) (set_power sp m st) w.
  Proof.
    assert (On : st <> PowerOff ->
      accounted sp (fun e => unsupported e \/ high_while_off sp w m st e) (set_power_on sp m st) w).
    { intros Hs. unfold set_power_on. bnd; [apply acc_power; auto|].
      destruct (_ && existsb is_off (mr_data x)) eqn:B.
      { apply acc_ret. right. apply andb_prop in B. destruct B as [B1 B2]. apply existsb_exists in B2.
        destruct B2 as (y & Hy & Hoff). split; [reflexivity|]. split; [destruct st; (reflexivity || discriminate)|].
        exists x, y. rewrite H. split; [reflexivity|]. split; [exact Hy|]. unfold is_off in Hoff. now destruct (pm_state y). }
      bnd; [apply acc_status|].
      destruct (filter_module_data (mr_modules x0) (mr_data x0) _) as [a ?].
      destruct (filter_module_data (mr_modules x0) (mr_data x0) _) as [b ?].
      bnd. { match goal with |- accounted _ _ (if ?b then _ else _) _ => destruct b end; [|apply acc_ret; exact I]. bnd; [apply acc_ack; reflexivity|].
             bnd; [apply acc_sleep|]. apply acc_ret. exact I. }
      bnd. { match goal with |- accounted _ _ (if ?b then _ else _) _ => destruct b end; [|apply acc_ret; exact I]. bnd; [apply acc_ack; reflexivity|].
             apply acc_ret. exact I. }
      bnd. { destruct st; apply acc_ack; reflexivity. }
      bnd. { match goal with |- accounted _ _ (if ?b then _ else _) _ => destruct b end; [|apply acc_ret; exact I]. bnd; [apply acc_ack; reflexivity|].
             bnd; [apply acc_sleep|]. apply acc_ret. exact I. }
      match goal with |- context [keep_module_data ?u ?v ?z] => destruct (keep_module_data u v z) end. apply acc_software. auto. }
    destruct st; [|apply On; discriminate|apply On; discriminate].
    unfold set_power, set_power_off. bnd; [apply acc_ack; reflexivity|]. bnd; [apply acc_ack; reflexivity|].
    bnd; [apply acc_ack; reflexivity|]. apply acc_ret. exact I.
  Qed.
End Causes.

Lemma decoders_undecodable reads e :
  In reads [vendor_reads; memory_reads; power_reads; monitor_reads; datapath_reads] ->
  undecodable reads e -> unsupported e.
Proof.
  intros Hin (id & d & E & ->). exists id. unfold supported_kind, sff_kind, cmis_kind.
  assert (X : is_sff id = false /\ is_cmis id = false /\ d = DeUnsupportedIdentifier id).
  { cbn in Hin. unfold is_sff, is_cmis.
    destruct Hin as [<-|[<-|[<-|[<-|[<-|[]]]]]]; revert E;
    unfold vendor_reads, memory_reads, power_reads, monitor_reads, datapath_reads;
    (destruct (is_sff id) eqn:X; [intros E; vm_compute in E; discriminate|]);
    (destruct (is_cmis id) eqn:Y; [intros E; vm_compute in E; discriminate|]);
    intros [= <-]; auto. }
  unfold is_sff, is_cmis in X. destruct X as (X & Y & ->). rewrite X, Y. auto.
Qed.

Section All.
  Context {St : Type} (sp : St -> Rpc -> St * reply).
  Lemma simple_accounted (w : world St) m :
    accounted sp none (leds sp m) w /\ accounted sp none (ctl_status sp m) w /\
    accounted sp none (extended_status sp m) w /\ accounted sp none (identifier sp m) w /\
    accounted sp none (reset sp m) w /\ accounted sp none (mac_addrs sp) w /\
    (forall q, (forall x y, answers q (SAck x y) = true) -> accounted sp none (no_payload_request sp q) w).
  Proof.
    split; [apply acc_leds|]. split; [apply acc_status|]. split; [apply acc_ext|]. split; [apply acc_identifier|].
    split; [apply acc_reset|]. split; [apply acc_mac|]. intros q Hq. now apply acc_ack.
  Qed.
  Lemma query_accounted P reads (parse : Identifier -> list (list N) -> outcome DecodeError P) (w : world St) m :
    In reads [vendor_reads; memory_reads; power_reads; monitor_reads; datapath_reads] ->
    accounted sp unsupported (parse_modules_by_identifier sp reads parse m) w.
  Proof. intros H. apply acc_query. intros e. now apply decoders_undecodable. Qed.
  Lemma power_accounted (w : world St) m : accounted sp unsupported (power sp m) w.
  Proof. apply acc_power. auto. Qed.

  (** In the words of C37. *)
  Lemma refused_only (w : world St) m st :
    (forall s r, snd (sp s r) <> Err EInvalidPowerStateTransition) ->
    snd (set_power sp m st w) = Err EInvalidPowerStateTransition ->
    st = PowerHigh /\ exists r, snd (power sp m w) = Ok r /\ Exists (fun x => pm_state x = PowerOff) (mr_data r).
  Proof.
    intros Hr E. destruct (acc_set_power sp m st w) as (l & _ & _ & H). rewrite E in H.
    destruct H as [[_ [(id & _ & H)|(_ & Hs & r & x & Ep & Hx & Ho)]]|(l' & r & q & _ & _ & _ & B)].
    - discriminate.
    - split; [exact Hs|]. exists r. split; [exact Ep|]. apply Exists_exists. eauto.
    - destruct B as [B|(resp & _ & [[_ B]|[(v & pe & _ & _ & B)|(b & _ & _ & B)]])]; try discriminate.
      exfalso. eapply Hr. exact B.
  Qed.
End All.
