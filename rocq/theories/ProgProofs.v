(** Each call is a program of questions and naps (C78). *)
From Verif Require Export SpecConc Queries.

(** Every error ends it. *)
Fixpoint strict {A} (p : prog A) : Prop :=
  match p with
  | Ret _ => True
  | Ask _ _ k => (forall e, k (Missed e) = Ret (Err e)) /\ forall x, strict (k x)
  | Nap _ p => strict p
  end.
(** In [Type], to go under binders.  [s]: every error ends it. *)
Definition denoted_as (s : bool) {A} (c : forall St, (St -> Rpc -> St * reply) -> ctl (St := St) A) : Type :=
  {p : prog A | steps_of c p /\ (s = true -> strict p)}.
Notation denoted := (denoted_as true).

Lemma den_ret {s A} (x : outcome Error A) : denoted_as s (fun St sp => cret x).
Proof. now exists (Ret x). Defined.
Lemma den_sleep t : denoted (fun St sp => sleep t).
Proof. exists (Nap t (Ret (Ok tt))). split; [intros St sp w; reflexivity|now cbn]. Defined.

Fixpoint pbind {A B} (p : prog A) (f : A -> prog B) : prog B :=
  match p with
  | Ret (Ok x) => f x
  | Ret (Err e) => Ret (Err e)
  | Ret Panic => Ret Panic
  | Ask q d k => Ask q d (fun x => pbind (k x) f)
  | Nap t p => Nap t (pbind p f)
  end.
Lemma alone_bind {A B St} (p : prog A) (f : A -> prog B) (sp : St -> Rpc -> St * reply) : forall w,
  alone (pbind p f) sp w = cbind (alone p sp) (fun x => alone (f x) sp) w.
Proof.
  induction p as [x|q d k IH|t p IH]; intros w.
  - destruct x; reflexivity.
  - cbn [pbind alone]. unfold cbind. destruct (rpc sp q d w) as [w' [r|e|]]; [| |reflexivity]; rewrite IH; reflexivity.
  - cbn [pbind alone]. unfold cbind. cbn [sleep]. rewrite IH. reflexivity.
Qed.
Lemma strict_bind {A B} (p : prog A) (f : A -> prog B) : strict p -> (forall x, strict (f x)) -> strict (pbind p f).
Proof.
  intros H K. induction p as [x|q d k IH|t p IH]; cbn [pbind strict] in *; [destruct x; cbn; auto| |now apply IH].
  split; [intro e; now rewrite (proj1 H)|]. intro x. apply IH, H.
Qed.
Lemma den_bind {s A B} (c : forall St, (St -> Rpc -> St * reply) -> ctl (St := St) A)
    (f : A -> forall St, (St -> Rpc -> St * reply) -> ctl (St := St) B) :
  denoted_as s c -> (forall x, denoted_as s (f x)) -> denoted_as s (fun St sp => cbind (c St sp) (fun x => f x St sp)).
Proof.
  intros (p & Hp & Sp) F. exists (pbind p (fun x => proj1_sig (F x))). split.
  - intros St sp w. rewrite alone_bind. unfold cbind. rewrite Hp. destruct (alone p sp w) as [w' [x|e|]]; [|reflexivity..].
    apply (proj1 (proj2_sig (F x))).
  - intro E. apply strict_bind; [auto|]. intro x. apply (proj2 (proj2_sig (F x))), E.
Defined.
(** Asking and looking at the body and data of the answer. *)
Lemma den_rpc {A} q d (g : MessageBody -> option (list N) -> outcome Error A) :
  denoted (fun St sp => cbind (rpc sp q d) (fun r => cret (g (msg_body (rpc_message r)) (rpc_data r)))).
Proof.
  exists (Ask q d (fun x => match x with Told b data => Ret (g b data) | Missed e => Ret (Err e) end)). split.
  - intros St sp w. cbn [alone]. unfold cbind. now destruct (rpc sp q d w) as [w' [r|e|]].
  - intros _. split; [reflexivity|]. intros [|]; exact I.
Defined.
Lemma den_ext {s A} (c c' : forall St, (St -> Rpc -> St * reply) -> ctl (St := St) A) :
  (forall St sp w, c St sp w = c' St sp w) -> denoted_as s c' -> denoted_as s c.
Proof. intros E (p & Hp & Sp). exists p. split; [|exact Sp]. intros St sp w. rewrite E. apply Hp. Defined.

Lemma den_asks {A} q d (g : MessageBody -> option (list N) -> outcome Error A)
    (c : forall St, (St -> Rpc -> St * reply) -> ctl (St := St) A) :
  (forall St sp w, c St sp w =
     cbind (rpc sp q d) (fun r => cret (g (msg_body (rpc_message r)) (rpc_data r))) w) -> denoted c.
Proof. intros E. exact (den_ext _ _ E (den_rpc q d g)). Defined.

Local Ltac answers := intros St sp w; unfold cbind;
  match goal with |- context [rpc ?f ?q ?d ?v] =>
    destruct (rpc f q d v) as [? [resp|?|]]; [destruct (msg_body (rpc_message resp)) as [| |[]| |]; reflexivity|reflexivity..]
  end.

Lemma den_leds m : denoted (fun St sp => leds sp m).
Proof.
  apply (den_asks (HLedState m) None (fun b x => match b with
      | BSpResponse (SLedState m0 f) =>
          obind (opt_unwrap x) (fun data =>
          obind (opt_unwrap (sp_expected_data_len (SLedState m0 f))) (fun n =>
          obind (split_at n data) (fun p =>
          obind (omapM led_of_chunk (chunks 1 (fst p))) (fun state =>
          obind (ctl_hw_errors f (snd p)) (fun failures => Ok (mkResult m0 state failures))))))
      | b => Err (EUnexpectedMessage b) end)).
  unfold leds, unexpected. answers.
Defined.
Lemma den_status m : denoted (fun St sp => ctl_status sp m).
Proof.
  apply (den_asks (HStatus m) None (fun b x => match b with
      | BSpResponse (SStatus m0 f) =>
          obind (opt_unwrap x) (fun data =>
          obind (opt_unwrap (sp_expected_data_len (SStatus m0 f))) (fun n =>
          obind (split_at n data) (fun p =>
          obind (omapM (fun y => opt_unwrap (status_from_bits y)) (fst p)) (fun state =>
          obind (ctl_hw_errors f (snd p)) (fun failures => Ok (mkResult m0 state failures))))))
      | b => Err (EUnexpectedMessage b) end)).
  unfold ctl_status, unexpected. answers.
Defined.
Lemma den_ext_status m : denoted (fun St sp => extended_status sp m).
Proof.
  apply (den_asks (HExtendedStatus m) None (fun b x => match b with
      | BSpResponse (SExtendedStatus m0 f) =>
          obind (opt_unwrap x) (fun data =>
          obind (opt_unwrap (sp_expected_data_len (SExtendedStatus m0 f))) (fun n =>
          obind (split_at n data) (fun p =>
          obind (ext_status_loop (m_count m0) (fst p)) (fun state =>
          obind (ctl_hw_errors f (snd p)) (fun failures => Ok (mkResult m0 state failures))))))
      | b => Err (EUnexpectedMessage b) end)).
  unfold extended_status, unexpected. answers.
Defined.
Lemma den_ack q : denoted (fun St sp => no_payload_request sp q).
Proof.
  apply (den_asks q None (fun b x => match b with
      | BSpResponse (SAck m0 f) =>
          obind (opt_unwrap x) (fun data =>
          obind (ctl_hw_errors f data) (fun failures => Ok (ack_new m0 failures)))
      | b => Err (EUnexpectedMessage b) end)).
  unfold no_payload_request, unexpected. answers.
Defined.
Lemma den_macs : denoted (fun St sp => mac_addrs sp).
Proof.
  apply (den_asks HMacAddrs None (fun b _ => match b with
      | BSpResponse (SMacAddrs (MacOk macs)) => Ok macs
      | BSpResponse (SMacAddrs (MacError e)) => Err (EMac e)
      | b => Err (EUnexpectedMessage b) end)).
  unfold mac_addrs, unexpected.
  intros St sp w; unfold cbind; destruct (rpc sp HMacAddrs None w) as [w' [r|e|]]; [|reflexivity..].
  destruct (msg_body (rpc_message r)) as [| |v| |]; [reflexivity..| |reflexivity|reflexivity].
  destruct v as [| | | |[]| |]; reflexivity.
Defined.
Lemma den_read_one m rd : denoted (fun St sp => read_impl_one_message sp m rd).
Proof.
  unfold read_impl_one_message. destruct (negb (fits_in_one_message m rd)); [apply den_ret|].
  apply (den_asks (HRead m rd) None (fun b x => match b with
      | BSpResponse (SRead m0 f r0) =>
          obind (opt_unwrap x) (fun data =>
          obind (opt_unwrap (sp_expected_data_len (SRead m0 f r0))) (fun n =>
          obind (split_at n data) (fun p =>
          if rd_len rd =? 0 then Panic
          else
            let d := chunks_exact (N.to_nat (rd_len rd)) (fst p) in
            if negb (Nat.eqb (length d) (m_count m0)) then Panic
            else obind (ctl_hw_errors f (snd p)) (fun failures => Ok (mkResult m0 d failures)))))
      | b => Err (EUnexpectedMessage b) end)).
  unfold unexpected. answers.
Defined.
Lemma den_write_impl m wr data : denoted (fun St sp => write_impl sp m wr data).
Proof.
  unfold write_impl. destruct (negb (wr_len wr =? Nlen data)); [apply den_ret|].
  apply (den_asks (HWrite m wr) (Some data) (fun b x => match b with
      | BSpResponse (SWrite m0 f r0) =>
          obind (opt_unwrap x) (fun data0 =>
          obind (ctl_hw_errors f data0) (fun failures => Ok (ack_new m0 failures)))
      | b => Err (EUnexpectedMessage b) end)).
  unfold unexpected. answers.
Defined.

Local Ltac dret := exact (den_ret _).

Lemma den_read_rest rd l : forall r, denoted (fun St sp => read_rest sp l rd r).
Proof.
  induction l as [|m l IH]; intros r; cbn [read_rest]; [dret|].
  apply (den_bind (fun St sp => read_impl_one_message sp m rd)
    (fun next St sp => cbind (cret (opt_unwrap (result_merge r next))) (fun merged => read_rest sp l rd merged))).
  { apply den_read_one. }
  intros next. apply (den_bind (fun St sp => cret _) (fun merged St sp => read_rest sp l rd merged)); [dret|].
  intros merged. apply IH.
Defined.
Lemma den_read_impl m rd : denoted (fun St sp => read_impl sp m rd).
Proof.
  unfold read_impl. destruct (_ || _); [dret|].
  apply (den_bind (fun St sp => cret (split_large_reads m rd)) (fun split St sp =>
    match split with [] => cret Panic
    | m :: rest => cbind (read_impl_one_message sp m rd) (fun first => read_rest sp rest rd first) end)); [dret|].
  intros [|m0 rest]; [dret|].
  apply (den_bind (fun St sp => read_impl_one_message sp m0 rd) (fun first St sp => read_rest sp rest rd first)).
  - apply den_read_one.
  - intros first. apply den_read_rest.
Defined.
Lemma den_identifier m : denoted (fun St sp => identifier sp m).
Proof.
  unfold identifier.
  apply (den_bind (fun St sp => cret _) (fun read St sp => cbind (read_impl sp m read) (fun r =>
    cret (obind (omapM (fun v => match v with b :: _ => Ok (ident_of_byte b) | [] => Panic end) (mr_data r))
      (fun ids => Ok (mkResult (mr_modules r) ids (mr_failures r))))))); [dret|].
  intros read. apply (den_bind (fun St sp => read_impl sp m read) (fun r St sp => cret _)); [apply den_read_impl|].
  intros r. dret.
Defined.
Lemma den_read m rd : denoted (fun St sp => ctl_read sp m rd).
Proof.
  unfold ctl_read. destruct (_ || _); [dret|].
  apply (den_bind (fun St sp => identifier sp m) (fun ident St sp =>
    cbind (cret (verify_ids_for_page (rd_page rd) (mr_modules ident) (mr_data ident))) (fun _ =>
    cbind (read_impl sp (mr_modules ident) rd) (fun r =>
    cret (Ok (mkResult (mr_modules r) (mr_data r) (failed_merge (mr_failures ident) (mr_failures r)))))))).
  { apply den_identifier. }
  intros ident. apply (den_bind (fun St sp => cret _) (fun _ St sp => cbind (read_impl sp (mr_modules ident) rd) _)); [dret|].
  intros _. apply (den_bind (fun St sp => read_impl sp (mr_modules ident) rd) (fun r St sp => cret _)); [apply den_read_impl|].
  intros r. dret.
Defined.
Lemma den_write m wr data : denoted (fun St sp => ctl_write sp m wr data).
Proof.
  unfold ctl_write.
  apply (den_bind (fun St sp => identifier sp m) (fun ident St sp =>
    cbind (cret (verify_ids_for_page (wr_page wr) (mr_modules ident) (mr_data ident))) (fun _ =>
    cbind (write_impl sp (mr_modules ident) wr data) (fun r =>
    cret (Ok (ack_new (mr_modules r) (failed_merge (mr_failures ident) (mr_failures r)))))))).
  { apply den_identifier. }
  intros ident. apply (den_bind (fun St sp => cret _) (fun _ St sp => cbind (write_impl sp (mr_modules ident) wr data) _)); [dret|].
  intros _. apply (den_bind (fun St sp => write_impl sp (mr_modules ident) wr data) (fun r St sp => cret _)); [apply den_write_impl|].
  intros r. dret.
Defined.
Lemma den_reset m : denoted (fun St sp => reset sp m).
Proof.
  unfold reset, assert_reset, deassert_reset.
  apply (den_bind (fun St sp => no_payload_request sp _) (fun a St sp => cbind (sleep T_RESET_INIT) (fun _ =>
    cbind (no_payload_request sp (HDeassertReset (mr_modules a))) (fun d =>
    cbind (sleep T_RESET) (fun _ =>
    cret (Ok (ack_new (mr_modules d) (failed_merge (mr_failures a) (mr_failures d))))))))); [apply den_ack|].
  intros a. apply (den_bind (fun St sp => sleep _) (fun _ St sp =>
    cbind (no_payload_request sp (HDeassertReset (mr_modules a))) (fun d =>
    cbind (sleep T_RESET) (fun _ =>
    cret (Ok (ack_new (mr_modules d) (failed_merge (mr_failures a) (mr_failures d)))))))); [apply den_sleep|].
  intros _. apply (den_bind (fun St sp => no_payload_request sp _) (fun d St sp =>
    cbind (sleep T_RESET) (fun _ =>
    cret (Ok (ack_new (mr_modules d) (failed_merge (mr_failures a) (mr_failures d))))))); [apply den_ack|].
  intros d. apply (den_bind (fun St sp => sleep _) (fun _ St sp => cret _)); [apply den_sleep|].
  intros _. dret.
Defined.

Section Query.
  Context {P : Type} (reads : Identifier -> outcome DecodeError (list MemoryRead))
          (parse : Identifier -> list (list N) -> outcome DecodeError P).
  Lemma den_read_each m rds : denoted (fun St sp => read_each sp m rds).
  Proof.
    induction rds as [|rd rds IH]; cbn [read_each]; [dret|].
    apply (den_bind (fun St sp => read_impl sp m rd) (fun r St sp =>
      cbind (read_each sp m rds) (fun rs => cret (Ok (r :: rs))))); [apply den_read_impl|].
    intros r. apply (den_bind (fun St sp => read_each sp m rds) (fun rs St sp => cret _)); [exact IH|].
    intros rs. dret.
  Defined.
  Lemma den_groups gs : forall s, denoted (fun St sp => parse_groups sp reads parse gs s).
  Proof.
    induction gs as [|[id m] gs IH]; intros s; cbn [parse_groups]; [dret|].
    apply (den_bind (fun St sp => cret _) (fun rds St sp => cbind (read_each sp m rds) (fun rs =>
      cbind (cret (parse_each parse id rs (to_indices m) s)) (fun s' => parse_groups sp reads parse gs s')))); [dret|].
    intros rds. apply (den_bind (fun St sp => read_each sp m rds) (fun rs St sp =>
      cbind (cret (parse_each parse id rs (to_indices m) s)) (fun s' => parse_groups sp reads parse gs s'))); [apply den_read_each|].
    intros rs. apply (den_bind (fun St sp => cret _) (fun s' St sp => parse_groups sp reads parse gs s')); [dret|].
    intros s'. apply IH.
  Defined.
  Lemma den_query m : denoted (fun St sp => parse_modules_by_identifier sp reads parse m).
  Proof.
    unfold parse_modules_by_identifier.
    apply (den_bind (fun St sp => identifier sp m) (fun ident St sp =>
      cbind (cret (split_modules_by_identifier (mr_modules ident) (mr_data ident))) (fun groups =>
      cbind (parse_groups sp reads parse groups
              (mkParsing (mr_modules ident) (fm_modules (mr_failures ident))
                         (fm_errors (mr_failures ident)) [])) (fun s =>
      cret (Ok (mkResult (ps_modules s) (map snd (ps_data s))
                         (mkFailed (ps_failed s) (ps_errors s)))))))); [apply den_identifier|].
    intros ident. apply (den_bind (fun St sp => cret _) (fun groups St sp =>
      cbind (parse_groups sp reads parse groups
              (mkParsing (mr_modules ident) (fm_modules (mr_failures ident))
                         (fm_errors (mr_failures ident)) [])) (fun s =>
      cret (Ok (mkResult (ps_modules s) (map snd (ps_data s))
                         (mkFailed (ps_failed s) (ps_errors s))))))); [dret|].
    intros groups. apply (den_bind (fun St sp => parse_groups sp reads parse groups _) (fun s St sp => cret _)); [apply den_groups|].
    intros s. dret.
  Defined.
End Query.

Lemma den_power m : denoted (fun St sp => power sp m).
Proof.
  unfold power.
  match goal with |- denoted (fun St sp => cbind (ctl_status sp m) (@?f St sp)) =>
    apply (den_bind (fun St sp => ctl_status sp m) (fun x St sp => f St sp x)) end; [apply den_status|].
  intros st.
  destruct (filter_module_data (mr_modules st) (mr_data st) _) as [p ps].
  destruct (filter_module_data p ps _) as [y ys]. destruct (remove_module_data p ps y) as [z zs].
  match goal with |- denoted (fun St sp => cbind (@?c St sp) (@?f St sp)) =>
    apply (den_bind c (fun x St sp => f St sp x)) end.
  - destruct (Nat.eqb (m_count z) 0); [dret|].
    match goal with |- denoted (fun St sp => cbind (@?c St sp) (@?f St sp)) =>
      apply (den_bind c (fun x St sp => f St sp x)) end; [apply den_query|].
    intros control. destruct (filter_module_data z zs _) as [? ?]. dret.
  - intros r. destruct (merge_module_data _ _ _ _) as [? ?]. dret.
Defined.

Local Ltac db := match goal with |- denoted (fun St sp => cbind (@?c St sp) (@?f St sp)) =>
  apply (den_bind c (fun x St sp => f St sp x)) end; [|intros ?].
Lemma den_soft_write id st ov m s : denoted (fun St sp => soft_write sp id st ov m s).
Proof.
  unfold soft_write. destruct s as [[x modes] failures]. db; [dret|]. db; [apply den_write_impl|].
  destruct (remove_module_data _ _ _) as [? ?]. dret.
Defined.
Lemma den_soft_groups st gs : forall s, denoted (fun St sp => soft_groups sp st gs s).
Proof.
  induction gs as [|[id m] gs IH]; intros [[x modes] failures]; cbn [soft_groups]; [dret|].
  destruct (filter_module_data x modes _) as [a ?]. destruct (filter_module_data m modes _) as [b ?].
  db; [apply den_soft_write|]. db; [apply den_soft_write|]. apply IH.
Defined.
Lemma den_software pr st : denoted (fun St sp => set_software_power_state sp pr st).
Proof.
  unfold set_software_power_state. destruct st; [dret| |].
  all: db; [apply den_identifier|]; db; [dret|];
    match goal with |- context [keep_module_data ?u ?v ?z] => destruct (keep_module_data u v z) as [? ?] end;
    db; [apply den_soft_groups|]; dret.
Defined.
Lemma den_set_power m st : denoted (fun St sp => set_power sp m st).
Proof.
  assert (On : denoted (fun St sp => set_power_on sp m st)).
  { unfold set_power_on. db; [apply den_power|]. destruct (_ && _); [dret|]. db; [apply den_status|].
    match goal with |- context [filter_module_data ?u ?v ?z] => destruct (filter_module_data u v z) as [? ?] end.
    match goal with |- context [filter_module_data ?u ?v ?z] => destruct (filter_module_data u v z) as [? ?] end.
    db. { destruct (Nat.ltb _ _); [|dret]. db; [apply den_ack|]. db; [apply den_sleep|]. dret. }
    db. { destruct (Nat.ltb _ _); [|dret]. db; [apply den_ack|]. dret. }
    db. { destruct st; apply den_ack. }
    db. { destruct (Nat.ltb _ _); [|dret]. db; [apply den_ack|]. db; [apply den_sleep|]. dret. }
    match goal with |- context [keep_module_data ?u ?v ?z] => destruct (keep_module_data u v z) as [? ?] end.
    apply den_software. }
  destruct st; [|exact On|exact On].
  unfold set_power, set_power_off. db; [apply den_ack|]. db; [apply den_ack|]. db; [apply den_ack|]. dret.
Defined.

Lemma strict_stops {A} (p : prog A) : strict p -> stops_at_errors p.
Proof.
  induction p as [x|q d k IH|t p IH]; intros S xs q' d' e H; [discriminate| |exact (IH S xs q' d' e H)].
  destruct S as [S1 S2]. unfold question in H. cbn [resume] in H. destruct xs as [|[r|e'|] xs].
  - cbn. now rewrite S1.
  - cbn. eapply IH; [apply S2|exact H].
  - rewrite S1 in H. discriminate.
  - discriminate.
Qed.
Lemma calls_are_programs :
  (forall m, program (fun St sp => leds sp m) /\ program (fun St sp => ctl_status sp m) /\
     program (fun St sp => extended_status sp m) /\ program (fun St sp => identifier sp m) /\
     program (fun St sp => reset sp m) /\ program (fun St sp => power sp m) /\ program (fun St sp => mac_addrs sp)) /\
  (forall q, program (fun St sp => no_payload_request sp q)) /\
  (forall m rd, program (fun St sp => ctl_read sp m rd)) /\
  (forall m wr data, program (fun St sp => ctl_write sp m wr data)) /\
  (forall m st, program (fun St sp => set_power sp m st)) /\
  (forall P reads (parse : Identifier -> list (list N) -> outcome DecodeError P) m,
     program (fun St sp => parse_modules_by_identifier sp reads parse m)).
Proof.
  assert (X : forall A (c : forall St, (St -> Rpc -> St * reply) -> ctl (St := St) A), denoted c -> program c).
  { intros A c (p & H & S). exists p. split; [exact H|]. now apply strict_stops, S. }
  split; [|split; [|split; [|split; [|split]]]]; intros.
  - split; [apply X, den_leds|]. split; [apply X, den_status|]. split; [apply X, den_ext_status|].
    split; [apply X, den_identifier|]. split; [apply X, den_reset|]. split; [apply X, den_power|]. apply X, den_macs.
  - apply X, den_ack.
  - apply X, den_read.
  - apply X, den_write.
  - apply X, den_set_power.
  - apply X, den_query.
Qed.

(** ** A call has only one program *)
Definition sent {St} (w : world St) (q : HostRequest) (d : option (list N)) : act :=
  ASend (mkRpc (snd (next_header (w_counter w) KHostRequest)) (message_new (BHostRequest q)) d).
Lemma rpc_is {St} (sp : St -> Rpc -> St * reply) q d w : exists s c x, rpc sp q d w = (mkWorld s c (w_log w ++ [sent w q d]), x).
Proof. unfold rpc, sent. destruct (next_header _ _) as [c h]. destruct (sp _ _) as [s x]. cbn. eauto. Qed.
Lemma grows {A St} (p : prog A) (sp : St -> Rpc -> St * reply) : forall w, exists l, w_log (fst (alone p sp w)) = w_log w ++ l.
Proof.
  induction p as [x|q d k IH|t p IH]; intro w.
  - exists []. now rewrite app_nil_r.
  - cbn [alone]. destruct (rpc_is sp q d w) as (s & c & x & ->).
    assert (K : forall v, exists l, w_log (fst (alone (k v) sp (mkWorld s c (w_log w ++ [sent w q d])))) = w_log w ++ l).
    { intro v. destruct (IH v (mkWorld s c (w_log w ++ [sent w q d]))) as (l & E). rewrite E. cbn [w_log]. rewrite <- app_assoc. eexists; reflexivity. }
    destruct x; [apply K|apply K|cbn; eauto].
  - cbn [alone]. unfold cbind, sleep. destruct (IH (mkWorld (w_sp w) (w_counter w) (w_log w ++ [ASleep t]))) as (l & E).
    rewrite E. cbn [w_log]. rewrite <- app_assoc. eexists; reflexivity.
Qed.
Lemma grows_ask {A St} q d (k : news -> prog A) (sp : St -> Rpc -> St * reply) w :
  exists l, w_log (fst (alone (Ask q d k) sp w)) = w_log w ++ sent w q d :: l.
Proof.
  cbn [alone]. destruct (rpc_is sp q d w) as (s & c & x & ->).
  assert (K : forall v, exists l, w_log (fst (alone (k v) sp (mkWorld s c (w_log w ++ [sent w q d])))) = w_log w ++ sent w q d :: l).
  { intro v. destruct (grows (k v) sp (mkWorld s c (w_log w ++ [sent w q d]))) as (l & E). rewrite E. cbn [w_log]. rewrite <- app_assoc. eexists; reflexivity. }
  destruct x; [apply K|apply K|cbn; eauto].
Qed.
Lemma grows_nap {A St} t (p : prog A) (sp : St -> Rpc -> St * reply) w :
  exists l, w_log (fst (alone (Nap t p) sp w)) = w_log w ++ ASleep t :: l.
Proof.
  cbn [alone]. unfold cbind, sleep. destruct (grows p sp (mkWorld (w_sp w) (w_counter w) (w_log w ++ [ASleep t]))) as (l & E).
  rewrite E. cbn [w_log]. rewrite <- app_assoc. eexists; reflexivity.
Qed.

Inductive same {A} : prog A -> prog A -> Prop :=
| SameRet x : same (Ret x) (Ret x)
| SameAsk q d k k' : (forall x, same (k x) (k' x)) -> same (Ask q d k) (Ask q d k')
| SameNap t p p' : same p p' -> same (Nap t p) (Nap t p').
Definition agree {A} (p p' : prog A) : Prop :=
  forall xs, exists n log, alone p script (mkWorld xs n log) = alone p' script (mkWorld xs n log).
Lemma longer {A} (l m : list A) x : l <> l ++ x :: m.
Proof. intro E. rewrite <- (app_nil_r l) in E at 1. apply app_inv_head in E. discriminate. Qed.
Lemma agree_log {A} (p p' : prog A) : agree p p' -> exists w : world (list reply),
  w_log (fst (alone p script w)) = w_log (fst (alone p' script w)) /\ alone p script w = alone p' script w.
Proof. intro H. destruct (H []) as (n & log & E). exists (mkWorld [] n log). now rewrite E. Qed.
Lemma agree_same {A} (p : prog A) : forall p', agree p p' -> same p p'.
Proof.
  induction p as [x|q d k IH|t p IH]; intros p' H; destruct (agree_log _ _ H) as (w & E & Ea); destruct p' as [x'|q' d' k'|t' p'].
  - injection Ea as ->. constructor.
  - destruct (grows_ask q' d' k' script w) as (l & El). rewrite El in E. now apply longer in E.
  - destruct (grows_nap t' p' script w) as (l & El). rewrite El in E. now apply longer in E.
  - destruct (grows_ask q d k script w) as (l & El). rewrite El in E. symmetry in E. now apply longer in E.
  - destruct (grows_ask q d k script w) as (l & El). destruct (grows_ask q' d' k' script w) as (l' & El').
    rewrite El, El' in E. apply app_inv_head in E. injection E as <- <- _. constructor. intro x. apply IH. intro xs.
    pose (y := match x with Told b data => Ok (mkRpc (header_new 0 KSpResponse) (message_new b) data) | Missed e => Err e end : reply).
    destruct (H (y :: xs)) as (n & log & Eq). cbn [alone] in Eq. unfold rpc in Eq. cbn [w_counter w_sp w_log script] in Eq.
    destruct (next_header n KHostRequest) as [c h]. unfold y in Eq. destruct x as [b data|e]; cbn in Eq; eauto.
  - destruct (grows_ask q d k script w) as (l & El). destruct (grows_nap t' p' script w) as (l' & El').
    rewrite El, El' in E. apply app_inv_head in E. discriminate.
  - destruct (grows_nap t p script w) as (l & El). rewrite El in E. symmetry in E. now apply longer in E.
  - destruct (grows_nap t p script w) as (l & El). destruct (grows_ask q' d' k' script w) as (l' & El').
    rewrite El, El' in E. apply app_inv_head in E. discriminate.
  - destruct (grows_nap t p script w) as (l & El). destruct (grows_nap t' p' script w) as (l' & El').
    rewrite El, El' in E. apply app_inv_head in E. injection E as <- _. constructor. apply IH. intro xs.
    destruct (H xs) as (n & log & Eq). cbn [alone] in Eq. unfold cbind, sleep in Eq. cbn in Eq. eauto.
Qed.
Lemma same_resume {A} (p p' : prog A) : same p p' -> forall xs,
  question p xs = question p' xs /\ forall x, resume p xs = Ret x <-> resume p' xs = Ret x.
Proof.
  induction 1 as [x|q d k k' Hk IH|t p p' Hp IH]; intro xs; [now split|..].
  - destruct xs as [|[r|e|] xs]; [split; [reflexivity|intro; split; discriminate]|apply IH|apply IH|now split].
  - apply IH.
Qed.
Lemma one_program {A} (c : forall St, (St -> Rpc -> St * reply) -> ctl (St := St) A) p p' : steps_of c p -> steps_of c p' ->
  forall xs, question p xs = question p' xs /\ forall x, resume p xs = Ret x <-> resume p' xs = Ret x.
Proof.
  intros H H'. apply same_resume, agree_same. intro xs. exists 0, []. now rewrite <- H, <- H'.
Qed.
Lemma program_stops {A} (c : forall St, (St -> Rpc -> St * reply) -> ctl (St := St) A) p : program c -> steps_of c p -> stops_at_errors p.
Proof.
  intros (p' & H' & S) H xs q d e Q. destruct (one_program c p p' H H' xs) as [Eq _]. rewrite Eq in Q.
  apply (proj2 (one_program c p p' H H' (xs ++ [Err e]))), (S xs q d e Q).
Qed.
