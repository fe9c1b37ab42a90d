(** A run of xcvradm (C94). *)
From Verif Require Export SpecXcvradm ProgProofs.
From Verif Require Import ScopeProofs CostProofs DeadlineProofs ConcProofs FairProofs2.
Import ListNotations.
Open Scope N_scope.

(** ** Its steps *)
(** Nothing is known of the answer to a question for the extended status. *)
Definition no_ext (x : news) : Prop :=
  match x with Told (BSpResponse (SExtendedStatus _ _)) _ => False | _ => True end.
(** Every error ends it; with [b], unless the extended status was asked for: then it asks for the plain one. *)
Fixpoint handled (b : bool) {A} (p : prog A) : Prop :=
  match p with
  | Ret _ => True
  | Ask q _ k =>
      match b, q with
      | true, HExtendedStatus m => forall x, no_ext x -> exists k', k x = Ask (HStatus m) None k'
      | _, _ => forall e, k (Missed e) = Ret (Err e)
      end /\ forall x, handled b (k x)
  | Nap _ p => handled b p
  end.
Definition runs (b : bool) {A} (c : forall St, (St -> Rpc -> St * reply) -> ctl (St := St) A) : Type :=
  {p : prog A | steps_of c p /\ handled b p}.

(** It never asks for the extended status. *)
Definition other (q : HostRequest) : Prop := forall m, q <> HExtendedStatus m.
Fixpoint unasked {A} (p : prog A) : Prop :=
  match p with Ret _ => True | Ask q _ k => other q /\ forall x, unasked (k x) | Nap _ p => unasked p end.
Definition unasked_by {A} (c : forall St, (St -> Rpc -> St * reply) -> ctl (St := St) A) : Prop :=
  forall St (sp : St -> Rpc -> St * reply), asks sp (fun q _ => other q) true (c St sp).
Definition ok_act (x : act) : Prop := Forall (only (fun q _ => other q) true) (deed x).
Lemma unasked_in {A} (p : prog A) :
  (forall xs, exists n log, forall l, w_log (fst (alone p script (mkWorld xs n log))) = log ++ l -> Forall ok_act l) -> unasked p.
Proof.
  induction p as [x|q d k IH|t p IH]; intro H; [exact I| |].
  - split.
    + destruct (H []) as (n & log & F). destruct (grows_ask q d k script (mkWorld [] n log)) as (l & El).
      specialize (F _ El). apply Forall_cons_iff in F. destruct F as [F _]. unfold ok_act, sent in F. cbn in F. apply Forall_cons_iff in F. apply F.
    + intro x. apply IH. intro xs.
      pose (y := match x with Told b data => Ok (mkRpc (header_new 0 KSpResponse) (message_new b) data) | Missed e => Err e end : reply).
      destruct (H (y :: xs)) as (n & log & F). cbn [alone] in F. unfold rpc in F. cbn [w_counter w_sp w_log script] in F.
      destruct (next_header n KHostRequest) as [c h]. unfold y in F.
      match type of F with context [log ++ [?s0]] => exists c, (log ++ [s0]); intros l El; specialize (F (s0 :: l)) end.
      rewrite <- app_assoc in El. destruct x as [b data|e]; cbn in F; apply F in El; apply Forall_cons_iff in El; apply El.
  - apply IH. intro xs. destruct (H xs) as (n & log & F). exists n, (log ++ [ASleep t]). intros l El. rewrite <- app_assoc in El.
    cbn [alone] in F. unfold cbind, sleep in F. cbn [w_sp w_counter w_log] in F. apply F in El. apply Forall_cons_iff in El. apply El.
Qed.
Lemma unasked_prog {A} (c : forall St, (St -> Rpc -> St * reply) -> ctl (St := St) A) p : steps_of c p -> unasked_by c -> unasked p.
Proof.
  intros H U. apply unasked_in. intro xs. exists 0, []. intros l El. rewrite <- H in El. destruct (U _ script (mkWorld xs 0 [])) as (ds & (l' & El' & Ef & _) & F & _).
  rewrite El' in El. apply app_inv_head in El. subst l' ds. clear - F. induction l as [|x l IH]; [constructor|].
  cbn in F. apply Forall_app in F. constructor; [apply F|now apply IH].
Qed.
Lemma strict_handled b {A} (p : prog A) : strict p -> (b = true -> unasked p) -> handled b p.
Proof.
  induction p as [x|q d k IH|t p IH]; cbn; [easy| |exact IH]. intros [H K] U. split.
  - destruct b; [|exact H]. destruct q; try exact H. exfalso. now apply (proj1 (U eq_refl) m).
  - intro x. apply IH; [apply K|]. intro E. apply (U E).
Qed.
Lemma handled_bind b {A B} (p : prog A) (f : A -> prog B) : handled b p -> (forall x, handled b (f x)) -> handled b (pbind p f).
Proof.
  intros H K. induction p as [x|q d k IH|t p IH]; cbn [pbind handled] in *; [destruct x; cbn; auto| |now apply IH].
  destruct H as [H1 H2]. split; [|intro x; apply IH, H2].
  destruct b; [|intro e; now rewrite H1]. destruct q; try (intro e; now rewrite H1).
  intros x Hx. destruct (H1 x Hx) as (k' & ->). now exists (fun x => pbind (k' x) f).
Qed.
Lemma run_den b {A} (c : forall St, (St -> Rpc -> St * reply) -> ctl (St := St) A) : denoted c -> (b = true -> unasked_by c) -> runs b c.
Proof. intros (p & H & S) U. exists p. split; [exact H|]. apply strict_handled; [now apply S|]. intro E. exact (unasked_prog c p H (U E)). Defined.
Lemma run_ret b {A} (x : outcome Error A) : runs b (fun St sp => cret x).
Proof. now exists (Ret x). Defined.
Lemma run_bind b {A B} (c : forall St, (St -> Rpc -> St * reply) -> ctl (St := St) A)
    (f : A -> forall St, (St -> Rpc -> St * reply) -> ctl (St := St) B) :
  runs b c -> (forall x, runs b (f x)) -> runs b (fun St sp => cbind (c St sp) (fun x => f x St sp)).
Proof.
  intros (p & Hp & Sp) F. exists (pbind p (fun x => proj1_sig (F x))). split.
  - intros St sp w. rewrite alone_bind. unfold cbind. rewrite Hp. destruct (alone p sp w) as [w' [x|e|]]; [|reflexivity..].
    apply (proj1 (proj2_sig (F x))).
  - apply handled_bind; [exact Sp|]. intro x. apply (proj2 (proj2_sig (F x))).
Defined.
Lemma run_ext b {A} (c c' : forall St, (St -> Rpc -> St * reply) -> ctl (St := St) A) :
  (forall St sp w, c St sp w = c' St sp w) -> runs b c' -> runs b c.
Proof. intros E (p & Hp & Sp). exists p. split; [|exact Sp]. intros St sp w. rewrite E. apply Hp. Defined.

Local Ltac rb := match goal with |- runs _ (fun St sp => cbind (@?c St sp) (@?f St sp)) =>
  apply (run_bind _ c (fun x St sp => f St sp x)) end; [|intros ?].
Local Ltac rret := exact (run_ret _ _).
Local Ltac rd L := apply run_den; [apply L|discriminate].

Lemma run_select b t : runs b (fun St sp => address_transceivers sp t).
Proof.
  unfold address_transceivers. destruct t; [rret| | | |rret]; rb; try rret; apply run_den.
  - apply den_status.
  - intros _ St sp. now apply asks_status.
  - apply den_power.
  - intros _ St sp. now apply asks_power.
  - apply den_identifier.
  - intros _ St sp. now apply asks_identifier.
Defined.
Lemma run_status m : runs true (fun St sp => status_result sp m).
Proof.
  pose (g := fun b x => match b with
      | BSpResponse (SExtendedStatus m0 f) =>
          obind (opt_unwrap x) (fun data =>
          obind (opt_unwrap (sp_expected_data_len (SExtendedStatus m0 f))) (fun n =>
          obind (split_at n data) (fun p =>
          obind (ext_status_loop (m_count m0) (fst p)) (fun state =>
          obind (ctl_hw_errors f (snd p)) (fun failures => Ok (mkResult m0 state failures))))))
      | b => Err (EUnexpectedMessage b) end).
  assert (E : forall St (sp : St -> Rpc -> St * reply) w, extended_status sp m w =
     cbind (rpc sp (HExtendedStatus m) None) (fun r => cret (g (msg_body (rpc_message r)) (rpc_data r))) w).
  { intros St sp w. unfold extended_status, unexpected, cbind.
    destruct (rpc sp (HExtendedStatus m) None w) as [? [resp|?|]]; [destruct (msg_body (rpc_message resp)) as [| |[]| |]; reflexivity|reflexivity..]. }
  pose (h := fun b x => match b with
      | BSpResponse (SStatus m0 f) =>
          obind (opt_unwrap x) (fun data =>
          obind (opt_unwrap (sp_expected_data_len (SStatus m0 f))) (fun n =>
          obind (split_at n data) (fun p =>
          obind (omapM (fun y => opt_unwrap (status_from_bits y)) (fst p)) (fun state =>
          obind (ctl_hw_errors f (snd p)) (fun failures => Ok (mkResult m0 state failures))))))
      | b => Err (EUnexpectedMessage b) end).
  assert (E' : forall St (sp : St -> Rpc -> St * reply) w, ctl_status sp m w =
     cbind (rpc sp (HStatus m) None) (fun r => cret (h (msg_body (rpc_message r)) (rpc_data r))) w).
  { intros St sp w. unfold ctl_status, unexpected, cbind.
    destruct (rpc sp (HStatus m) None w) as [? [resp|?|]]; [destruct (msg_body (rpc_message resp)) as [| |[]| |]; reflexivity|reflexivity..]. }
  pose (plain := Ask (HStatus m) None (fun x => match x with
      | Told b data => Ret (obind (h b data) (fun r => obind (omapM (fun s => ounwrap (ext_of_status s)) (mr_data r))
          (fun data => Ok (mkResult (mr_modules r) data (mr_failures r)))))
      | Missed e => Ret (Err e) end)).
  exists (Ask (HExtendedStatus m) None (fun x => match x with
      | Told b data => match g b data with Err _ => plain | y => Ret y end
      | Missed _ => plain end)).
  assert (P : forall St (sp : St -> Rpc -> St * reply) w, alone plain sp w = cbind (ctl_status sp m) (fun r =>
      cret (obind (omapM (fun s => ounwrap (ext_of_status s)) (mr_data r)) (fun data => Ok (mkResult (mr_modules r) data (mr_failures r))))) w).
  { intros St sp w. unfold cbind at 1. rewrite E'. unfold cbind. cbn [alone plain].
    destruct (rpc sp (HStatus m) None w) as [w' [r|e|]]; [|reflexivity..]. cbn [alone]. unfold cret.
    now destruct (h (msg_body (rpc_message r)) (rpc_data r)). }
  split.
  - intros St sp w. unfold status_result. rewrite E. unfold cbind at 1. cbn [alone].
    destruct (rpc sp (HExtendedStatus m) None w) as [w' [r|e|]]; [|symmetry; apply P|reflexivity]. unfold cret at 1.
    destruct (g (msg_body (rpc_message r)) (rpc_data r)); [reflexivity|symmetry; apply P|reflexivity].
  - assert (Hp : handled true plain). { cbn. split; [reflexivity|]. intros []; exact I. }
    split; [|].
    { intros [b data|e] Hx; [|eexists; reflexivity]. exists (fun x => match x with
      | Told b data => Ret (obind (h b data) (fun r => obind (omapM (fun s => ounwrap (ext_of_status s)) (mr_data r))
          (fun data => Ok (mkResult (mr_modules r) data (mr_failures r)))))
      | Missed e => Ret (Err e) end). destruct b as [| |[]| |]; try contradiction; reflexivity. }
    intros [b data|e]; [|exact Hp]. destruct (g b data); [exact I|exact Hp|exact I].
Defined.
Lemma run_read_loop m l : forall r, runs false (fun St sp => read_loop sp m l r).
Proof.
  induction l as [|rd l IH]; intro r; cbn [read_loop]; [rret|]. rb; [rd den_read|]. rb; [rret|]. apply IH.
Defined.
Lemma run_read m page offset len : runs false (fun St sp => cmd_read sp m page offset len).
Proof.
  unfold cmd_read. destruct (len =? 0); [rret|]. rb; [rret|]. rb; [rret|]. rb; [rret|]. rb; [apply run_read_loop|]. rret.
Defined.
Lemma run_acting b show i (c : forall St, (St -> Rpc -> St * reply) -> ctl (St := St) (Result unit)) :
  runs b c -> runs b (fun St sp => acting show i (c St sp)).
Proof. intro H. unfold acting. rb; [exact H|]. rret. Defined.
Lemma run_printing b show i {P} (c : forall St, (St -> Rpc -> St * reply) -> ctl (St := St) (Result P)) pr :
  runs b c -> runs b (fun St sp => printing show i (c St sp) pr).
Proof. intro H. unfold printing. rb; [exact H|]. rb; [rret|]. rret. Defined.
Lemma run_call_runs b show_f32 show i m c : (b = true <-> for_status c) -> runs b (fun St sp => run_call sp show_f32 show i m c).
Proof.
  intro Hb. destruct c; cbn [run_call].
  { rb; [rret|]. destruct b; [|exfalso; discriminate (proj2 Hb I)]. rb; [apply run_printing, run_status|]. rret. }
  all: destruct b; [now destruct (proj1 Hb eq_refl)|].
  all: try (apply run_acting; first [rd den_reset|rd den_set_power|rd den_ack]).
  all: try (apply run_printing; first [rd den_power|rd den_identifier|rd den_leds|unfold vendor_info; (apply run_den; [apply den_query|discriminate])|unfold memory_model; (apply run_den; [apply den_query|discriminate])
    |unfold monitors; (apply run_den; [apply den_query|discriminate])|unfold datapath; (apply run_den; [apply den_query|discriminate])]).
  - rb; [apply run_read|]. rret.
  - rret.
  - rb; [rd den_macs|]. rb; [rret|]. rret.
Defined.
Lemma run_main b show_f32 show a : (b = true <-> for_status (ar_cmd a)) -> runs b (xcvradm show_f32 show a).
Proof.
  intro Hb.
  assert (Wr : forall m page i offset, runs b (fun St sp => as_call (run_cmd sp show_f32 show (ar_ignore_errors a) m (CWrite page i offset)))).
  { intros m page i offset.
    destruct (args_data i) as [data|e|] eqn:E; [destruct (255 <? Nlen data) eqn:L| |].
    - apply (run_ext _ _ (fun St sp => cret (Ok None))); [|rret]. intros St sp w. unfold as_call, run_cmd, cmd_write. now rewrite E, L.
    - apply (run_ext _ _ (fun St sp => cbind (cret (args_page page)) (fun p =>
        cbind (cret (omap_err error_of_mgmt (write_new p offset (Nlen data)))) (fun wr =>
        cbind (ctl_write sp m wr data) (fun r => cret (Ok (Some (mkScreen [] (failures_shown show (ar_ignore_errors a) (mr_failures r))))))))));
        [|rb; [rret|]; rb; [rret|]; rb; [apply run_den; [apply den_write|intros _ St sp; apply asks_write; discriminate]|]; rret].
      intros St sp w. unfold as_call, run_cmd, cmd_write. rewrite E, L. unfold cbind, cret.
      destruct (args_page page) as [pg|e|]; [|reflexivity..].
      destruct (omap_err error_of_mgmt (write_new pg offset (Nlen data))) as [wr|e|]; [|reflexivity..].
      destruct (ctl_write sp m wr data w) as [w' [r|e|]]; reflexivity.
    - apply (run_ext _ _ (fun St sp => cret (Ok None))); [|rret]. intros St sp w. unfold as_call, run_cmd, cmd_write. now rewrite E.
    - apply (run_ext _ _ (fun St sp => cret Panic)); [|rret]. intros St sp w. unfold as_call, run_cmd, cmd_write. now rewrite E. }
  assert (C : forall m, runs b (fun St sp => as_call (run_cmd sp show_f32 show (ar_ignore_errors a) m (ar_cmd a)))).
  { intro m. destruct (ar_cmd a) eqn:Ec; try exact (Wr m _ _ _).
    all: match goal with |- runs _ (fun St sp => as_call (run_cmd sp ?u ?v ?i ?x ?c)) =>
      apply (run_ext _ _ (fun St sp => cbind (run_call sp u v i x c) (fun s => cret (Ok (Some s)))));
      [intros St sp w; unfold as_call, run_cmd, cbind, cret; destruct (run_call sp u v i x c w) as [w' [s|e|]]; reflexivity
      |rb; [now apply run_call_runs|rret]] end. }
  apply (run_ext _ _ (fun St sp => cbind (address_transceivers sp (chosen a)) (fun m => as_call (run_cmd sp show_f32 show (ar_ignore_errors a) m (ar_cmd a)))));
    [|rb; [apply run_select|apply C]].
  intros St sp w. unfold xcvradm, as_call, main, cbind. fold (chosen a).
  destruct (address_transceivers sp (chosen a) w) as [w' [m|e|]]; reflexivity.
Defined.

(** ** What it does *)
Definition status_flag (c : Cmd) : bool := match c with CStatus _ _ _ _ _ _ _ => true | _ => false end.
Lemma run_of show_f32 show a : runs (status_flag (ar_cmd a)) (xcvradm show_f32 show a).
Proof. apply run_main. destruct (ar_cmd a); cbn; split; (discriminate || easy). Defined.
Lemma handled_resume b {A} (p : prog A) : handled b p -> forall xs q d, question p xs = Some (q, d) ->
  match b, q with
  | true, HExtendedStatus m => forall x, useless x -> question p (xs ++ [x]) = Some (HStatus m, None)
  | _, _ => forall e, resume p (xs ++ [Err e]) = Ret (Err e)
  end.
Proof.
  induction p as [x|q0 d0 k IH|t p IH]; intros S xs q d H; [discriminate| |exact (IH S xs q d H)].
  destruct S as [S1 S2]. unfold question in *. cbn [resume] in H. destruct xs as [|[r|e'|] xs].
  - injection H as <- <-. cbn [app resume]. destruct b; [|intro e; now rewrite S1]. destruct q0; try (intro e; now rewrite S1).
    intros [r|e|] Hx; [| |contradiction].
    + destruct (S1 (Told (msg_body (rpc_message r)) (rpc_data r))) as (k' & ->); [|reflexivity]. exact Hx.
    + destruct (S1 (Missed e) Logic.I) as (k' & ->). reflexivity.
  - exact (IH _ (S2 _) xs q d H).
  - exact (IH _ (S2 _) xs q d H).
  - discriminate.
Qed.
Lemma tool_program show_f32 show a : exists p, steps_of (xcvradm show_f32 show a) p.
Proof. destruct (run_of show_f32 show a) as (p & H & _). now exists p. Qed.
Lemma tool_stops show_f32 show a p : steps_of (xcvradm show_f32 show a) p -> ~ for_status (ar_cmd a) -> stops_at_errors p.
Proof.
  intros H Hn xs q d e Q. destruct (run_of show_f32 show a) as (p0 & H0 & S).
  destruct (one_program _ p p0 H H0 xs) as [E _]. rewrite E in Q. apply (one_program _ p p0 H H0 (xs ++ [Err e])).
  pose proof (handled_resume _ p0 S xs q d Q) as K. destruct (ar_cmd a); cbn in K, Hn; (contradiction || exact (K e)).
Qed.
Lemma tool_status show_f32 show a p : steps_of (xcvradm show_f32 show a) p -> for_status (ar_cmd a) ->
  forall xs q d, question p xs = Some (q, d) ->
  match q with
  | HExtendedStatus m => forall x, useless x -> question p (xs ++ [x]) = Some (HStatus m, None)
  | _ => forall e, resume p (xs ++ [Err e]) = Ret (Err e)
  end.
Proof.
  intros H Hn xs q d Q. destruct (run_of show_f32 show a) as (p0 & H0 & S).
  destruct (one_program _ p p0 H H0 xs) as [E _]. rewrite E in Q.
  pose proof (handled_resume _ p0 S xs q d Q) as K. assert (Fl : status_flag (ar_cmd a) = true) by (destruct (ar_cmd a); (reflexivity || contradiction)).
  rewrite Fl in K. clear Q. destruct q; intros; try (apply (one_program _ p p0 H H0 (xs ++ [Err e])); apply K).
  rewrite (proj1 (one_program _ p p0 H H0 (xs ++ [x]))). now apply K.
Qed.

Lemma as_call_world {St A} (c : world St -> world St * outcome (option Error) A) w : fst (as_call c w) = fst (c w).
Proof. unfold as_call. now destruct (c w). Qed.
Lemma tool_cost St (sp : St -> Rpc -> St * reply) show_f32 show a s : let c := ar_cmd a in
  cost sp (s0 := s) (xcvradm show_f32 show a St sp) (selecting (chosen a) + fst (commanding c)) (snd (commanding c) + napping c * s).
Proof.
  intros c w. destruct (weigh_main sp (s0 := s) show_f32 show a w) as (ds & G & D). exists ds. split; [|exact D].
  unfold xcvradm. rewrite as_call_world. exact G.
Qed.
Lemma tool_in_time show_f32 show a : let c := ar_cmd a in
  in_time (xcvradm show_f32 show a) (selecting (chosen a) + fst (commanding c)) (snd (commanding c)) (napping c).
Proof.
  intro c. apply (@in_time_from false); [|intros St sp s; apply tool_cost].
  destruct (run_of show_f32 show a) as (p & H & _). exists p. split; [exact H|discriminate].
Qed.
Lemma tool_deadline show_f32 show a p t id start slack hs now h : let c := ar_cmd a in
  let wait := slack + attempts (cf_n_retries (args_config a)) * (1000 * cf_retry_interval (args_config a) + slack) in
  steps_of (xcvradm show_f32 show a) p -> idle_timed (cf_n_retries (args_config a)) (1000 * cf_retry_interval (args_config a)) t ->
  punctual slack (call_new t id p start) (hs ++ [(now, h)]) ->
  start + (selecting (chosen a) + fst (commanding c)) * wait + snd (commanding c) + napping c * (2 * slack) < now ->
  ended (call_run (call_new t id p start) hs).
Proof. intros c wait H I P L. exact (proj2 (tool_in_time show_f32 show a) p _ _ t id start slack hs now h H I P L). Qed.

Lemma tool_returns show_f32 show a p n_retries interval t id start hs x at_ :
  steps_of (xcvradm show_f32 show a) p -> idle_timed n_retries interval t ->
  tc_stage (call_run (call_new t id p start) hs) = Ready (Ret x) at_ ->
  forall n log, snd (xcvradm show_f32 show a _ script (mkWorld (replies_of (call_outputs (call_new t id p start) hs)) n log)) = x.
Proof. intros H I E n log. rewrite H. exact (returns_alone p n_retries interval t id start hs x at_ I E n log). Qed.

Lemma tool_network St (sp : St -> Rpc -> St * reply) : polite sp -> alike sp -> forall show_f32 show a p,
  steps_of (xcvradm show_f32 show a) p -> forall s0 c0 ts xs x, c0 < 2 ^ 64 -> forallb turn_ok ts = true -> few_turns ts ->
  nth_error (sy_calls (sys_run sp (sys_new (cf_n_retries (args_config a)) s0 c0 [p]) ts)) 0 = Some (Going xs (Ret x)) ->
  (exists e, In (Err e) xs /\ (for_status (ar_cmd a) \/ x = Err e)) \/ forall w, snd (xcvradm show_f32 show a St sp w) = x.
Proof.
  intros Po Al show_f32 show a p H s0 c0 ts xs x C T F E.
  destruct (ends_as_alone sp Po _ s0 c0 C [p] ts 0%nat p xs x Al T F eq_refl E) as [(e & He & S)|R].
  - left. exists e. split; [exact He|].
    destruct (status_flag (ar_cmd a)) eqn:Fl; [left; destruct (ar_cmd a); (exact I || discriminate)|right]. apply S.
    apply (tool_stops show_f32 show a p H). destruct (ar_cmd a); cbn; (discriminate || auto).
  - right. intro w. rewrite H. apply R.
Qed.

(** Without [--n-retries] a silent SP is waited for. *)
Lemma tool_waits show_f32 show a args m p t id start j : ar_cmd a = CLeds args -> ar_transceivers a = Some (TIndex m) ->
  ar_n_retries a = None -> m < 2 ^ 64 ->
  steps_of (xcvradm show_f32 show a) p ->
  idle_timed (cf_n_retries (args_config a)) (1000 * cf_retry_interval (args_config a)) t -> l_status (tm_loop t) = Running ->
  j < 2 ^ 64 - 1 -> let late := start + j * (1000 * cf_retry_interval (args_config a)) in
  exists hs h, in_order start (hs ++ [(late, h)]) /\ punctual 0 (call_new t id p start) (hs ++ [(late, h)]) /\
    ~ ended (call_run (call_new t id p start) (hs ++ [(late, h)])).
Proof.
  intros Ec Et En Hm H I R J late.
  assert (Q : exists k, p = Ask (HLedState m) None k).
  { destruct (run_of show_f32 show a) as [p0 [H0 S0]] eqn:E.
    assert (X : exists k, p0 = Ask (HLedState m) None k).
    { change p0 with (proj1_sig (exist (fun p => steps_of (xcvradm show_f32 show a) p /\ handled (status_flag (ar_cmd a)) p) p0 (conj H0 S0))).
      rewrite <- E. clear - Ec Et. destruct a as [c tr ? ? ? ? ? ? ? ?]. cbn in Ec, Et. subst c tr. eexists. reflexivity. }
    destruct X as (k & ->). assert (S : same p (Ask (HLedState m) None k)).
    { apply agree_same. intro xs. exists 0, []. now rewrite <- H, <- H0. }
    inversion S. eauto. }
  destruct Q as (k & ->). apply (silent_waits _ _ _ k (cf_n_retries (args_config a))); auto.
  - apply made_packs. split; [cbn; now apply N.ltb_lt|cbn; auto].
  - unfold args_config. cbn [cf_n_retries]. now rewrite En.
Qed.
