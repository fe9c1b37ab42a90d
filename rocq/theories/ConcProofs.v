(** Calls at the same time do not mix (C78). *)
From Verif Require Export ProgProofs NetProofs3.
From Verif Require Import Tac ControllerProofs9.

(** ** Lists *)
Lemma nth_update {A} n m (x : A) l : nth_error (update n x l) m =
  if Nat.eqb n m then match nth_error l n with Some _ => Some x | None => None end else nth_error l m.
Proof.
  revert n m. induction l as [|y l IH]; intros [|n] [|m]; cbn; try reflexivity.
  - destruct (Nat.eqb n m); destruct n; reflexivity.
  - apply IH.
Qed.
Lemma remove_nth_split {A} n (l : list A) x : nth_error l n = Some x ->
  exists a b, l = a ++ x :: b /\ remove_nth n l = a ++ b.
Proof.
  revert n. induction l as [|y l IH]; intros [|n] H; cbn in *; try discriminate.
  - injection H as ->. exists [], l. auto.
  - destruct (IH n H) as (a & b & -> & E). exists (y :: a), b. cbn. now rewrite E.
Qed.

(** ** Replies of one step of the loop *)
Definition is_reply (o : output) : bool := match o with OReply _ _ => true | _ => false end.
Lemma hear_all_replies {A} outs : forall cs : list (call A), hear_all outs cs = hear_all (filter is_reply outs) cs.
Proof.
  induction outs as [|o outs IH]; intros cs; [reflexivity|]. unfold hear_all in *. cbn [fold_left filter].
  destruct o; cbn [is_reply fold_left]; apply IH.
Qed.

Definition kept (s s' : loop) : Prop :=
  (l_out s = None /\ l_out s' = None) \/ exists o o', l_out s = Some o /\ l_out s' = Some o' /\ o_tag o' = o_tag o /\ o_request o' = o_request o /\
    o_retries o <= o_retries o'.
(** What a step does to the outstanding request, and the reply it gives. *)
Inductive step_kind (s : loop) (e : event) (s' : loop) (outs : list output) : Prop :=
| SkQuiet : filter is_reply outs = [] -> kept s s' -> step_kind s e s' outs
| SkTake tag r io o' : filter is_reply outs = [] -> e = EvRequest tag r io -> l_out s = None ->
    l_out s' = Some o' -> o_tag o' = tag -> o_request o' = r -> step_kind s e s' outs
| SkReply o x : filter is_reply outs = [OReply (o_tag o) x] -> l_out s' = None -> l_out s = Some o -> step_kind s e s' outs
| SkRefuse tag r io x : filter is_reply outs = [OReply tag x] -> l_out s' = None -> l_out s = None ->
    e = EvRequest tag r io -> step_kind s e s' outs.

Lemma kept_refl s : kept s s.
Proof. destruct (l_out s) as [o|] eqn:E; [right; exists o, o; repeat split; auto; apply N.le_refl|left; auto]. Qed.
Lemma kept_same s s' : l_out s' = l_out s -> kept s s'.
Proof. intros E. unfold kept. rewrite E. apply kept_refl. Qed.
Lemma answer_kind s s1 e o o1 x : l_out s = Some o -> o_tag o1 = o_tag o -> o_request o1 = o_request o -> o_retries o <= o_retries o1 -> l_out s1 = Some o1 ->
  step_kind s e (fst (IoLoop.answer s1 o1 x)) (snd (IoLoop.answer s1 o1 x)).
Proof.
  intros E Et Er El E1. unfold IoLoop.answer. destruct (o_gone o1); cbn [fst snd].
  - apply SkQuiet; [reflexivity|]. right. exists o, o1. repeat split; assumption.
  - apply (SkReply _ _ _ _ o x); [cbn; now rewrite Et|reflexivity|exact E].
Qed.
Lemma faulty_out s : l_out (increment_faulty s) = 
  match l_out s with Some o => Some (mkOut (o_tag o) (o_request o) (o_retries o) (o_errors o + 1) (o_gone o)) | None => None end.
Proof. unfold increment_faulty. destruct (l_out s) eqn:E; [reflexivity|exact E]. Qed.
Lemma faulty_kept s : kept s (increment_faulty s).
Proof.
  unfold kept. rewrite faulty_out. destruct (l_out s) as [o|]; [right|now left]. eexists o, _. cbn. repeat split; auto. apply N.le_refl.
Qed.
Lemma fail_kind s s1 e h pe : kept s s1 -> step_kind s e (fst (fail_matching s1 h pe)) (snd (fail_matching s1 h pe)).
Proof.
  intros K. unfold fail_matching. destruct K as [K|(o & o' & E & E' & Et & Er & El)].
  - destruct K as [K K']. rewrite K'. apply SkQuiet; [reflexivity|]. left. auto.
  - rewrite E'. destruct (_ =? _).
    + eapply answer_kind; eassumption.
    + apply SkQuiet; [reflexivity|]. right. exists o, o'. repeat split; assumption.
Qed.

Lemma step_kinds s e : step_kind s e (fst (step s e)) (snd (step s e)).
Proof.
  unfold step. destruct (l_status s) eqn:Es; [|apply SkQuiet; [reflexivity|apply kept_refl]..].
  destruct e as [tag r io| |io|hr io| |peer d io| |].
  - destruct (l_out s) as [o|] eqn:E; [apply SkQuiet; [reflexivity|apply kept_refl]|].
    unfold send_outgoing_request. destruct (request_packet _) as [p|].
    + destruct io; cbn [fst snd].
      * eapply SkTake; [reflexivity|reflexivity|exact E|reflexivity|reflexivity|reflexivity].
      * unfold IoLoop.answer. cbn [o_gone fst snd]. eapply SkRefuse; [reflexivity|reflexivity|exact E|reflexivity].
    + eapply SkTake; [reflexivity|reflexivity|exact E|reflexivity|reflexivity|reflexivity].
  - destruct (l_out s) as [o|] eqn:E; (apply SkQuiet; [reflexivity|]); [apply kept_refl|now left].
  - unfold handle_tick. destruct (l_out s) as [o|] eqn:E; [|apply SkQuiet; [reflexivity|apply kept_refl]].
    destruct (_ && _).
    + unfold send_outgoing_request. destruct (request_packet _) as [p|].
      * destruct io; cbn [fst snd].
        { apply SkQuiet; [reflexivity|]. right. eexists o, _. cbn. repeat split; auto. cbn [o_retries]. lia. }
        { pose proof (answer_kind s s (EvTick false) o o (Err EIo) E eq_refl eq_refl (N.le_refl _) E) as K.
          destruct (IoLoop.answer s o (Err EIo)) as [s' out]. cbn [fst snd] in *.
          inversion K; [apply SkQuiet; assumption|discriminate|eapply SkReply; eassumption|discriminate]. }
      * apply SkQuiet; [reflexivity|]. apply (kept_same s (crash s)); reflexivity.
    + destruct (_ <=? _); (eapply answer_kind; [exact E|reflexivity|reflexivity|apply N.le_refl|exact E]).
  - destruct hr as [r| |]; [|apply SkQuiet; [reflexivity|apply kept_refl]..].
    unfold send_outgoing_response. destruct (Nat.leb _ _); (apply SkQuiet; [reflexivity|]); [apply kept_refl|].
    apply kept_same. reflexivity.
  - apply SkQuiet; [reflexivity|apply faulty_kept].
  - unfold handle_datagram. destruct (dec_header _) as [[h rx]|]; [|apply SkQuiet; [reflexivity|apply faulty_kept]].
    destruct (h_kind h).
    + unfold handle_sp_error. destruct (dec_message rx) as [[m rest]|]; [|apply fail_kind, faulty_kept].
      destruct (msg_body m); [apply fail_kind, faulty_kept|apply SkQuiet; [reflexivity|apply faulty_kept]..].
    + apply SkQuiet; [reflexivity|apply faulty_kept].
    + unfold handle_sp_response. destruct (l_out s) as [o|] eqn:E; [|apply SkQuiet; [reflexivity|apply kept_refl]].
      destruct (dec_message rx) as [[m rest]|].
      * destruct (msg_body m); try (apply fail_kind, kept_refl).
        destruct (_ =? _); [|apply SkQuiet; [reflexivity|apply kept_refl]].
        eapply answer_kind; [exact E|reflexivity|reflexivity|apply N.le_refl|exact E].
      * destruct rx as [|v rx]; [apply SkQuiet; [reflexivity|now apply kept_same]|]. apply fail_kind, faulty_kept.
    + unfold handle_sp_request. destruct (dec_message rx) as [[m rest]|]; [|apply SkQuiet; [reflexivity|apply kept_refl]].
      destruct (l_handler s); apply SkQuiet; try reflexivity; [apply kept_refl|now apply kept_same].
    + apply SkQuiet; [reflexivity|apply faulty_kept].
  - destruct (l_out s) as [o|] eqn:E; (apply SkQuiet; [reflexivity|]); [|now left].
    right. eexists o, _. cbn. repeat split; auto. apply N.le_refl.
  - apply SkQuiet; [reflexivity|now apply kept_same].
Qed.

(** ** The run of the loop inside the run of the calls *)
Section Conc.
  Context {St A : Type} (sp : St -> Rpc -> St * reply) (Hpol : polite sp) (retries : option N) (st0 : St) (c0 : N)
          (Hc0 : c0 < 2 ^ 64) (ps : list (prog A)).
  Let n0 := net_new retries st0.
  Let sys0 : sys St A := sys_new retries st0 c0 ps.
  Let sys_run := sys_run (A := A) sp.
  Let sys_step := sys_step (A := A) sp.

  Definition waits (s : sys St A) (i : nat) (id : N) (q : HostRequest) (d : option (list N)) : Prop :=
    exists xs k, nth_error (sy_calls s) i = Some (Waiting xs id q d k).
  Definition moves_of (s : sys St A) (t : turn St) : list (move St) :=
    match t with
    | TCall _ => []
    | TAccept j io => match nth_error (sy_queue s) j with
                      | Some r => if idle (sy_net s) then [MRequest (rpc_id r) r io] else []
                      | None => []
                      end
    | TNet m => match m with MRequest _ _ _ => [] | _ => [m] end
    end.
  Fixpoint nets (s : sys St A) (ts : list (turn St)) : list (move St) :=
    match ts with [] => [] | t :: r => moves_of s t ++ nets (sys_step s t) r end.
  Lemma run_app s a b : sys_run s (a ++ b) = sys_run (sys_run s a) b.
  Proof. apply fold_left_app. Qed.
  Lemma nets_app s a b : nets s (a ++ b) = nets s a ++ nets (sys_run s a) b.
  Proof. revert s. induction a as [|t a IH]; intros s; cbn; [reflexivity|]. now rewrite IH, app_assoc. Qed.
  Lemma moves_short s t : moves_of s t = [] \/ exists m, moves_of s t = [m].
  Proof.
    destruct t as [i|j io|m]; cbn; [now left| |].
    - destruct (nth_error _ _); [|now left]. destruct (idle _); [right; eauto|now left].
    - destruct m; eauto.
  Qed.
  Lemma nets_split s ts a m b : nets s ts = a ++ m :: b -> exists pre t post, ts = pre ++ t :: post /\
    nets s pre = a /\ moves_of (sys_run s pre) t = [m].
  Proof.
    revert s a. induction ts as [|t ts IH]; intros s a E; cbn in E; [now destruct a|].
    destruct (moves_short s t) as [Em|(m' & Em)]; rewrite Em in E; cbn in E.
    - destruct (IH _ _ E) as (pre & t' & post & -> & En & Et). exists (t :: pre), t', post.
      split; [reflexivity|]. split; [cbn; now rewrite Em|exact Et].
    - destruct a as [|x a]; injection E as -> E.
      + exists [], t, ts. split; [reflexivity|]. split; [reflexivity|exact Em].
      + destruct (IH _ _ E) as (pre & t' & post & -> & En & Et). exists (t :: pre), t', post.
        split; [reflexivity|]. split; [cbn; now rewrite Em, En|exact Et].
  Qed.

  (** One turn. *)
  Inductive turn_kind (s : sys St A) (t : turn St) : Prop :=
  | TkStay : moves_of s t = [] -> sys_step s t = s -> turn_kind s t
  | TkAsk i xs q d k : t = TCall i -> moves_of s t = [] -> nth_error (sy_calls s) i = Some (Going xs (Ask q d k)) ->
      wf_rpc (host_request (sy_counter s) q d) = true ->
      sys_step s t = mkSys (sy_net s) ((sy_counter s + 1) mod 2 ^ 64)
                    (sy_queue s ++ [host_request (sy_counter s) q d])
                    (update i (Waiting xs (sy_counter s) q d k) (sy_calls s)) -> turn_kind s t
  | TkNap i xs u p : t = TCall i -> moves_of s t = [] -> nth_error (sy_calls s) i = Some (Going xs (Nap u p)) ->
      sys_step s t = mkSys (sy_net s) (sy_counter s) (sy_queue s) (update i (Going xs p) (sy_calls s)) -> turn_kind s t
  | TkAccept r io a b : moves_of s t = [MRequest (rpc_id r) r io] -> sy_queue s = a ++ r :: b ->
      l_out (nt_loop (sy_net s)) = None ->
      sys_step s t = mkSys (fst (net_step sp (sy_net s) (MRequest (rpc_id r) r io))) (sy_counter s) (a ++ b)
        (hear_all (snd (net_step sp (sy_net s) (MRequest (rpc_id r) r io))) (sy_calls s)) -> turn_kind s t
  | TkMove m : moves_of s t = [m] -> t = TNet m -> match m with MRequest _ _ _ => False | _ => True end ->
      sys_step s t = mkSys (fst (net_step sp (sy_net s) m)) (sy_counter s) (sy_queue s)
        (hear_all (snd (net_step sp (sy_net s) m)) (sy_calls s)) -> turn_kind s t.
  Lemma turn_kinds s t : turn_kind s t.
  Proof.
    destruct t as [i|j io|m].
    - assert (Em : moves_of s (TCall i) = []) by reflexivity.
      destruct (nth_error (sy_calls s) i) as [[xs [x|q d k|u p]|xs id q d k]|] eqn:E;
        try (apply TkStay; [exact Em|cbn; now rewrite E]).
      + destruct (wf_rpc (host_request (sy_counter s) q d)) eqn:Ew.
        * eapply TkAsk; try eassumption; [reflexivity|]. cbn. now rewrite E, Ew.
        * apply TkStay; [exact Em|]. cbn. now rewrite E, Ew.
      + eapply TkNap; try eassumption; [reflexivity|]. cbn. now rewrite E.
    - destruct (nth_error (sy_queue s) j) as [r|] eqn:E; [|apply TkStay; cbn; now rewrite E].
      destruct (idle (sy_net s)) eqn:Ei; [|apply TkStay; cbn; now rewrite E, Ei].
      destruct (remove_nth_split _ _ _ E) as (a & b & Eq & Er).
      eapply (TkAccept _ _ r io a b); [cbn; now rewrite E, Ei|exact Eq| |].
      + unfold idle in Ei. destruct (l_status _); try discriminate. destruct (l_out _); [discriminate|reflexivity].
      + cbn. rewrite E, Ei, Er. destruct (step _ _). reflexivity.
    - destruct m; try (apply TkMove with (2 := eq_refl);
        [reflexivity|exact I|cbv beta delta [sys_step SpecConc.sys_step] iota; destruct (net_step _ _ _); reflexivity]).
      now apply TkStay.
  Qed.

  (** What a move does to the outstanding request, and its replies. *)
  Lemma move_kind n m : match m with MRequest _ _ _ => False | _ => True end ->
    (filter is_reply (snd (net_step sp n m)) = [] /\ kept (nt_loop n) (nt_loop (fst (net_step sp n m)))) \/
    exists o x, filter is_reply (snd (net_step sp n m)) = [OReply (o_tag o) x] /\ l_out (nt_loop n) = Some o /\
      l_out (nt_loop (fst (net_step sp n m))) = None.
  Proof.
    intros Hm.
    assert (G : forall e, (forall tag r io, e <> EvRequest tag r io) ->
      (filter is_reply (snd (step (nt_loop n) e)) = [] /\ kept (nt_loop n) (fst (step (nt_loop n) e))) \/
      exists o x, filter is_reply (snd (step (nt_loop n) e)) = [OReply (o_tag o) x] /\ l_out (nt_loop n) = Some o /\
        l_out (fst (step (nt_loop n) e)) = None).
    { intros e He. destruct (step_kinds (nt_loop n) e) as [Hf Hk|tag r io o' Hf Ee|o x Hf Ho Hs|tag r io x Hf H1 H2 Ee].
      - left. auto.
      - now apply He in Ee.
      - right. eauto.
      - now apply He in Ee. }
    destruct m; try contradiction; cbn [net_step move_event];
      try (match goal with |- context [step _ ?e] => generalize (G e) end;
           intros G'; destruct (step _ _); cbn [fst snd nt_loop] in *; apply G'; discriminate).
    - destruct (nth_error _ _); [|left; split; [reflexivity|apply kept_refl]].
      destruct (serve _ _ _). left. split; [reflexivity|apply kept_refl].
    - destruct (nth_error _ _); [|left; split; [reflexivity|apply kept_refl]].
      match goal with |- context [step _ ?e] => generalize (G e) end.
      intros G'; destruct (step _ _); cbn [fst snd nt_loop] in *; apply G'; discriminate.
    - left. split; [reflexivity|apply kept_refl].
  Qed.
  Lemma request_kind n r io : l_out (nt_loop n) = None ->
    let n' := fst (net_step sp n (MRequest (rpc_id r) r io)) in
    let outs := snd (net_step sp n (MRequest (rpc_id r) r io)) in
    (filter is_reply outs = [] /\
     (l_out (nt_loop n') = None \/ exists o', l_out (nt_loop n') = Some o' /\ o_tag o' = rpc_id r /\ o_request o' = r)) \/
    exists x, filter is_reply outs = [OReply (rpc_id r) x] /\ l_out (nt_loop n') = None.
  Proof.
    intros E. cbn [net_step move_event].
    pose proof (step_kinds (nt_loop n) (EvRequest (rpc_id r) r io)) as K.
    destruct (step _ _) as [l outs]. cbn [fst snd nt_loop] in *.
    destruct K as [Hf Hk|tag r' io' o' Hf Ee H1 H2 H3 H4|o x Hf Ho Hs|tag r' io' x Hf H1 H2 Ee].
    - left. split; [exact Hf|]. left. destruct Hk as [[_ Hk]|(o & o' & Ho & _)]; [exact Hk|congruence].
    - injection Ee as -> -> ->. left. split; [exact Hf|]. right. eauto.
    - congruence.
    - injection Ee as -> -> ->. right. eauto.
  Qed.

  (** ** The invariant *)
  Definition used (n id : N) : Prop := exists j, j < n /\ id = (c0 + j) mod 2 ^ 64.
  Lemma used_more n n' id : n <= n' -> used n id -> used n' id.
  Proof. intros H (j & Hj & ->). exists j. split; [lia|reflexivity]. Qed.
  Lemma fresh n : n < 2 ^ 64 -> ~ used n ((c0 + n) mod 2 ^ 64).
  Proof.
    intros Hn (j & Hj & E). apply (id_gap ((c0 + j) mod 2 ^ 64) (n - j)); [now apply N.mod_lt|lia|lia|].
    rewrite N.add_mod_idemp_l by discriminate. rewrite <- E. f_equal. lia.
  Qed.

  Record inv (s : sys St A) (ms : list (move St)) (n : N) : Prop :=
    { i_net : sy_net s = net_after sp n0 ms;
      i_noise : forallb noise_ok ms = true;
      i_ctr : sy_counter s = (c0 + n) mod 2 ^ 64;
      i_tags : forall tag r io, In (MRequest tag r io) ms -> wf_rpc r = true /\ tag = rpc_id r;
      i_queue : forall r, In r (sy_queue s) -> wf_rpc r = true /\
        exists i q d, waits s i (rpc_id r) q d /\ r = host_request (rpc_id r) q d;
      i_nodup : NoDup (map rpc_id (handed_over ms ++ sy_queue s));
      i_used : forall r, In r (handed_over ms ++ sy_queue s) -> used n (rpc_id r);
      i_waits : forall i id q d, waits s i id q d -> used n id;
      i_one : forall i j id q d q' d', waits s i id q d -> waits s j id q' d' -> i = j;
      i_out : forall o, l_out (nt_loop (sy_net s)) = Some o ->
        In (o_request o) (handed_over ms) /\
        exists i q d, waits s i (o_tag o) q d /\ o_request o = host_request (o_tag o) q d }.

  Lemma nth_hear_all outs : forall (cs : list (call A)) i, nth_error (hear_all outs cs) i =
    match nth_error cs i with
    | Some c => Some (fold_left (fun c o => match o with OReply tag x => hear tag x c | _ => c end) outs c)
    | None => None
    end.
  Proof.
    induction outs as [|o outs IH]; intros cs i; cbn; [now destruct (nth_error cs i)|].
    destruct o; cbn [fold_left]; unfold hear_all in IH; rewrite IH; try reflexivity.
    rewrite nth_error_map. now destruct (nth_error cs i).
  Qed.
  Lemma waits_hear n c qu cs tag x i id q d : waits (mkSys (St := St) (A := A) n c qu (hear_all [OReply tag x] cs)) i id q d <->
    (exists xs k, nth_error cs i = Some (Waiting xs id q d k)) /\ id <> tag.
  Proof.
    unfold waits. cbn [sy_calls]. rewrite nth_hear_all. cbn [fold_left].
    split.
    - intros (xs & k & E). destruct (nth_error cs i) as [[xs' p|xs' id' q' d' k']|]; cbn in E; try discriminate.
      destruct (N.eqb_spec id' tag); [discriminate|]. injection E as -> -> -> -> ->. eauto.
    - intros ((xs & k & E) & Hne). exists xs, k. rewrite E. cbn. destruct (N.eqb_spec id tag); [contradiction|reflexivity].
  Qed.

  Lemma inv_turn s ms n t : inv s ms n -> turn_ok t = true -> n < 2 ^ 64 ->
    exists n', n <= n' /\ n' <= n + 1 /\ inv (sys_step s t) (ms ++ moves_of s t) n'.
  Proof.
    intros [Hnet Hnoise Hctr Htags Hqueue Hnd Hused Hw Hone Hout] Hok Hn.
    destruct (turn_kinds s t) as [Em Es|i xs q d k Et Em Ei Ewf Es|i xs u p Et Em Ei Es|r io a b Em Eq El Es|m Em Et Hm Es];
      rewrite Em, Es; rewrite ?app_nil_r.
    - exists n. split; [lia|]. split; [lia|]. now constructor.
    - exists (n + 1). split; [lia|]. split; [lia|].
      assert (Hid : sy_counter s = (c0 + n) mod 2 ^ 64) by exact Hctr.
      set (id := sy_counter s) in *. clearbody id.
      assert (Hfr : ~ used n id) by (rewrite Hid; now apply fresh).
      assert (Hus : used (n + 1) id) by (exists n; split; [lia|exact Hid]).
      assert (Hold : forall j id' q' d', waits s j id' q' d' -> 
        waits (mkSys (sy_net s) ((id + 1) mod 2 ^ 64) (sy_queue s ++ [host_request id q d])
               (update i (Waiting xs id q d k) (sy_calls s))) j id' q' d').
      { intros j id' q' d' (xs' & k' & E). exists xs', k'. cbn [sy_calls]. rewrite nth_update.
        destruct (Nat.eqb_spec i j) as [->|]; [congruence|exact E]. }
      assert (Hnew : forall j id' q' d', 
        waits (mkSys (sy_net s) ((id + 1) mod 2 ^ 64) (sy_queue s ++ [host_request id q d])
               (update i (Waiting xs id q d k) (sy_calls s))) j id' q' d' ->
        waits s j id' q' d' \/ (j = i /\ id' = id)).
      { intros j id' q' d' (xs' & k' & E). cbn [sy_calls] in E. rewrite nth_update in E.
        destruct (Nat.eqb_spec i j) as [->|]; [|left; now exists xs', k'].
        rewrite Ei in E. injection E as -> -> -> -> ->. now right. }
      constructor; cbn [sy_net sy_counter sy_queue].
      + exact Hnet.
      + exact Hnoise.
      + rewrite Hid. rewrite N.add_mod_idemp_l by discriminate. f_equal. lia.
      + exact Htags.
      + intros r Hr. apply in_app_or in Hr. destruct Hr as [Hr|[<-|[]]].
        * destruct (Hqueue r Hr) as (H1 & j & q' & d' & H2 & H3). split; [exact H1|].
          exists j, q', d'. split; [now apply Hold|exact H3].
        * split; [exact Ewf|]. exists i, q, d. split; [|reflexivity]. exists xs, k. cbn [sy_calls].
          rewrite nth_update, Nat.eqb_refl, Ei. reflexivity.
      + rewrite app_assoc, map_app. cbn [map]. apply NoDup_app_one; [exact Hnd|].
        intros Hin. apply in_map_iff in Hin. destruct Hin as (r & Er & Hr). apply Hfr.
        change (rpc_id (host_request id q d)) with id in Er. rewrite <- Er. now apply Hused.
      + intros r Hr. rewrite app_assoc in Hr. apply in_app_or in Hr. destruct Hr as [Hr|[<-|[]]].
        * apply (used_more n); [lia|now apply Hused].
        * exact Hus.
      + intros j id' q' d' H. destruct (Hnew _ _ _ _ H) as [H'|(-> & ->)]; [|exact Hus].
        apply (used_more n); [lia|]. eapply Hw. exact H'.
      + intros j j' id' q1 d1 q2 d2 H1 H2.
        destruct (Hnew _ _ _ _ H1) as [H1'|(Ea & Eb)], (Hnew _ _ _ _ H2) as [H2'|(Ec & Ed)].
        * eapply Hone; eassumption.
        * exfalso. apply Hfr. rewrite <- Ed. eapply Hw. exact H1'.
        * exfalso. apply Hfr. rewrite <- Eb. eapply Hw. exact H2'.
        * congruence.
      + intros o Ho. destruct (Hout o Ho) as (H1 & j & q' & d' & H2 & H3). split; [exact H1|].
        exists j, q', d'. split; [now apply Hold|exact H3].
    - exists n. split; [lia|]. split; [lia|].
      assert (Hiff : forall j id' q' d', waits (mkSys (sy_net s) (sy_counter s) (sy_queue s) (update i (Going xs p) (sy_calls s))) j id' q' d' <->
        waits s j id' q' d').
      { intros j id' q' d'. unfold waits. cbn [sy_calls]. rewrite nth_update.
        destruct (Nat.eqb_spec i j) as [->|]; [|reflexivity]. rewrite Ei.
        split; intros (xs' & k' & E); discriminate. }
      constructor; cbn [sy_net sy_counter sy_queue]; try assumption.
      + intros r Hr. destruct (Hqueue r Hr) as (H1 & j & q' & d' & H2 & H3). split; [exact H1|].
        exists j, q', d'. split; [now apply Hiff|exact H3].
      + intros j id' q' d' H. apply Hiff in H. eapply Hw; exact H.
      + intros j j' id' q1 d1 q2 d2 H1 H2. apply Hiff in H1. apply Hiff in H2. eapply Hone; eassumption.
      + intros o Ho. destruct (Hout o Ho) as (H1 & j & q' & d' & H2 & H3). split; [exact H1|].
        exists j, q', d'. split; [now apply Hiff|exact H3].
    - exists n. split; [lia|]. split; [lia|].
      assert (Hho : handed_over (ms ++ [MRequest (rpc_id r) r io]) = handed_over ms ++ [r]).
      { unfold handed_over. rewrite flat_map_app. reflexivity. }
      assert (Hrq : In r (sy_queue s)) by (rewrite Eq; apply in_elt).
      assert (Hnet' : fst (net_step sp (sy_net s) (MRequest (rpc_id r) r io)) = net_after sp n0 (ms ++ [MRequest (rpc_id r) r io])).
      { rewrite net_after_app, <- Hnet, net_after_cons. reflexivity. }
      assert (Hnoise' : forallb noise_ok (ms ++ [MRequest (rpc_id r) r io]) = true).
      { rewrite forallb_app, Hnoise. reflexivity. }
      assert (Htags' : forall tag r' io', In (MRequest tag r' io') (ms ++ [MRequest (rpc_id r) r io]) ->
        wf_rpc r' = true /\ tag = rpc_id r').
      { intros tag r' io' H. apply in_app_or in H. destruct H as [H|[H|[]]]; [eapply Htags; exact H|].
        injection H as <- <- <-. split; [|reflexivity]. now apply Hqueue. }
      assert (Hnd' : NoDup (map rpc_id ((handed_over ms ++ [r]) ++ a ++ b))).
      { rewrite Eq in Hnd. rewrite app_assoc, map_app in Hnd. cbn [map] in Hnd.
        rewrite <- app_assoc. cbn [app]. rewrite !map_app. cbn [map]. rewrite map_app in Hnd.
        rewrite map_app.
        eapply Permutation.Permutation_NoDup; [|exact Hnd].
        rewrite <- app_assoc. apply Permutation.Permutation_app_head.
        apply Permutation.Permutation_sym, Permutation.Permutation_middle. }
      assert (Hused' : forall r', In r' ((handed_over ms ++ [r]) ++ a ++ b) -> used n (rpc_id r')).
      { intros r' H. apply Hused. rewrite Eq. rewrite !in_app_iff in *. cbn [In] in *. tauto. }
      assert (Hsub : forall r', In r' (a ++ b) -> In r' (sy_queue s)).
      { intros r' H. rewrite Eq, in_app_iff. cbn [In]. apply in_app_or in H. tauto. }
      pose proof (request_kind (sy_net s) r io El) as K. cbv zeta in K.
      rewrite (hear_all_replies (snd _)).
      destruct K as [(Hf & Ho)|(x & Hf & Ho)]; rewrite Hf.
      + constructor; cbn [sy_net sy_counter sy_queue]; rewrite ?Hho; try assumption.
        * intros r' H. exact (Hqueue r' (Hsub r' H)).
        * intros o Eo. destruct Ho as [Ho|(o' & Ho & Ht & Hr)]; [congruence|].
          rewrite Ho in Eo. injection Eo as <-. rewrite Ht, Hr. split; [apply in_or_app; right; now left|].
          destruct (Hqueue r Hrq) as (_ & j & q' & d' & H2 & H3). exists j, q', d'. split; [exact H2|exact H3].
      + constructor; cbn [sy_net sy_counter sy_queue]; rewrite ?Hho; try assumption.
        * intros r' H. destruct (Hqueue r' (Hsub r' H)) as (H1 & j & q' & d' & H2 & H3). split; [exact H1|].
          exists j, q', d'. split; [|exact H3]. apply waits_hear. split; [exact H2|].
          intros E. rewrite <- app_assoc, map_app in Hnd'. cbn [app map] in Hnd'.
          apply NoDup_remove_2 in Hnd'. apply Hnd'. apply in_or_app. right. rewrite <- E. now apply in_map.
        * intros j id' q' d' H. apply waits_hear in H. eapply Hw. apply H.
        * intros j j' id' q1 d1 q2 d2 H1 H2. apply waits_hear in H1. apply waits_hear in H2.
          eapply Hone; [apply H1|apply H2].
        * intros o Eo. congruence.
    - subst t. exists n. split; [lia|]. split; [lia|].
      assert (Hho : handed_over (ms ++ [m]) = handed_over ms).
      { unfold handed_over. rewrite flat_map_app. destruct m; cbn; try contradiction; apply app_nil_r. }
      assert (Hnet' : fst (net_step sp (sy_net s) m) = net_after sp n0 (ms ++ [m])).
      { rewrite net_after_app, <- Hnet, net_after_cons. reflexivity. }
      assert (Hnoise' : forallb noise_ok (ms ++ [m]) = true).
      { rewrite forallb_app, Hnoise. cbn [forallb]. rewrite andb_true_r. exact Hok. }
      assert (Htags' : forall tag r' io', In (MRequest tag r' io') (ms ++ [m]) -> wf_rpc r' = true /\ tag = rpc_id r').
      { intros tag r' io' H. apply in_app_or in H. destruct H as [H|[H|[]]]; [eapply Htags; exact H|].
        subst m. contradiction. }
      rewrite (hear_all_replies (snd _)).
      destruct (move_kind (sy_net s) m Hm) as [(Hf & Hk)|(o & x & Hf & Ho & Ho')]; rewrite Hf.
      + constructor; cbn [sy_net sy_counter sy_queue]; rewrite ?Hho; try assumption.
        intros o' Eo. destruct Hk as [[_ Hk]|(o & o1 & H1 & H2 & H3 & H4 & _)]; [congruence|].
        rewrite H2 in Eo. injection Eo as <-. rewrite H3, H4. now apply Hout.
      + destruct (Hout o Ho) as (Hoin & j0 & q0 & d0 & Hw0 & Hq0).
        constructor; cbn [sy_net sy_counter sy_queue]; rewrite ?Hho; try assumption.
        * intros r' H. destruct (Hqueue r' H) as (H1 & j & q' & d' & H2 & H3). split; [exact H1|].
          exists j, q', d'. split; [|exact H3]. apply waits_hear. split; [exact H2|].
          intros E. apply in_split in H. destruct H as (u & v & Ev). rewrite Ev, app_assoc, map_app in Hnd.
          cbn [map] in Hnd. apply NoDup_remove_2 in Hnd. apply Hnd. apply in_or_app. left. rewrite map_app, in_app_iff. left.
          rewrite E. apply in_map_iff. exists (o_request o). split; [|exact Hoin]. rewrite Hq0. reflexivity.
        * intros j id' q' d' H. apply waits_hear in H. eapply Hw. apply H.
        * intros j j' id' q1 d1 q2 d2 H1 H2. apply waits_hear in H1. apply waits_hear in H2.
          eapply Hone; [apply H1|apply H2].
        * intros o' Eo. congruence.
  Qed.

  Lemma inv_start : inv sys0 [] 0.
  Proof.
    assert (Hno : forall i id q d, ~ waits sys0 i id q d).
    { intros i id q d (xs & k & E). cbn in E. rewrite nth_error_map in E. destruct (nth_error ps i); discriminate. }
    constructor; cbn; try reflexivity; try contradiction.
    - rewrite N.add_0_r, N.mod_small; [reflexivity|exact Hc0].
    - constructor.
    - intros i id q d H. now apply Hno in H.
    - intros i j id q d q' d' H. now apply Hno in H.
    - discriminate.
  Qed.
  Lemma run_snoc s a t : sys_run s (a ++ [t]) = sys_step (sys_run s a) t.
  Proof. rewrite run_app. reflexivity. Qed.
  Lemma nets_snoc s a t : nets s (a ++ [t]) = nets s a ++ moves_of (sys_run s a) t.
  Proof. rewrite nets_app. cbn. now rewrite app_nil_r. Qed.
  Lemma inv_run ts : forallb turn_ok ts = true -> few_turns ts ->
    exists n, n <= Nlen ts /\ inv (sys_run sys0 ts) (nets sys0 ts) n.
  Proof.
    unfold few_turns. induction ts as [|t ts IH] using rev_ind; intros Hok Hlen.
    - exists 0. split; [lia|exact inv_start].
    - rewrite forallb_app in Hok. apply andb_prop in Hok. destruct Hok as [Hok Ht]. cbn in Ht. rewrite andb_true_r in Ht.
      assert (El : Nlen (ts ++ [t]) = Nlen ts + 1) by (unfold Nlen; rewrite app_length; cbn; lia).
      destruct IH as (n & Hn & Hi); [exact Hok|lia|].
      destruct (inv_turn _ _ _ t Hi Ht) as (n' & H1 & H2 & Hi'); [lia|].
      exists n'. split; [lia|]. rewrite run_snoc, nets_snoc. exact Hi'.
  Qed.

  (** Who waits for an id taken before has done so since. *)
  Lemma wait_back s ms n t i xs id q d k : inv s ms n -> n < 2 ^ 64 -> used n id ->
    nth_error (sy_calls (sys_step s t)) i = Some (Waiting xs id q d k) ->
    nth_error (sy_calls s) i = Some (Waiting xs id q d k).
  Proof.
    intros Hi Hn Hu.
    assert (G : forall outs, nth_error (hear_all outs (sy_calls s)) i = Some (Waiting xs id q d k) ->
      nth_error (sy_calls s) i = Some (Waiting xs id q d k)).
    { intros outs. rewrite nth_hear_all. destruct (nth_error (sy_calls s) i) as [c|]; [|discriminate].
      intros E. injection E as E. f_equal. revert c E. induction outs as [|o outs IH]; intros c E; [exact E|].
      cbn in E. destruct o; try exact (IH _ E). apply IH in E. destruct c as [xs' p|xs' id' q' d' k']; [discriminate|].
      cbn in E. destruct (id' =? tag); [discriminate|exact E]. }
    destruct (turn_kinds s t) as [Em Es|j xs' q' d' k' Et Em Ei Ewf Es|j xs' u p Et Em Ei Es|r io a b Em Eq El Es|m Em Et Hm Es];
      rewrite Es; cbn [sy_calls]; try apply G.
    - auto.
    - rewrite nth_update. destruct (Nat.eqb j i); [|auto]. rewrite Ei. intros E. injection E as <- E _ _ _.
      exfalso. apply (fresh n Hn). rewrite <- (i_ctr _ _ _ Hi). now rewrite E.
    - rewrite nth_update. destruct (Nat.eqb j i); [|auto]. rewrite Ei. discriminate.
  Qed.
  Lemma nlen_app {B} (a b : list B) : Nlen (a ++ b) = Nlen a + Nlen b.
  Proof. unfold Nlen. rewrite app_length. lia. Qed.
  Lemma waited ts pre post i xs id q d k n : forallb turn_ok ts = true -> few_turns ts -> ts = pre ++ post ->
    n <= Nlen pre -> inv (sys_run sys0 pre) (nets sys0 pre) n -> used n id ->
    nth_error (sy_calls (sys_run sys0 ts)) i = Some (Waiting xs id q d k) ->
    nth_error (sy_calls (sys_run sys0 pre)) i = Some (Waiting xs id q d k).
  Proof.
    intros Hok Hlen E Hn Hi. subst ts. unfold few_turns in Hlen. revert pre n Hok Hlen Hn Hi.
    induction post as [|t post IH]; intros pre n Hok Hlen Hn Hi Hu Hw; [now rewrite app_nil_r in Hw|].
    change (t :: post) with ([t] ++ post) in *. rewrite app_assoc in Hw, Hok, Hlen.
    assert (El : Nlen (pre ++ [t]) = Nlen pre + 1) by (rewrite nlen_app; reflexivity).
    assert (Hsmall : n < 2 ^ 64) by (rewrite nlen_app in Hlen; lia).
    pose proof Hok as Hok'. rewrite forallb_app in Hok'. apply andb_prop in Hok'. destruct Hok' as [Hok' _].
    rewrite forallb_app in Hok'. apply andb_prop in Hok'. destruct Hok' as [_ Ht]. cbn in Ht. rewrite andb_true_r in Ht.
    destruct (inv_turn _ _ _ t Hi Ht Hsmall) as (n' & H1 & H2 & Hi').
    rewrite <- run_snoc, <- nets_snoc in Hi'.
    eapply IH in Hw; [| exact Hok|exact Hlen| |exact Hi'|eapply used_more; eassumption]; [|lia].
    rewrite run_snoc in Hw. eapply wait_back; eassumption.
  Qed.

  (** An answer is the SP's answer to the question of the call that gets it. *)
  Lemma reply_given ts t i xs id q d k resp : forallb turn_ok (ts ++ [t]) = true -> few_turns (ts ++ [t]) ->
    nth_error (sy_calls (sys_run sys0 ts)) i = Some (Waiting xs id q d k) ->
    In (OReply id (Ok resp)) (net_log sp n0 (nets sys0 (ts ++ [t]))) ->
    exists pre post x, ts ++ [t] = pre ++ TNet (MServe x) :: post /\
      nth_error (sy_calls (sys_run sys0 pre)) i = Some (Waiting xs id q d k) /\
      snd (sp (nt_sp (sy_net (sys_run sys0 pre))) (as_received (host_request id q d))) = Ok resp.
  Proof.
    intros Hok Hlen Hw Hin.
    destruct (inv_run _ Hok Hlen) as (n & Hn & Hi).
    assert (Hnd : NoDup (map rpc_id (handed_over (nets sys0 (ts ++ [t]))))).
    { pose proof (i_nodup _ _ _ Hi) as H. rewrite map_app in H. clear - H.
      induction (map rpc_id (handed_over _)) as [|y l IH]; [constructor|]. cbn in H. inversion H; subst.
      constructor; [|auto]. intros Hy. apply H2. apply in_or_app. now left. }
    assert (Hnr := run_requests sp n0 (nets sys0 (ts ++ [t])) Hnd).
    destruct Hnr as [Hnd' Hincl].
    assert (Hwf : Forall (fun r => wf_rpc r = true) (requests (net_log sp n0 (nets sys0 (ts ++ [t]))))).
    { apply Forall_forall. intros r Hr. apply Hincl, handed_in in Hr. destruct Hr as (tag & io & Hr).
      now apply (i_tags _ _ _ Hi) in Hr. }
    destruct (net_sound sp Hpol retries st0 _ id resp (i_noise _ _ _ Hi) Hwf Hnd' Hin)
      as (mpre & r & mid & x & mpost & Ems & _ & (o & Ho & Hot & Hor) & Hans).
    rewrite app_assoc in Ems.
    destruct (nets_split _ _ _ _ _ Ems) as (pre & t' & post & Ets & Epre & Et').
    assert (Et : t' = TNet (MServe x)).
    { clear - Et'. destruct t' as [j|j io|m]; cbn in Et'; [discriminate| |].
      - destruct (nth_error _ _); [|discriminate]. destruct (idle _); discriminate.
      - destruct m; try discriminate; congruence. }
    subst t'.
    assert (Hpok : forallb turn_ok pre = true /\ few_turns pre).
    { rewrite Ets in Hok, Hlen. rewrite forallb_app in Hok. apply andb_prop in Hok. split; [tauto|].
      unfold few_turns in *. rewrite nlen_app in Hlen. lia. }
    destruct Hpok as [Hpok Hplen].
    destruct (inv_run pre Hpok Hplen) as (np & Hnp & Hip).
    rewrite <- Epre in Ho, Hans. fold n0 in Ho, Hans. rewrite <- (i_net _ _ _ Hip) in Ho, Hans.
    destruct (i_out _ _ _ Hip o Ho) as (_ & j & q' & d' & Hwj & Hrq).
    rewrite Hor, Hot in Hrq. rewrite Hot in Hwj.
    assert (Hts : exists post', ts = pre ++ post').
    { destruct (exists_last (l := TNet (MServe x) :: post)) as (l & y & El); [discriminate|].
      rewrite El, app_assoc in Ets. apply app_inj_tail in Ets. exists l. tauto. }
    destruct Hts as (post' & Hts).
    assert (Hwi : nth_error (sy_calls (sys_run sys0 pre)) i = Some (Waiting xs id q d k)).
    { eapply (waited ts pre post'); try eassumption.
      - rewrite forallb_app in Hok. apply andb_prop in Hok. tauto.
      - unfold few_turns in *. rewrite nlen_app in Hlen. lia.
      - eapply (i_waits _ _ _ Hip). exact Hwj. }
    assert (Hij : i = j).
    { eapply (i_one _ _ _ Hip); [|exact Hwj]. exists xs, k. exact Hwi. }
    subst j. destruct Hwj as (xs' & k' & Hwj). rewrite Hwi in Hwj. injection Hwj as <- <- <- <-.
    exists pre, post, x. split; [exact Ets|]. split; [exact Hwi|]. rewrite <- Hrq. exact Hans.
  Qed.

  Lemma resume_snoc (p : prog A) : forall xs q d k x, resume p xs = Ask q d k ->
    resume p (xs ++ [x]) = resume (heard k x) [].
  Proof.
    induction p as [y|q' d' k' IH|u p IH]; intros xs q d k x E; cbn in *; [discriminate| |now apply (IH xs q d k)].
    destruct xs as [|y xs]; cbn in *.
    - injection E as -> -> ->. destruct x; reflexivity.
    - destruct y; try discriminate; eapply IH; exact E.
  Qed.

  (** What a turn does to one call. *)
  Lemma turn_call s t i c : nth_error (sy_calls s) i = Some c ->
    exists c', nth_error (sy_calls (sys_step s t)) i = Some c' /\
      ((got c' = got c /\ forall p, is_at p c -> is_at p c') \/
       exists xs id q d k x, c = Waiting xs id q d k /\ c' = Going (xs ++ [x]) (heard k x) /\
         In (OReply id x) (net_log sp (sy_net s) (moves_of s t))).
  Proof.
    intros Hc.
    assert (G : forall outs, exists c', nth_error (hear_all outs (sy_calls s)) i = Some c' /\
      (c' = c \/ exists xs id q d k x, c = Waiting xs id q d k /\ c' = Going (xs ++ [x]) (heard k x) /\ In (OReply id x) outs)).
    { intros outs. rewrite nth_hear_all, Hc. eexists. split; [reflexivity|].
      clear Hc. revert c. induction outs as [|o outs IH]; intros c; [now left|]. cbn [fold_left].
      assert (K : forall c', c' = c -> let r := fold_left (fun c0 o0 => match o0 with OReply tag x => hear tag x c0 | _ => c0 end) outs c' in
        r = c \/ exists xs id q d k x, c = Waiting xs id q d k /\ r = Going (xs ++ [x]) (heard k x) /\ In (OReply id x) (o :: outs)).
      { intros c' ->. cbv zeta. destruct (IH c) as [->|(xs & id & q & d & k & x & E1 & E2 & E3)]; [now left|right].
        exists xs, id, q, d, k, x. split; [exact E1|]. split; [exact E2|now right]. }
      destruct o as [tag r|tag pkt|tag x| | | |]; try (apply K; reflexivity).
      destruct c as [xs p|xs id q d k]; [apply K; reflexivity|]. cbn [hear].
      destruct (N.eqb_spec id tag) as [->|]; [|apply K; reflexivity].
      right. exists xs, tag, q, d, k, x. split; [reflexivity|]. split; [|now left].
      clear. induction outs as [|o outs IH]; [reflexivity|]. cbn [fold_left]. destruct o; exact IH. }
    destruct (turn_kinds s t) as [Em Es|j xs' q' d' k' Et Em Ei Ewf Es|j xs' u p Et Em Ei Es|r io a b Em Eq El Es|m Em Et Hm Es];
      rewrite Es; cbn [sy_calls].
    - exists c. split; [exact Hc|]. left. auto.
    - rewrite nth_update. destruct (Nat.eqb_spec j i) as [->|]; [|exists c; split; [exact Hc|]; left; auto].
      rewrite Ei. eexists. split; [reflexivity|]. rewrite Ei in Hc. injection Hc as <-. left. split; [reflexivity|].
      intros p Hp. exact Hp.
    - rewrite nth_update. destruct (Nat.eqb_spec j i) as [->|]; [|exists c; split; [exact Hc|]; left; auto].
      rewrite Ei. eexists. split; [reflexivity|]. rewrite Ei in Hc. injection Hc as <-. left. split; [reflexivity|].
      intros p0 Hp. exact Hp.
    - rewrite Em. rewrite net_log_cons, app_nil_r.
      destruct (G (snd (net_step sp (sy_net s) (MRequest (rpc_id r) r io)))) as (c' & E & [->|K]);
        [exists c|exists c']; (split; [exact E|]); [left; auto|right; exact K].
    - rewrite Em. rewrite net_log_cons, app_nil_r.
      destruct (G (snd (net_step sp (sy_net s) m))) as (c' & E & [->|K]);
        [exists c|exists c']; (split; [exact E|]); [left; auto|right; exact K].
  Qed.

  Lemma given_more ts t i p xs resp : given sp sys0 ts i p xs resp -> given sp sys0 (ts ++ [t]) i p xs resp.
  Proof.
    intros (pre & post & x & id & q & d & k & -> & H). exists pre, (post ++ [t]), x, id, q, d, k.
    split; [|exact H]. now rewrite <- app_assoc.
  Qed.

  Lemma own_answers ts i p : forallb turn_ok ts = true -> few_turns ts -> nth_error ps i = Some p ->
    exists c, nth_error (sy_calls (sys_run sys0 ts)) i = Some c /\ is_at p c /\
      (forall m y, nth_error (got c) m = Some y -> question p (firstn m (got c)) <> None) /\
      forall m resp, nth_error (got c) m = Some (Ok resp) -> given sp sys0 ts i p (firstn m (got c)) resp.
  Proof.
    induction ts as [|t ts IH] using rev_ind; intros Hok Hlen Hp.
    - exists (Going [] p). split; [cbn; now rewrite nth_error_map, Hp|]. split; [reflexivity|].
      split; intros [|m] resp E; discriminate.
    - assert (Hok' : forallb turn_ok ts = true) by (rewrite forallb_app in Hok; apply andb_prop in Hok; tauto).
      assert (Hlen' : few_turns ts) by (unfold few_turns in *; rewrite nlen_app in Hlen; lia).
      destruct (IH Hok' Hlen' Hp) as (c & Hc & Ha & Hq & Hg).
      destruct (turn_call _ t _ _ Hc) as (c' & Hc' & [(Er & Hat)|(xs & id & q & d & k & x & E1 & E2 & E3)]).
      + exists c'. rewrite run_snoc. split; [exact Hc'|]. split; [auto|]. rewrite Er.
        split; [exact Hq|]. intros m resp E. apply given_more, Hg, E.
      + subst c c'. cbn [got is_at] in *. exists (Going (xs ++ [x]) (heard k x)). rewrite run_snoc.
        split; [exact Hc'|]. split; [cbn; eapply resume_snoc; exact Ha|]. cbn [got]. split.
        { intros m y E. destruct (Nat.lt_ge_cases m (length xs)) as [Hm|Hm]; rewrite firstn_app.
          - rewrite nth_error_app1 in E by exact Hm. replace (m - length xs)%nat with O by lia. rewrite app_nil_r. exact (Hq m y E).
          - assert (m < length (xs ++ [x]))%nat by (apply nth_error_Some; congruence). rewrite app_length in *. cbn [length] in *.
            replace m with (length xs) by lia. rewrite Nat.sub_diag, firstn_all, app_nil_r. unfold question. now rewrite Ha. }
        intros m resp E. destruct (Nat.lt_ge_cases m (length xs)) as [Hm|Hm].
        * rewrite nth_error_app1 in E by exact Hm.
          assert (Ef : firstn m (xs ++ [x]) = firstn m xs).
          { rewrite firstn_app. replace (m - length xs)%nat with O by lia. apply app_nil_r. }
          rewrite Ef. apply given_more, Hg, E.
        * rewrite nth_error_app2 in E by exact Hm.
          destruct (m - length xs)%nat as [|y] eqn:Ey; [|destruct y; discriminate].
          assert (Em : m = length xs) by lia. injection E as ->. subst m.
          rewrite firstn_app, Nat.sub_diag, firstn_all, app_nil_r.
          destruct (inv_run ts Hok' Hlen') as (n & Hn & Hi).
          destruct (reply_given ts t i xs id q d k resp Hok Hlen Hc) as (pre & post & y & H1 & H2 & H3).
          { rewrite nets_snoc, net_log_app, in_app_iff. right. rewrite <- (i_net _ _ _ Hi). exact E3. }
          exists pre, post, y, id, q, d, k. split; [exact H1|]. split; [unfold question; now rewrite Ha|].
          split; [exact H2|exact H3].
  Qed.
End Conc.

(** ** Ending as alone *)
(** The loop never answers with a panic. *)
Lemma fail_no_panic s h pe tag : ~ In (OReply tag Panic) (snd (fail_matching s h pe)).
Proof.
  unfold fail_matching. destruct (l_out s) as [o|]; [|intros []]. destruct (_ =? _); [|intros []].
  unfold IoLoop.answer. destruct (o_gone o); cbn; intros [H|[]]; discriminate.
Qed.
Lemma answer_no_panic s o x tag : x <> Panic -> ~ In (OReply tag Panic) (snd (IoLoop.answer s o x)).
Proof. intros Hx. unfold IoLoop.answer. destruct (o_gone o); cbn; intros [H|[]]; [discriminate|congruence]. Qed.
Lemma send_no_panic s o io tag : ~ In (OReply tag Panic) (snd (send_outgoing_request s o io)).
Proof.
  unfold send_outgoing_request. destruct (request_packet _); [|cbn; intros [H|[]]; discriminate].
  destruct io; [cbn; intros [H|[]]; discriminate|].
  pose proof (answer_no_panic s o (Err EIo) tag) as H. destruct (IoLoop.answer _ _ _) as [s' out]. cbn [snd] in *.
  intros [K|K]; [discriminate|]. apply H; [discriminate|exact K].
Qed.
Lemma step_no_panic s e tag : ~ In (OReply tag Panic) (snd (step s e)).
Proof.
  unfold step. destruct (l_status s); [|intros []..].
  destruct e as [tag' r io| |io|hr io| |peer d io| |].
  - destruct (l_out s) as [o|]; [cbn; intuition discriminate|].
    match goal with |- context [send_outgoing_request ?a ?b ?c] => pose proof (send_no_panic a b c tag) as H;
      destruct (send_outgoing_request a b c) as [s' out] end.
    cbn [snd] in *. intros [K|K]; [discriminate|now apply H].
  - destruct (l_out s); cbn; intuition discriminate.
  - unfold handle_tick. destruct (l_out s) as [o|]; [|intros []].
    destruct (_ && _); [apply send_no_panic|]. destruct (_ <=? _); apply answer_no_panic; discriminate.
  - destruct hr; cbn; try (intuition discriminate). unfold send_outgoing_response.
    destruct (Nat.leb _ _); cbn; intuition discriminate.
  - cbn. intros [].
  - unfold handle_datagram. destruct (dec_header _) as [[h rx]|]; [|intros []].
    destruct (h_kind h).
    + unfold handle_sp_error. destruct (dec_message rx) as [[m rest]|]; [|apply fail_no_panic].
      destruct (msg_body m); [apply fail_no_panic|intros []..].
    + cbn. intuition discriminate.
    + unfold handle_sp_response. destruct (l_out s) as [o|]; [|intros []].
      destruct (dec_message rx) as [[m rest]|].
      * destruct (msg_body m); try apply fail_no_panic. destruct (_ =? _); [|intros []].
        apply answer_no_panic. unfold matched_reply.
        destruct (sp_expected_data_len _), (sp_expected_error_data_len _); try destruct (Nat.ltb _ _); discriminate.
      * destruct rx; [cbn; intuition discriminate|]. apply fail_no_panic.
    + unfold handle_sp_request. destruct (dec_message rx) as [[m rest]|]; [|cbn; intuition discriminate].
      destruct (l_handler s); cbn; intuition discriminate.
    + cbn. intuition discriminate.
  - destruct (l_out s); intros [].
  - intros [].
Qed.
Lemma net_no_panic {St} (sp : St -> Rpc -> St * reply) n ms tag : ~ In (OReply tag Panic) (net_log sp n ms).
Proof.
  revert n. induction ms as [|m ms IH]; intros n; [intros []|]. rewrite net_log_cons, in_app_iff.
  intros [H|H]; [|exact (IH _ H)]. clear IH. revert H.
  assert (G : forall e, ~ In (OReply tag Panic) (snd (let (l, outs) := step (nt_loop n) e in
    (mkNet l (nt_sp n) (nt_sent n ++ packets outs) (nt_mail n), outs)))).
  { intros e. pose proof (step_no_panic (nt_loop n) e tag) as H. destruct (step _ _). exact H. }
  destruct m; cbn [net_step move_event]; try apply G.
  - destruct (nth_error _ _); [|intros []]. destruct (serve _ _ _). intros [].
  - destruct (nth_error _ _); [apply G|intros []].
  - intros [].
Qed.
Section Alone.
  Context {St A : Type} (sp : St -> Rpc -> St * reply) (Hpol : polite sp) (Hal : alike sp).
  Lemma alone_same (p : prog A) : forall xs x, (forall y, In y xs -> y <> Panic) -> resume p xs = Ret x ->
    (forall m resp, nth_error xs m = Some (Ok resp) -> exists q d s id,
       question p (firstn m xs) = Some (q, d) /\ snd (sp s (as_received (host_request id q d))) = Ok resp) ->
    (exists e, In (Err e) xs) \/ forall w, snd (alone p sp w) = x.
  Proof.
    induction p as [y|q d k IH|u p IH]; intros xs x Hp E H.
    - right. intros w. cbn in *. congruence.
    - cbn in E. destruct xs as [|y rest]; [discriminate|]. destruct y as [r|e|].
      + destruct (H 0%nat r eq_refl) as (q' & d' & s & id & Hq & Hs). cbn in Hq. injection Hq as <- <-.
        destruct (IH (Told (msg_body (rpc_message r)) (rpc_data r)) rest x) as [(e & He)|K].
        * intros y Hy. apply Hp. now right.
        * exact E.
        * intros m resp Hm. exact (H (S m) resp Hm).
        * left. exists e. now right.
        * right. intros w. cbn [alone]. unfold rpc, next_header.
          pose proof (Hal s (w_sp w) id (w_counter w) q d) as Ha. rewrite Hs in Ha. unfold host_request in Ha.
          destruct (sp (w_sp w) _) as [s' z]. cbn [snd] in Ha. destruct z as [b|e|]; try contradiction.
          destruct Ha as [Ha Hb]. rewrite <- Ha, <- Hb. apply K.
      + left. exists e. now left.
      + exfalso. apply (Hp Panic); [now left|reflexivity].
    - cbn in E. destruct (IH xs x Hp E) as [K|K]; [exact H|now left|]. right. intros w. apply K.
  Qed.
  (** A call got replies to its questions only. *)
  Lemma stops_with (p : prog A) : stops_at_errors p -> forall xs x e, resume p xs = Ret x -> In (Err e) xs ->
    (forall m y, nth_error xs m = Some y -> question p (firstn m xs) <> None) -> x = Err e.
  Proof.
    intros S xs x e E Hin H. apply In_nth_error in Hin. destruct Hin as (m & Hm).
    assert (Hl : (m < length xs)%nat) by (apply (proj1 (nth_error_Some xs m)); intro Z; discriminate (eq_trans (eq_sym Hm) Z)).
    destruct (question p (firstn m xs)) as [[q d]|] eqn:Q; [|now destruct (H m _ Hm)].
    pose proof (S _ _ _ e Q) as R.
    assert (Ef : firstn (m + 1) xs = firstn m xs ++ [Err e]).
    { clear -Hm. revert m Hm. induction xs as [|y xs IH]; intros [|m] Hm; cbn in *; try discriminate; [injection Hm as ->; now destruct xs|].
      now rewrite IH. }
    rewrite <- Ef in R. destruct (Nat.eq_dec (m + 1) (length xs)) as [El|El].
    - rewrite El, firstn_all, E in R. now injection R.
    - destruct (nth_error xs (m + 1)) as [y|] eqn:Ey; [|apply nth_error_None in Ey; lia].
      exfalso. apply (H _ _ Ey). unfold question. now rewrite R.
  Qed.
End Alone.

Section Ended.
  Context {St A : Type} (sp : St -> Rpc -> St * reply) (Hpol : polite sp) (retries : option N) (st0 : St) (c0 : N)
          (Hc0 : c0 < 2 ^ 64) (ps : list (prog A)).
  Let sys0 : sys St A := sys_new retries st0 c0 ps.
  Lemma got_no_panic ts i c y : nth_error (sy_calls (SpecConc.sys_run sp sys0 ts)) i = Some c -> In y (got c) -> y <> Panic.
  Proof.
    revert c. induction ts as [|t ts IH] using rev_ind; intros c Hc Hy.
    - cbn in Hc. rewrite nth_error_map in Hc. destruct (nth_error ps i); [|discriminate]. injection Hc as <-. destruct Hy.
    - rewrite run_snoc in Hc.
      destruct (nth_error (sy_calls (SpecConc.sys_run sp sys0 ts)) i) as [c1|] eqn:E1.
      + destruct (turn_call sp _ t _ _ E1) as (c' & Hc' & K). rewrite Hc in Hc'. injection Hc' as <-.
        destruct K as [(Er & _)|(xs & id & q & d & k & x & E2 & E3 & E4)].
        * rewrite Er in Hy. eapply IH; [reflexivity|exact Hy].
        * subst c c1. cbn in Hy. apply in_app_or in Hy. destruct Hy as [Hy|[<-|[]]].
          { eapply IH; [reflexivity|exact Hy]. }
          { intros ->. revert E4. apply net_no_panic. }
      + exfalso. revert Hc E1. clear. set (s := SpecConc.sys_run sp sys0 ts). clearbody s. intros Hc E1.
        destruct (turn_kinds sp s t) as [Em Es|j xs' q' d' k' Et Em Ei Ewf Es|j xs' u p Et Em Ei Es|r io a b Em Eq El Es|m Em Et Hm Es];
          rewrite Es in Hc; cbn [sy_calls] in Hc.
        * congruence.
        * rewrite nth_update in Hc. destruct (Nat.eqb_spec j i) as [->|]; [rewrite Ei in E1; discriminate|congruence].
        * rewrite nth_update in Hc. destruct (Nat.eqb_spec j i) as [->|]; [rewrite Ei in E1; discriminate|congruence].
        * rewrite nth_hear_all, E1 in Hc. discriminate.
        * rewrite nth_hear_all, E1 in Hc. discriminate.
  Qed.
  Lemma ends_as_alone ts i p xs x : alike sp -> forallb turn_ok ts = true -> few_turns ts -> nth_error ps i = Some p ->
    nth_error (sy_calls (SpecConc.sys_run sp sys0 ts)) i = Some (Going xs (Ret x)) ->
    (exists e, In (Err e) xs /\ (stops_at_errors p -> x = Err e)) \/ forall w, snd (alone p sp w) = x.
  Proof.
    intros Hal Hok Hlen Hp Hc.
    destruct (own_answers sp Hpol retries st0 c0 Hc0 ps ts i p Hok Hlen Hp) as (c & Hc' & Ha & Hq & Hg).
    fold sys0 in Hc', Hg. rewrite Hc in Hc'. injection Hc' as <-. cbn [is_at resume got] in *.
    destruct (alone_same sp Hal p xs x) as [(e & He)|K].
    - intros y Hy. exact (got_no_panic ts i _ y Hc Hy).
    - exact Ha.
    - intros m resp Hm. destruct (Hg m resp Hm) as (pre & post & n & id & q & d & k & _ & Hqq & _ & Hs).
      eexists q, d, _, id. split; [exact Hqq|exact Hs].
    - left. exists e. split; [exact He|]. intro S. exact (stops_with p S xs x e Ha He Hq).
    - now right.
  Qed.
End Ended.

Lemma steady_alike {St} (a : honest St) v : data_blind a -> steady a v -> alike (honest_sp a).
Proof.
  intros Hb Hv s s' id id' q d. unfold honest_sp. cbn [msg_body rpc_message host_request as_received message_new snd].
  assert (E : forall i, hs_verdict a s q (rpc_data (as_received (host_request id q d))) i = hs_verdict a s' q d i).
  { intros i. cbn [rpc_data as_received host_request]. rewrite !Hv. destruct d as [[|]|]; try reflexivity.
    rewrite <- (Hv s), <- (Hv s). now rewrite (proj1 (Hb s q)). }
  rewrite (honest_reply_ext _ _ _ _ E). cbn. auto.
Qed.
Lemma concurrent_read {St} (a : honest St) : honest_ok a -> data_blind a -> forall v, steady a v ->
  forall mem, (forall m rd i, v (HRead m rd) None i = mem i rd) ->
  forall retries s0 c0 ps ts i p m rd xs x, c0 < 2 ^ 64 -> forallb turn_ok ts = true -> few_turns ts ->
  nth_error ps i = Some p -> steps_of (fun St sp => ctl_read sp m rd) p -> m < 2 ^ 64 -> 1 <= rd_len rd <= 255 ->
  nth_error (sy_calls (sys_run (honest_sp a) (sys_new retries s0 c0 ps) ts)) i = Some (Going xs (Ret (Ok x))) ->
  all_speak m (ident_told mem) (rd_page rd) /\
  reports m (and_then (ident_told mem) (told (fun x => x) (fun i => mem i rd))) x.
Proof.
  intros Ha Hb v Hv mem Hmem retries s0 c0 ps ts i p m rd xs x Hc0 Hok Hlen Hp Hst Hm Hrd Hc.
  destruct (ends_as_alone (honest_sp a) (honest_polite a Ha) retries s0 c0 Hc0 ps ts i p xs (Ok x)
    (steady_alike a v Hb Hv) Hok Hlen Hp Hc) as [(e & _ & He)|K].
  { assert (S : stops_at_errors p) by (apply (program_stops _ p (proj1 (proj2 (proj2 calls_are_programs)) m rd) Hst)). discriminate (He S). }
  pose (w1 := mkWorld s0 c0 []). specialize (K w1). rewrite <- Hst in K.
  assert (Hra : reads_as a (w_sp w1) mem).
  { intros before m' rd' i'. now rewrite Hv, Hmem. }
  destruct (@read_correct St a Ha w1 m rd mem Hm Hrd Hra) as [(Hs & r' & gs & E' & Hrep & _)|(i' & id & _ & E' & _)].
  - rewrite E' in K. injection K as <-. auto.
  - rewrite E' in K. discriminate.
Qed.
Lemma steps_map {A B} (c : forall St, (St -> Rpc -> St * reply) -> ctl (St := St) A) p (f : A -> B) : steps_of c p ->
  exists p', steps_of (fun St sp => cbind (c St sp) (fun x => cret (Ok (f x)))) p'.
Proof.
  intros H. destruct (den_bind c (fun x St sp => cret (Ok (f x))) (exist _ p (conj H (fun E : false = true => match Bool.diff_false_true E with end))) (fun x => den_ret _)) as (p' & Hp' & _).
  exists p'. exact Hp'.
Qed.
