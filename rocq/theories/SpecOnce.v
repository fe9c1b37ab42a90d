(** Statement of C96: requests reach an SP that changes things, over a network that keeps their order. *)
From Coq Require Export Sorted.
From Verif Require Export SpecConc.

(** The state after the requests [rs], one after the other. *)
Definition having_done {St} (sp : St -> Rpc -> St * reply) (s : St) (rs : list Rpc) : St := fold_left (fun s r => fst (sp s r)) rs s.
(** [E]: states that cannot be told apart.  A request that comes again right after itself changes nothing and gets the same answer. *)
Record repeats {St} (E : St -> St -> Prop) (sp : St -> Rpc -> St * reply) : Prop :=
  { rp_refl : forall s, E s s;
    rp_trans : forall s s' s'', E s s' -> E s' s'' -> E s s'';
    rp_same : forall s s' r, E s s' -> E (fst (sp s r)) (fst (sp s' r)) /\ snd (sp s r) = snd (sp s' r);
    rp_twice : forall s r, let s' := fst (sp s r) in E (fst (sp s' r)) s' /\ snd (sp s' r) = snd (sp s r) }.
(** No datagram reaches the SP after another one that was sent later, unless they are copies. *)
Definition in_turn {St} (sp : St -> Rpc -> St * reply) (n0 : net St) (ms : list (move St)) : Prop :=
  forall pre k mid k' post d d', ms = pre ++ MServe k :: mid ++ MServe k' :: post ->
    nth_error (nt_sent (net_after sp n0 pre)) k = Some d ->
    nth_error (nt_sent (net_after sp n0 (pre ++ MServe k :: mid))) k' = Some d' -> (k <= k')%nat \/ d = d'.
(** The SP changes only by requests. *)
Definition still {St} (m : move St) : Prop := forall s, m <> MDrift s.
(** [qs] are some of [rs], in the same order. *)
Definition some_of {A} (qs rs : list A) : Prop := exists js, StronglySorted lt js /\ map (nth_error rs) js = map Some qs.

(** ** A call by itself *)
(** The states of the SP that a call goes through when it is alone. *)
Fixpoint stations {A St} (p : prog A) (sp : St -> Rpc -> St * reply) (w : world St) : list St :=
  w_sp w ::
  match p with
  | Ret _ => []
  | Ask q d k =>
      match rpc sp q d w with
      | (w', Ok r) => stations (k (Told (msg_body (rpc_message r)) (rpc_data r))) sp w'
      | (w', Err e) => stations (k (Missed e)) sp w'
      | (w', Panic) => [w_sp w']
      end
  | Nap t p => stations p sp (fst (sleep t w))
  end.
(** As [in_turn] and [still], of the turns of calls. *)
Definition turns_in_turn {St A} (sp : St -> Rpc -> St * reply) (s0 : sys St A) (ts : list (turn St)) : Prop :=
  forall pre k mid k' post d d', ts = pre ++ TNet (MServe k) :: mid ++ TNet (MServe k') :: post ->
    nth_error (nt_sent (sy_net (sys_run sp s0 pre))) k = Some d ->
    nth_error (nt_sent (sy_net (sys_run sp s0 (pre ++ TNet (MServe k) :: mid)))) k' = Some d' -> (k <= k')%nat \/ d = d'.
Definition still_turn {St} (t : turn St) : Prop := forall s, t <> TNet (MDrift s).
(** Nobody but the SP answers, the ids do not run out, the SP changes only by requests, which come in order. *)
Definition orderly {St A} (sp : St -> Rpc -> St * reply) (s0 : sys St A) (ts : list (turn St)) : Prop :=
  forallb turn_ok ts = true /\ few_turns ts /\ Forall still_turn ts /\ turns_in_turn sp s0 ts.

(** ** An SP that remembers *)
(** The SP [sp] with a memory of the last datagram it got, and of its state before: to a datagram that comes again it answers as it did. *)
Record keeper (St : Type) := mkKeeper { kp_before : St; kp_now : St; kp_last : list N }.
Arguments mkKeeper {St}. Arguments kp_before {St}. Arguments kp_now {St}. Arguments kp_last {St}.
Definition remembering {St} (sp : St -> Rpc -> St * reply) (s : keeper St) (r : Rpc) : keeper St * reply :=
  if list_eq_dec N.eq_dec (wire r) (kp_last s) then (s, snd (sp (kp_before s) r))
  else (mkKeeper (kp_now s) (fst (sp (kp_now s) r)) (wire r), snd (sp (kp_now s) r)).
Definition new_keeper {St} (s : St) : keeper St := mkKeeper s s [].
