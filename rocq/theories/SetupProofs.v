(** How a controller is set up (C86). *)
From Coq Require Import Lia.
From Verif Require Export SpecSetup.
Import ListNotations.
Open Scope N_scope.

Lemma attempt_all o l : Forall (fun x => os_allows o x = true) l -> attempt o l = (l, true).
Proof. induction 1 as [|x l Hx _ IH]; cbn; [reflexivity|]. now rewrite Hx, IH. Qed.
Lemma attempt_stop o l x r : Forall (fun x => os_allows o x = true) l -> os_allows o x = false ->
  attempt o (l ++ x :: r) = (l ++ [x], false).
Proof. intros H Hx. induction H as [|y l Hy _ IH]; cbn; [now rewrite Hx|]. now rewrite Hy, IH. Qed.

Lemma setup_done o now c :
  (os_index o (cf_interface c) = None -> controller_new o now c = ([], Err (EBadInterface (cf_interface c)))) /\
  (forall i, os_index o (cf_interface c) = Some i ->
     (forall l x r, setup_steps c i = l ++ x :: r -> Forall (fun y => os_allows o y = true) l -> os_allows o x = false ->
        controller_new o now c = (l ++ [x], Err EIo)) /\
     (Forall (fun x => os_allows o x = true) (setup_steps c i) ->
        fst (controller_new o now c) = setup_steps c i /\
        (cf_retry_interval c = 0 -> snd (controller_new o now c) = Panic) /\
        (cf_retry_interval c <> 0 -> exists s, snd (controller_new o now c) = Ok s /\ sets_up c i now s))).
Proof.
  unfold controller_new. split; [now intros ->|]. intros i ->.
  change [OpBind _; _; _] with (setup_steps c i). split.
  - intros l x r -> Hl Hx. now rewrite (attempt_stop o l x r Hl Hx).
  - intro H. rewrite (attempt_all o _ H). cbn [fst snd]. split; [reflexivity|]. unfold timed_new.
    destruct (N.eqb_spec (cf_retry_interval c) 0) as [E|E].
    + split; [reflexivity|]. intro. contradiction.
    + split; [intro; contradiction|]. intros _. eexists. split; [reflexivity|]. repeat split.
Qed.
Lemma setup_calm o now c : cf_retry_interval c <> 0 -> snd (controller_new o now c) <> Panic.
Proof.
  intro H. unfold controller_new. destruct (os_index o _) as [i|]; [|discriminate].
  destruct (attempt o _) as [ops [|]]; [|discriminate]. cbn [snd]. unfold timed_new. destruct (N.eqb_spec (cf_retry_interval c) 0); [contradiction|discriminate].
Qed.
Lemma setup_tool o now a : 1 <= ar_retry_interval a ->
  snd (controller_new o now (args_config a)) <> Panic /\
  forall s, snd (controller_new o now (args_config a)) = Ok s ->
    os_index o (ar_interface a) = Some (su_iface s) /\
    fst (controller_new o now (args_config a)) =
      [OpBind (mkSocket (ar_address a) (ar_port a) 0 (su_iface s)); OpJoin [0xff02; 0; 0; 0; 0; 0; 0x1de; 2] (su_iface s); OpLoopback false] /\
    su_peer s = mkSocket (match ar_peer a with Some p => p | None => [0xff02; 0; 0; 0; 0; 0; 0x1de; 2] end) (ar_peer_port a) 0 (su_iface s) /\
    tm_period (su_loop s) = ar_retry_interval a.
Proof.
  intro H. split; [apply setup_calm; cbn; lia|]. intros s. unfold controller_new. cbn [args_config cf_interface].
  destruct (os_index o _) as [i|]; [|discriminate]. destruct (attempt o _) as [ops [|]] eqn:E; [|discriminate].
  cbn [fst snd]. unfold timed_new. cbn [args_config cf_retry_interval cf_n_retries cf_peer cf_peer_port].
  destruct (N.eqb_spec (ar_retry_interval a) 0); [discriminate|]. intros [= <-]. cbn [su_iface su_peer su_loop tm_period].
  split; [reflexivity|]. split; [|split; reflexivity].
  cbn [attempt] in E. repeat (match type of E with context [if ?b then _ else _] => destruct b end; try discriminate).
  now injection E as <-.
Qed.
