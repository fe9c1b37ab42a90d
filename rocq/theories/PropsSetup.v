(** Property C86: how a controller is set up. *)
From Coq Require Import String.
From Verif Require Import SetupProofs.
Import ListNotations.
Open Scope N_scope.

(** C86: the steps are made in order on the named interface, nothing after one that fails; the controller is
    idle and talks to the configured peer.  (A retry interval of zero panics, see C84.) *)
Theorem C86_setup : forall o now c,
  (os_index o (cf_interface c) = None -> controller_new o now c = ([], Err (EBadInterface (cf_interface c)))) /\
  (forall i, os_index o (cf_interface c) = Some i ->
     (forall l x r, setup_steps c i = l ++ x :: r -> Forall (fun y => os_allows o y = true) l -> os_allows o x = false ->
        controller_new o now c = (l ++ [x], Err EIo)) /\
     (Forall (fun x => os_allows o x = true) (setup_steps c i) ->
        fst (controller_new o now c) = setup_steps c i /\
        (cf_retry_interval c = 0 -> snd (controller_new o now c) = Panic) /\
        (cf_retry_interval c <> 0 -> exists s, snd (controller_new o now c) = Ok s /\ sets_up c i now s))).
Proof. exact setup_done. Qed.
Print Assumptions C86_setup.
(** C86: the tool's options, with an interval from 1 as its command line demands. *)
Theorem C86_tool : forall o now a, 1 <= ar_retry_interval a ->
  snd (controller_new o now (args_config a)) <> Panic /\
  forall s, snd (controller_new o now (args_config a)) = Ok s ->
    os_index o (ar_interface a) = Some (su_iface s) /\
    fst (controller_new o now (args_config a)) =
      [OpBind (mkSocket (ar_address a) (ar_port a) 0 (su_iface s)); OpJoin [0xff02; 0; 0; 0; 0; 0; 0x1de; 2] (su_iface s); OpLoopback false] /\
    su_peer s = mkSocket (match ar_peer a with Some p => p | None => [0xff02; 0; 0; 0; 0; 0; 0x1de; 2] end) (ar_peer_port a) 0 (su_iface s) /\
    tm_period (su_loop s) = ar_retry_interval a.
Proof. exact setup_tool. Qed.
Print Assumptions C86_tool.
(** One interface; joining groups is refused. *)
Example C86_witness :
  let o yes := mkOs (fun n => if text_eqb n (T "net0") then Some 3 else None) (fun x => match x with OpJoin _ _ => yes | _ => true end) in
  let c := mkConfig [0xfe80; 0; 0; 0; 0; 0; 0; 1] 11112 (T "net0") ADDR 11112 1000 (Some 5) in
  controller_new (o false) 0 c = ([OpBind (mkSocket (cf_address c) 11112 0 3); OpJoin ADDR 3], Err EIo) /\
  exists s, snd (controller_new (o true) 0 c) = Ok s /\ sa_scope (su_peer s) = 3.
Proof. split; [reflexivity|]. eexists. split; reflexivity. Qed.
