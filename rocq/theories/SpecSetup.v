(** Vocabulary for C86: how a controller is set up. *)
From Verif Require Export Setup CliMain.
Import ListNotations.
Open Scope N_scope.

(** The steps for a configuration on the interface with index [i]: bind the configured address and port on
    this interface, join the protocol's group ff02::1de:2 there whatever the configured peer, and do not hear
    oneself. *)
Definition setup_steps (c : Config) (i : N) : list setup_op :=
  [OpBind (mkSocket (cf_address c) (cf_port c) 0 i); OpJoin [0xff02; 0; 0; 0; 0; 0; 0x1de; 2] i; OpLoopback false].
(** The controller that results: idle, with all its retries, sending to the configured peer on this
    interface, numbering messages from 0. *)
Definition sets_up (c : Config) (i now : N) (s : started) : Prop :=
  su_config s = c /\ su_iface s = i /\ su_next_id s = 0 /\
  su_peer s = mkSocket (cf_peer c) (cf_peer_port c) 0 i /\
  tm_period (su_loop s) = cf_retry_interval c /\ tm_deadline (su_loop s) = now /\
  l_out (tm_loop (su_loop s)) = None /\ l_status (tm_loop (su_loop s)) = Running /\
  l_limit (tm_loop (su_loop s)) = match cf_n_retries c with Some n => n | None => 2 ^ 64 - 1 end.
