(** Model of how a controller is set up: [Controller::new] of controller/src/controller.rs (111-182) with
    [IoLoop::new].  The operating system is a record of what it answers; logging and probes are left out. *)
From Verif Require Export Config TimedLoop.

(** [std::net::SocketAddrV6] *)
Record socket_addr := mkSocket { sa_ip : ipv6; sa_port : N; sa_flow : N; sa_scope : N }.
(** What is asked of the operating system, once the interface is known. *)
Inductive setup_op := OpBind (a : socket_addr) | OpJoin (group : ipv6) (iface : N) | OpLoopback (on : bool).
(** Index of an interface, and which of these succeed. *)
Record os := mkOs { os_index : text -> option N; os_allows : setup_op -> bool }.

(** The controller with its I/O loop: controller/src/controller.rs:86-103. *)
Record started := mkStarted
  { su_config : Config; su_iface : N; su_next_id : N; su_peer : socket_addr; su_loop : timed }.

(** One after another, stopping at the first that fails ([?]). *)
Fixpoint attempt (o : os) (l : list setup_op) : list setup_op * bool :=
  match l with
  | [] => ([], true)
  | x :: r => if os_allows o x then let (done_, ok) := attempt o r in (x :: done_, ok) else ([x], false)
  end.
(** controller/src/controller.rs:111-182, at time [now]: what is asked for and the outcome. *)
Definition controller_new (o : os) (now : N) (c : Config) : list setup_op * outcome Error started :=
  match os_index o (cf_interface c) with
  | None => ([], Err (EBadInterface (cf_interface c)))
  | Some iface =>
      let local_addr := mkSocket (cf_address c) (cf_port c) 0 iface in
      let (ops, ok) := attempt o [OpBind local_addr; OpJoin default_peer_addr iface; OpLoopback false] in
      (ops, if ok then
              t <-? ounwrap (timed_new (cf_n_retries c) (cf_retry_interval c) now) ;;
              Ok (mkStarted c iface 0 (mkSocket (cf_peer c) (cf_peer_port c) 0 iface) t)
            else Err EIo)
  end.
