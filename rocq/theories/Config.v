(** Model of controller/src/config.rs.  [getifaddrs] is the argument [ifs]: its result, or [None]
    when the call fails.  An IPv6 address is the list of its eight segments. *)
From Verif Require Export Types.

Definition ipv6 := list N.
(** The address of an interface entry: IPv6, or of another family. *)
Inductive sockaddr := In6 (a : ipv6) | OtherFamily.
(** [nix::ifaddrs::InterfaceAddress] *)
Record ifaddr := mkIf { if_name : text; if_addr : option sockaddr }.
Definition as_in6 (s : sockaddr) : option ipv6 := match s with In6 a => Some a | OtherFamily => None end.
(** [iface.address.and_then(|s| s.as_sockaddr_in6().map(|x| x.ip()))] *)
Definition if_ip6 (i : ifaddr) : option ipv6 := match if_addr i with Some s => as_in6 s | None => None end.

(** [Iterator::find_map] *)
Fixpoint find_map {A B} (f : A -> option B) (l : list A) : option B :=
  match l with
  | [] => None
  | x :: r => match f x with Some y => Some y | None => find_map f r end
  end.

(** messages/src/lib.rs:158, 167 *)
Definition PORT : N := 11112.
Definition ADDR : ipv6 := [0xff02; 0; 0; 0; 0; 0; 0x1de; 2].
(** controller/src/config.rs:16-28; durations in milliseconds. *)
Definition default_retry_interval : N := 1000.
Definition default_peer_addr : ipv6 := ADDR.
Definition default_port : N := PORT.

(** controller/src/config.rs:35-65 *)
Record Config := mkConfig
  { cf_address : ipv6; cf_port : N; cf_interface : text; cf_peer : ipv6; cf_peer_port : N;
    cf_retry_interval : N; cf_n_retries : option N }.

(** controller/src/config.rs:68-70 *)
Definition is_link_local (ip : ipv6) : bool := text_eqb (firstn 4 ip) [0xfe80; 0; 0; 0].
(** controller/src/config.rs:74-87 *)
Definition first_valid_address (name : text) (iface : ifaddr) : option ipv6 :=
  if text_eqb name (if_name iface) then
    match if_ip6 iface with
    | Some ip6 => if is_link_local ip6 then Some ip6 else None
    | None => None
    end
  else None.
(** controller/src/config.rs:90-105 *)
Definition is_valid_address (ifs : option (list ifaddr)) (name : text) (addr : ipv6) : bool :=
  match ifs with
  | None => false
  | Some interfaces =>
      match find_map (fun iface =>
                        if text_eqb (if_name iface) name
                        then option_map (fun ip => text_eqb ip addr) (if_ip6 iface)
                        else None) interfaces with
      | Some b => b
      | None => false
      end
  end.
(** controller/src/config.rs:110-116 *)
Definition find_interface_link_local_addr (ifs : option (list ifaddr)) (name : text)
    : outcome Error ipv6 :=
  match ifs with
  | None => Err (EBadInterface name)
  | Some interfaces => match find_map (first_valid_address name) interfaces with
                       | Some a => Ok a
                       | None => Err (EBadInterface name)
                       end
  end.

(** controller/src/config.rs:120-128 *)
Record ConfigBuilder := mkBuilder
  { cb_interface : text; cb_address : option ipv6; cb_port : option N; cb_peer : option ipv6;
    cb_peer_port : option N; cb_retry_interval : option N; cb_n_retries : option N }.
(** controller/src/config.rs:132-174 *)
Definition builder_new (interface : text) : ConfigBuilder :=
  mkBuilder interface None None None None None None.
Definition set_address (b : ConfigBuilder) (a : ipv6) : ConfigBuilder :=
  mkBuilder (cb_interface b) (Some a) (cb_port b) (cb_peer b) (cb_peer_port b) (cb_retry_interval b) (cb_n_retries b).
Definition set_port (b : ConfigBuilder) (p : N) : ConfigBuilder :=
  mkBuilder (cb_interface b) (cb_address b) (Some p) (cb_peer b) (cb_peer_port b) (cb_retry_interval b) (cb_n_retries b).
Definition set_peer (b : ConfigBuilder) (a : ipv6) : ConfigBuilder :=
  mkBuilder (cb_interface b) (cb_address b) (cb_port b) (Some a) (cb_peer_port b) (cb_retry_interval b) (cb_n_retries b).
Definition set_peer_port (b : ConfigBuilder) (p : N) : ConfigBuilder :=
  mkBuilder (cb_interface b) (cb_address b) (cb_port b) (cb_peer b) (Some p) (cb_retry_interval b) (cb_n_retries b).
Definition set_retry_interval (b : ConfigBuilder) (t : N) : ConfigBuilder :=
  mkBuilder (cb_interface b) (cb_address b) (cb_port b) (cb_peer b) (cb_peer_port b) (Some t) (cb_n_retries b).
Definition set_n_retries (b : ConfigBuilder) (n : N) : ConfigBuilder :=
  mkBuilder (cb_interface b) (cb_address b) (cb_port b) (cb_peer b) (cb_peer_port b) (cb_retry_interval b) (Some n).

Definition unwrap_or {A} (x : option A) (d : A) : A := match x with Some a => a | None => d end.
(** controller/src/config.rs:177-197 *)
Definition build (ifs : option (list ifaddr)) (b : ConfigBuilder) : outcome Error Config :=
  address <-? match cb_address b with
              | None => find_interface_link_local_addr ifs (cb_interface b)
              | Some a => if is_valid_address ifs (cb_interface b) a then Ok a
                          else Err (EBadInterface (cb_interface b))
              end ;;
  Ok (mkConfig address (unwrap_or (cb_port b) default_port) (cb_interface b)
        (unwrap_or (cb_peer b) default_peer_addr) (unwrap_or (cb_peer_port b) default_port)
        (unwrap_or (cb_retry_interval b) default_retry_interval) (cb_n_retries b)).
