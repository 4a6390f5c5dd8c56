(** * The configuration file

    src/Config.cxx, src/Config.hxx.  The reader of lines and blocks
    (FileLineParser, NestedConfigParser, comments, variables, includes) belongs
    to libcommon, which is not part of the repository: a line is given by the
    results of all the ways to read it.  Also from there, and therefore
    parameters: parsers for socket addresses, for Zeroconf settings and for the
    "spawn" section, and the defaults and Fixup() of SocketConfig. *)

From Coq Require Import NArith List Bool String.
From Verif.Base Require Import Bytes.
From Verif.Model Require Import Wire.
Import ListNotations.
Open Scope N_scope.

(** One line.  [None] is an exception ("Syntax error").  *)
Record line := {
  l_close : bool;                 (* the line is "}" *)
  l_word : option bytes;          (* ExpectWord() *)
  l_value : option bytes;         (* then ExpectValueAndEnd() *)
  l_path : option bytes;          (* or ExpectPathAndEnd() *)
  l_bool : option bool;           (* or NextBool(), ExpectEnd() *)
  l_positive : option N;          (* or NextPositiveInteger(), ExpectEnd() *)
  l_brace : bool;                 (* or ExpectSymbolAndEol('{') *)
  l_name_brace : option bytes     (* or ExpectValue(), ExpectSymbolAndEol('{') *)
}.

(** compile-time options: config.h *)
Record build := { HAVE_AVAHI : bool; ENABLE_TRANSLATION : bool; ENABLE_POND : bool; ENABLE_CONTROL : bool }.

(** struct SocketConfig (libcommon), as far as it is used here *)
Record sock := {
  sk_bind : option bytes;
  sk_multicast : option bytes;
  sk_interface : bytes;
  sk_mode : N;
  sk_mptcp : bool;
  sk_user_timeout : N;
  sk_keepalive : bool;
  sk_v6only : bool;
  sk_reuse_port : bool;
  sk_no_delay : bool;
  sk_listen : N;
  sk_defer_accept : N;
  sk_pass_cred : bool
}.

Definition set_sk_bind (v : option bytes) (c : sock) : sock :=
  {| sk_bind := v; sk_multicast := sk_multicast c; sk_interface := sk_interface c; sk_mode := sk_mode c; sk_mptcp := sk_mptcp c; sk_user_timeout := sk_user_timeout c; sk_keepalive := sk_keepalive c; sk_v6only := sk_v6only c; sk_reuse_port := sk_reuse_port c; sk_no_delay := sk_no_delay c; sk_listen := sk_listen c; sk_defer_accept := sk_defer_accept c; sk_pass_cred := sk_pass_cred c |}.
Definition set_sk_multicast (v : option bytes) (c : sock) : sock :=
  {| sk_bind := sk_bind c; sk_multicast := v; sk_interface := sk_interface c; sk_mode := sk_mode c; sk_mptcp := sk_mptcp c; sk_user_timeout := sk_user_timeout c; sk_keepalive := sk_keepalive c; sk_v6only := sk_v6only c; sk_reuse_port := sk_reuse_port c; sk_no_delay := sk_no_delay c; sk_listen := sk_listen c; sk_defer_accept := sk_defer_accept c; sk_pass_cred := sk_pass_cred c |}.
Definition set_sk_interface (v : bytes) (c : sock) : sock :=
  {| sk_bind := sk_bind c; sk_multicast := sk_multicast c; sk_interface := v; sk_mode := sk_mode c; sk_mptcp := sk_mptcp c; sk_user_timeout := sk_user_timeout c; sk_keepalive := sk_keepalive c; sk_v6only := sk_v6only c; sk_reuse_port := sk_reuse_port c; sk_no_delay := sk_no_delay c; sk_listen := sk_listen c; sk_defer_accept := sk_defer_accept c; sk_pass_cred := sk_pass_cred c |}.
Definition set_sk_mode (v : N) (c : sock) : sock :=
  {| sk_bind := sk_bind c; sk_multicast := sk_multicast c; sk_interface := sk_interface c; sk_mode := v; sk_mptcp := sk_mptcp c; sk_user_timeout := sk_user_timeout c; sk_keepalive := sk_keepalive c; sk_v6only := sk_v6only c; sk_reuse_port := sk_reuse_port c; sk_no_delay := sk_no_delay c; sk_listen := sk_listen c; sk_defer_accept := sk_defer_accept c; sk_pass_cred := sk_pass_cred c |}.
Definition set_sk_mptcp (v : bool) (c : sock) : sock :=
  {| sk_bind := sk_bind c; sk_multicast := sk_multicast c; sk_interface := sk_interface c; sk_mode := sk_mode c; sk_mptcp := v; sk_user_timeout := sk_user_timeout c; sk_keepalive := sk_keepalive c; sk_v6only := sk_v6only c; sk_reuse_port := sk_reuse_port c; sk_no_delay := sk_no_delay c; sk_listen := sk_listen c; sk_defer_accept := sk_defer_accept c; sk_pass_cred := sk_pass_cred c |}.
Definition set_sk_user_timeout (v : N) (c : sock) : sock :=
  {| sk_bind := sk_bind c; sk_multicast := sk_multicast c; sk_interface := sk_interface c; sk_mode := sk_mode c; sk_mptcp := sk_mptcp c; sk_user_timeout := v; sk_keepalive := sk_keepalive c; sk_v6only := sk_v6only c; sk_reuse_port := sk_reuse_port c; sk_no_delay := sk_no_delay c; sk_listen := sk_listen c; sk_defer_accept := sk_defer_accept c; sk_pass_cred := sk_pass_cred c |}.
Definition set_sk_keepalive (v : bool) (c : sock) : sock :=
  {| sk_bind := sk_bind c; sk_multicast := sk_multicast c; sk_interface := sk_interface c; sk_mode := sk_mode c; sk_mptcp := sk_mptcp c; sk_user_timeout := sk_user_timeout c; sk_keepalive := v; sk_v6only := sk_v6only c; sk_reuse_port := sk_reuse_port c; sk_no_delay := sk_no_delay c; sk_listen := sk_listen c; sk_defer_accept := sk_defer_accept c; sk_pass_cred := sk_pass_cred c |}.
Definition set_sk_v6only (v : bool) (c : sock) : sock :=
  {| sk_bind := sk_bind c; sk_multicast := sk_multicast c; sk_interface := sk_interface c; sk_mode := sk_mode c; sk_mptcp := sk_mptcp c; sk_user_timeout := sk_user_timeout c; sk_keepalive := sk_keepalive c; sk_v6only := v; sk_reuse_port := sk_reuse_port c; sk_no_delay := sk_no_delay c; sk_listen := sk_listen c; sk_defer_accept := sk_defer_accept c; sk_pass_cred := sk_pass_cred c |}.
Definition set_sk_reuse_port (v : bool) (c : sock) : sock :=
  {| sk_bind := sk_bind c; sk_multicast := sk_multicast c; sk_interface := sk_interface c; sk_mode := sk_mode c; sk_mptcp := sk_mptcp c; sk_user_timeout := sk_user_timeout c; sk_keepalive := sk_keepalive c; sk_v6only := sk_v6only c; sk_reuse_port := v; sk_no_delay := sk_no_delay c; sk_listen := sk_listen c; sk_defer_accept := sk_defer_accept c; sk_pass_cred := sk_pass_cred c |}.
Definition set_sk_no_delay (v : bool) (c : sock) : sock :=
  {| sk_bind := sk_bind c; sk_multicast := sk_multicast c; sk_interface := sk_interface c; sk_mode := sk_mode c; sk_mptcp := sk_mptcp c; sk_user_timeout := sk_user_timeout c; sk_keepalive := sk_keepalive c; sk_v6only := sk_v6only c; sk_reuse_port := sk_reuse_port c; sk_no_delay := v; sk_listen := sk_listen c; sk_defer_accept := sk_defer_accept c; sk_pass_cred := sk_pass_cred c |}.
Definition set_sk_listen (v : N) (c : sock) : sock :=
  {| sk_bind := sk_bind c; sk_multicast := sk_multicast c; sk_interface := sk_interface c; sk_mode := sk_mode c; sk_mptcp := sk_mptcp c; sk_user_timeout := sk_user_timeout c; sk_keepalive := sk_keepalive c; sk_v6only := sk_v6only c; sk_reuse_port := sk_reuse_port c; sk_no_delay := sk_no_delay c; sk_listen := v; sk_defer_accept := sk_defer_accept c; sk_pass_cred := sk_pass_cred c |}.
Definition set_sk_defer_accept (v : N) (c : sock) : sock :=
  {| sk_bind := sk_bind c; sk_multicast := sk_multicast c; sk_interface := sk_interface c; sk_mode := sk_mode c; sk_mptcp := sk_mptcp c; sk_user_timeout := sk_user_timeout c; sk_keepalive := sk_keepalive c; sk_v6only := sk_v6only c; sk_reuse_port := sk_reuse_port c; sk_no_delay := sk_no_delay c; sk_listen := sk_listen c; sk_defer_accept := v; sk_pass_cred := sk_pass_cred c |}.
Definition set_sk_pass_cred (v : bool) (c : sock) : sock :=
  {| sk_bind := sk_bind c; sk_multicast := sk_multicast c; sk_interface := sk_interface c; sk_mode := sk_mode c; sk_mptcp := sk_mptcp c; sk_user_timeout := sk_user_timeout c; sk_keepalive := sk_keepalive c; sk_v6only := sk_v6only c; sk_reuse_port := sk_reuse_port c; sk_no_delay := sk_no_delay c; sk_listen := sk_listen c; sk_defer_accept := sk_defer_accept c; sk_pass_cred := v |}.

(** src/Config.hxx:37-45 struct ZeroconfClusterConfig; the Zeroconf settings are
    the lines they were made of *)
Record cluster := { cl_zeroconf : list line; cl_host_keys : list bytes; cl_send_client_address : bool }.

(** src/Config.hxx:25-33 struct TargetHostConfig *)
Record target := { tg_address : bytes; tg_host_keys : list bytes; tg_send_client_address : bool }.

(** src/Config.hxx:69-73 ListenerConfig::proxy_to; pointers are the names of
    the objects and the objects *)
Inductive proxy := PNone | PCluster (name : bytes) (c : cluster) | PTarget (name : bytes) (t : target).

(** src/Config.hxx:49-99 struct ListenerConfig *)
Record lconf := {
  lc_sock : sock;
  lc_zeroconf : list line;
  lc_tag : bytes;
  lc_host_keys : list bytes;
  lc_authorized : list bytes;
  lc_proxy : proxy;
  lc_pond : option bytes;
  lc_max_connections : N;
  lc_tarpit : bool;
  lc_verbose_errors : bool;
  lc_exec_reject_stderr : bool;
  lc_accept_client_address : bool;
  lc_skip_our_own : bool
}.

Definition set_lc_sock (v : sock) (c : lconf) : lconf :=
  {| lc_sock := v; lc_zeroconf := lc_zeroconf c; lc_tag := lc_tag c; lc_host_keys := lc_host_keys c; lc_authorized := lc_authorized c; lc_proxy := lc_proxy c; lc_pond := lc_pond c; lc_max_connections := lc_max_connections c; lc_tarpit := lc_tarpit c; lc_verbose_errors := lc_verbose_errors c; lc_exec_reject_stderr := lc_exec_reject_stderr c; lc_accept_client_address := lc_accept_client_address c; lc_skip_our_own := lc_skip_our_own c |}.
Definition set_lc_zeroconf (v : list line) (c : lconf) : lconf :=
  {| lc_sock := lc_sock c; lc_zeroconf := v; lc_tag := lc_tag c; lc_host_keys := lc_host_keys c; lc_authorized := lc_authorized c; lc_proxy := lc_proxy c; lc_pond := lc_pond c; lc_max_connections := lc_max_connections c; lc_tarpit := lc_tarpit c; lc_verbose_errors := lc_verbose_errors c; lc_exec_reject_stderr := lc_exec_reject_stderr c; lc_accept_client_address := lc_accept_client_address c; lc_skip_our_own := lc_skip_our_own c |}.
Definition set_lc_tag (v : bytes) (c : lconf) : lconf :=
  {| lc_sock := lc_sock c; lc_zeroconf := lc_zeroconf c; lc_tag := v; lc_host_keys := lc_host_keys c; lc_authorized := lc_authorized c; lc_proxy := lc_proxy c; lc_pond := lc_pond c; lc_max_connections := lc_max_connections c; lc_tarpit := lc_tarpit c; lc_verbose_errors := lc_verbose_errors c; lc_exec_reject_stderr := lc_exec_reject_stderr c; lc_accept_client_address := lc_accept_client_address c; lc_skip_our_own := lc_skip_our_own c |}.
Definition set_lc_host_keys (v : list bytes) (c : lconf) : lconf :=
  {| lc_sock := lc_sock c; lc_zeroconf := lc_zeroconf c; lc_tag := lc_tag c; lc_host_keys := v; lc_authorized := lc_authorized c; lc_proxy := lc_proxy c; lc_pond := lc_pond c; lc_max_connections := lc_max_connections c; lc_tarpit := lc_tarpit c; lc_verbose_errors := lc_verbose_errors c; lc_exec_reject_stderr := lc_exec_reject_stderr c; lc_accept_client_address := lc_accept_client_address c; lc_skip_our_own := lc_skip_our_own c |}.
Definition set_lc_authorized (v : list bytes) (c : lconf) : lconf :=
  {| lc_sock := lc_sock c; lc_zeroconf := lc_zeroconf c; lc_tag := lc_tag c; lc_host_keys := lc_host_keys c; lc_authorized := v; lc_proxy := lc_proxy c; lc_pond := lc_pond c; lc_max_connections := lc_max_connections c; lc_tarpit := lc_tarpit c; lc_verbose_errors := lc_verbose_errors c; lc_exec_reject_stderr := lc_exec_reject_stderr c; lc_accept_client_address := lc_accept_client_address c; lc_skip_our_own := lc_skip_our_own c |}.
Definition set_lc_proxy (v : proxy) (c : lconf) : lconf :=
  {| lc_sock := lc_sock c; lc_zeroconf := lc_zeroconf c; lc_tag := lc_tag c; lc_host_keys := lc_host_keys c; lc_authorized := lc_authorized c; lc_proxy := v; lc_pond := lc_pond c; lc_max_connections := lc_max_connections c; lc_tarpit := lc_tarpit c; lc_verbose_errors := lc_verbose_errors c; lc_exec_reject_stderr := lc_exec_reject_stderr c; lc_accept_client_address := lc_accept_client_address c; lc_skip_our_own := lc_skip_our_own c |}.
Definition set_lc_pond (v : option bytes) (c : lconf) : lconf :=
  {| lc_sock := lc_sock c; lc_zeroconf := lc_zeroconf c; lc_tag := lc_tag c; lc_host_keys := lc_host_keys c; lc_authorized := lc_authorized c; lc_proxy := lc_proxy c; lc_pond := v; lc_max_connections := lc_max_connections c; lc_tarpit := lc_tarpit c; lc_verbose_errors := lc_verbose_errors c; lc_exec_reject_stderr := lc_exec_reject_stderr c; lc_accept_client_address := lc_accept_client_address c; lc_skip_our_own := lc_skip_our_own c |}.
Definition set_lc_max_connections (v : N) (c : lconf) : lconf :=
  {| lc_sock := lc_sock c; lc_zeroconf := lc_zeroconf c; lc_tag := lc_tag c; lc_host_keys := lc_host_keys c; lc_authorized := lc_authorized c; lc_proxy := lc_proxy c; lc_pond := lc_pond c; lc_max_connections := v; lc_tarpit := lc_tarpit c; lc_verbose_errors := lc_verbose_errors c; lc_exec_reject_stderr := lc_exec_reject_stderr c; lc_accept_client_address := lc_accept_client_address c; lc_skip_our_own := lc_skip_our_own c |}.
Definition set_lc_tarpit (v : bool) (c : lconf) : lconf :=
  {| lc_sock := lc_sock c; lc_zeroconf := lc_zeroconf c; lc_tag := lc_tag c; lc_host_keys := lc_host_keys c; lc_authorized := lc_authorized c; lc_proxy := lc_proxy c; lc_pond := lc_pond c; lc_max_connections := lc_max_connections c; lc_tarpit := v; lc_verbose_errors := lc_verbose_errors c; lc_exec_reject_stderr := lc_exec_reject_stderr c; lc_accept_client_address := lc_accept_client_address c; lc_skip_our_own := lc_skip_our_own c |}.
Definition set_lc_verbose_errors (v : bool) (c : lconf) : lconf :=
  {| lc_sock := lc_sock c; lc_zeroconf := lc_zeroconf c; lc_tag := lc_tag c; lc_host_keys := lc_host_keys c; lc_authorized := lc_authorized c; lc_proxy := lc_proxy c; lc_pond := lc_pond c; lc_max_connections := lc_max_connections c; lc_tarpit := lc_tarpit c; lc_verbose_errors := v; lc_exec_reject_stderr := lc_exec_reject_stderr c; lc_accept_client_address := lc_accept_client_address c; lc_skip_our_own := lc_skip_our_own c |}.
Definition set_lc_exec_reject_stderr (v : bool) (c : lconf) : lconf :=
  {| lc_sock := lc_sock c; lc_zeroconf := lc_zeroconf c; lc_tag := lc_tag c; lc_host_keys := lc_host_keys c; lc_authorized := lc_authorized c; lc_proxy := lc_proxy c; lc_pond := lc_pond c; lc_max_connections := lc_max_connections c; lc_tarpit := lc_tarpit c; lc_verbose_errors := lc_verbose_errors c; lc_exec_reject_stderr := v; lc_accept_client_address := lc_accept_client_address c; lc_skip_our_own := lc_skip_our_own c |}.
Definition set_lc_accept_client_address (v : bool) (c : lconf) : lconf :=
  {| lc_sock := lc_sock c; lc_zeroconf := lc_zeroconf c; lc_tag := lc_tag c; lc_host_keys := lc_host_keys c; lc_authorized := lc_authorized c; lc_proxy := lc_proxy c; lc_pond := lc_pond c; lc_max_connections := lc_max_connections c; lc_tarpit := lc_tarpit c; lc_verbose_errors := lc_verbose_errors c; lc_exec_reject_stderr := lc_exec_reject_stderr c; lc_accept_client_address := v; lc_skip_our_own := lc_skip_our_own c |}.
Definition set_lc_skip_our_own (v : bool) (c : lconf) : lconf :=
  {| lc_sock := lc_sock c; lc_zeroconf := lc_zeroconf c; lc_tag := lc_tag c; lc_host_keys := lc_host_keys c; lc_authorized := lc_authorized c; lc_proxy := lc_proxy c; lc_pond := lc_pond c; lc_max_connections := lc_max_connections c; lc_tarpit := lc_tarpit c; lc_verbose_errors := lc_verbose_errors c; lc_exec_reject_stderr := lc_exec_reject_stderr c; lc_accept_client_address := lc_accept_client_address c; lc_skip_our_own := v |}.

(** src/Config.hxx:109-152 struct Config.  std::map is a list in order of
    insertion. *)
Record conf := {
  cf_server : bytes;
  cf_controls : list sock;
  cf_listeners : list lconf;
  cf_targets : list (bytes * target);
  cf_clusters : list (bytes * cluster);
  cf_exporters : list sock;
  cf_spawn : list line;
  cf_populate : bool
}.

Definition set_cf_server (v : bytes) (c : conf) : conf :=
  {| cf_server := v; cf_controls := cf_controls c; cf_listeners := cf_listeners c; cf_targets := cf_targets c; cf_clusters := cf_clusters c; cf_exporters := cf_exporters c; cf_spawn := cf_spawn c; cf_populate := cf_populate c |}.
Definition set_cf_controls (v : list sock) (c : conf) : conf :=
  {| cf_server := cf_server c; cf_controls := v; cf_listeners := cf_listeners c; cf_targets := cf_targets c; cf_clusters := cf_clusters c; cf_exporters := cf_exporters c; cf_spawn := cf_spawn c; cf_populate := cf_populate c |}.
Definition set_cf_listeners (v : list lconf) (c : conf) : conf :=
  {| cf_server := cf_server c; cf_controls := cf_controls c; cf_listeners := v; cf_targets := cf_targets c; cf_clusters := cf_clusters c; cf_exporters := cf_exporters c; cf_spawn := cf_spawn c; cf_populate := cf_populate c |}.
Definition set_cf_clusters (v : list (bytes * cluster)) (c : conf) : conf :=
  {| cf_server := cf_server c; cf_controls := cf_controls c; cf_listeners := cf_listeners c; cf_targets := cf_targets c; cf_clusters := v; cf_exporters := cf_exporters c; cf_spawn := cf_spawn c; cf_populate := cf_populate c |}.
Definition set_cf_exporters (v : list sock) (c : conf) : conf :=
  {| cf_server := cf_server c; cf_controls := cf_controls c; cf_listeners := cf_listeners c; cf_targets := cf_targets c; cf_clusters := cf_clusters c; cf_exporters := v; cf_spawn := cf_spawn c; cf_populate := cf_populate c |}.
Definition set_cf_spawn (v : list line) (c : conf) : conf :=
  {| cf_server := cf_server c; cf_controls := cf_controls c; cf_listeners := cf_listeners c; cf_targets := cf_targets c; cf_clusters := cf_clusters c; cf_exporters := cf_exporters c; cf_spawn := v; cf_populate := cf_populate c |}.
Definition set_cf_populate (v : bool) (c : conf) : conf :=
  {| cf_server := cf_server c; cf_controls := cf_controls c; cf_listeners := cf_listeners c; cf_targets := cf_targets c; cf_clusters := cf_clusters c; cf_exporters := cf_exporters c; cf_spawn := cf_spawn c; cf_populate := v |}.

(** ZeroconfConfig::ParseLine(): not a Zeroconf option; accepted; exception *)
Inductive zresult := ZNo | ZYes | ZThrow.

Record cenv := {
  ce_build : build;
  ce_address : bytes -> N -> bool -> option bytes;   (* ParseSocketAddress() *)
  ce_local : bytes -> bool;                          (* GetFamily() == AF_LOCAL *)
  ce_any : N -> bytes;                               (* IPv6Address{port} *)
  ce_secret : bytes -> option bytes;                 (* LoadKeyFile(OpenReadOnly()) *)
  ce_public : bytes -> option (list bytes);          (* LoadPublicKeysTextFile(OpenReadOnly()) *)
  ce_service : line -> zresult;                      (* Avahi::ServiceConfig::ParseLine() *)
  ce_explorer : line -> zresult;                     (* Avahi::ServiceExplorerConfig::ParseLine() *)
  ce_explorer_enabled : list line -> bool;           (* IsEnabled() *)
  ce_explorer_check : list line -> bool;             (* Check() does not throw *)
  ce_spawn : list line -> line -> bool;              (* SpawnConfigParser::ParseLine() does not throw *)
  ce_spawn_finish : list line -> bool;               (* ... ::Finish() *)
  ce_defaults : sock;                                (* SocketConfig{} *)
  ce_fixup : sock -> sock;                           (* SocketConfig::Fixup() *)
  ce_control_port : N;                               (* BengControl::DEFAULT_PORT *)
  ce_log_port : N                                    (* Net::Log::DEFAULT_PORT *)
}.

(** src/Config.cxx:29 *)
Definition LUKKO_DEFAULT_PORT : N := 2200.

(** ** strtoul(s, &endptr, 8) *)

Definition isspace (b : N) : bool := (b =? 32) || ((9 <=? b) && (b <=? 13)).
Definition isoctal (b : N) : bool := (48 <=? b) && (b <=? 55).
Fixpoint skip_space (s : bytes) : bytes := match s with b :: t => if isspace b then skip_space t else s | [] => [] end.
Fixpoint octal (acc : N) (s : bytes) : N * bytes :=
  match s with b :: t => if isoctal b then octal (8 * acc + (b - 48)) t else (acc, s) | [] => (acc, []) end.

(** the value and the rest; [None]: no digits (endptr == s) *)
Definition strtoul8 (s : bytes) : option (N * bytes) :=
  let s := skip_space s in
  let '(negative, s) := match s with b :: t => if b =? 45 then (true, t) else if b =? 43 then (false, t) else (false, s) | [] => (false, s) end in
  match s with
  | b :: _ =>
      if isoctal b then
        let '(v, rest) := octal 0 s in
        Some (if pow64 <=? v then pow64 - 1 else if negative then (pow64 - v) mod pow64 else v, rest)
      else None
  | [] => None
  end.

(** src/Config.cxx:259-268, 388-397 *)
Definition parse_mode (s : bytes) : option N :=
  match strtoul8 s with
  | Some (value, []) => if 511 <? value then None else Some value
  | _ => None
  end.

(** ** The sections *)

Definition word_is (w : bytes) (name : string) : bool := bytes_eqb w (bs name).
Definition ZEROCONF : bytes := bs "zeroconf_".
Definition starts_with (p w : bytes) : bool := bytes_eqb (firstn (List.length p) w) p.

(** src/Config.cxx:249-251: set an address *)
Definition address (E : cenv) (l : line) (port : N) (passive : bool) : option bytes :=
  let* v := l_value l in ce_address E v port passive.

(** src/Config.cxx:254-268 *)
Definition mode_of (E : cenv) (s : sock) (l : line) : option N :=
  match sk_bind s with
  | Some a => if ce_local E a then let* v := l_value l in parse_mode v else None
  | None => None
  end.

(** SocketConfig{}: addresses are null *)
Definition socket_config (E : cenv) : sock := set_sk_bind None (set_sk_multicast None (ce_defaults E)).

(** src/Config.hxx:95-98 ListenerConfig() *)
Definition new_listener (E : cenv) : lconf :=
  {| lc_sock := set_sk_no_delay true (set_sk_listen 256 (socket_config E)); lc_zeroconf := []; lc_tag := []; lc_host_keys := []; lc_authorized := [];
     lc_proxy := PNone; lc_pond := None; lc_max_connections := 0; lc_tarpit := false; lc_verbose_errors := false; lc_exec_reject_stderr := false;
     lc_accept_client_address := false; lc_skip_our_own := false |}.

(** [std::map::find] *)
Definition lookup {A} (name : bytes) (m : list (bytes * A)) : option A := option_map snd (find (fun x => bytes_eqb (fst x) name) m).

Definition on_sock (f : sock -> sock) (c : lconf) : lconf := set_lc_sock (f (lc_sock c)) c.

(** src/Config.cxx:244-358 Listener::ParseLine() *)
Definition Listener_ParseLine (E : cenv) (parent : conf) (c : lconf) (l : line) : option lconf :=
  let B := ce_build E in
  let* w := l_word l in
  if word_is w "bind" then let* a := address E l LUKKO_DEFAULT_PORT true in Some (on_sock (set_sk_bind (Some a)) c)
  else if word_is w "interface" then let* v := l_value l in Some (on_sock (set_sk_interface v) c)
  else if word_is w "mode" then let* m := mode_of E (lc_sock c) l in Some (on_sock (set_sk_mode m) c)
  else if word_is w "mptcp" then let* b := l_bool l in Some (on_sock (set_sk_mptcp b) c)
  else if word_is w "ack_timeout" then let* n := l_positive l in Some (on_sock (set_sk_user_timeout ((n * 1000) mod pow32)) c)
  else if word_is w "keepalive" then let* b := l_bool l in Some (on_sock (set_sk_keepalive b) c)
  else if word_is w "v6only" then let* b := l_bool l in Some (on_sock (set_sk_v6only b) c)
  else if word_is w "reuse_port" then let* b := l_bool l in Some (on_sock (set_sk_reuse_port b) c)
  else if starts_with ZEROCONF w then
    (* no other word has a meaning for ServiceConfig::ParseLine() *)
    if HAVE_AVAHI B then match ce_service E l with ZYes => Some (set_lc_zeroconf (lc_zeroconf c ++ [l]) c) | _ => None end
    else None
  else if word_is w "tag" then
    if ENABLE_TRANSLATION B then let* v := l_value l in if 256 <? len v then None else Some (set_lc_tag v c)
    else Some c
  else if word_is w "host_key_file" then let* p := l_path l in let* k := ce_secret E p in Some (set_lc_host_keys (lc_host_keys c ++ [k]) c)
  else if word_is w "authorized_host_key_file" then let* p := l_path l in let* ks := ce_public E p in Some (set_lc_authorized (lc_authorized c ++ ks) c)
  else if word_is w "proxy_to" then
    match lc_proxy c with
    | PNone => let* name := l_value l in let* t := lookup name (cf_targets parent) in Some (set_lc_proxy (PTarget name t) c)
    | _ => None
    end
  else if word_is w "proxy_to_zeroconf" && HAVE_AVAHI B then
    match lc_proxy c with
    | PNone => let* name := l_value l in let* t := lookup name (cf_clusters parent) in Some (set_lc_proxy (PCluster name t) c)
    | _ => None
    end
  else if word_is w "max_connections_per_ip" then let* n := l_positive l in Some (set_lc_max_connections n c)
  else if word_is w "tarpit" then let* b := l_bool l in Some (set_lc_tarpit b c)
  else if word_is w "verbose_errors" then let* b := l_bool l in Some (set_lc_verbose_errors b c)
  else if word_is w "exec_reject_stderr" then let* b := l_bool l in Some (set_lc_exec_reject_stderr b c)
  else if word_is w "accept_client_address" then let* b := l_bool l in Some (set_lc_accept_client_address b c)
  else if word_is w "proxy_skip_our_own" && HAVE_AVAHI B then let* b := l_bool l in Some (set_lc_skip_our_own b c)
  else if word_is w "pond_server" && ENABLE_POND B then let* a := address E l (ce_log_port E) false in Some (set_lc_pond (Some a) c)
  else None.

(** src/Config.cxx:360-371 Listener::Finish() *)
Definition Listener_Finish (E : cenv) (parent : conf) (c : lconf) : option conf :=
  match sk_bind (lc_sock c) with
  | None => None
  | Some _ => Some (set_cf_listeners (on_sock (ce_fixup E) c :: cf_listeners parent) parent)
  end.

(** src/Config.cxx:214-229 ZeroconfCluster::ParseLine() *)
Definition Cluster_ParseLine (E : cenv) (c : cluster) (l : line) : option cluster :=
  let* w := l_word l in
  if starts_with ZEROCONF w then
    match ce_explorer E l with
    | ZYes => Some {| cl_zeroconf := cl_zeroconf c ++ [l]; cl_host_keys := cl_host_keys c; cl_send_client_address := cl_send_client_address c |}
    | _ => None
    end
  else if word_is w "host_key_file" then
    let* p := l_path l in let* ks := ce_public E p in
    Some {| cl_zeroconf := cl_zeroconf c; cl_host_keys := cl_host_keys c ++ ks; cl_send_client_address := cl_send_client_address c |}
  else if word_is w "send_client_address" then
    let* b := l_bool l in Some {| cl_zeroconf := cl_zeroconf c; cl_host_keys := cl_host_keys c; cl_send_client_address := b |}
  else None.

(** src/Config.cxx:40-50, 231-240 ZeroconfCluster::Finish() *)
Definition Cluster_Finish (E : cenv) (parent : conf) (name : bytes) (c : cluster) : option conf :=
  if ce_explorer_enabled E (cl_zeroconf c) && ce_explorer_check E (cl_zeroconf c) && negb (match cl_host_keys c with [] => true | _ => false end) then
    match lookup name (cf_clusters parent) with
    | Some _ => None
    | None => Some (set_cf_clusters (cf_clusters parent ++ [(name, c)]) parent)
    end
  else None.

(** src/Config.hxx:101-107, src/Config.cxx:373-419 PrometheusExporter *)
Definition new_exporter (E : cenv) : sock := set_sk_no_delay true (set_sk_defer_accept 10 (set_sk_listen 16 (socket_config E))).
Definition Exporter_ParseLine (E : cenv) (c : sock) (l : line) : option sock :=
  let* w := l_word l in
  if word_is w "bind" then let* a := address E l 9100 true in Some (set_sk_bind (Some a) c)
  else if word_is w "interface" then let* v := l_value l in Some (set_sk_interface v c)
  else if word_is w "mode" then let* m := mode_of E c l in Some (set_sk_mode m c)
  else if word_is w "v6only" then let* b := l_bool l in Some (set_sk_v6only b c)
  else if word_is w "reuse_port" then let* b := l_bool l in Some (set_sk_reuse_port b c)
  else None.
Definition Exporter_Finish (E : cenv) (parent : conf) (c : sock) : option conf :=
  match sk_bind c with None => None | Some _ => Some (set_cf_exporters (ce_fixup E c :: cf_exporters parent) parent) end.

(** src/Config.hxx:115-130, src/Config.cxx:423-451 Control *)
Definition new_control (E : cenv) : sock := set_sk_pass_cred true (socket_config E).
Definition Control_ParseLine (E : cenv) (c : sock) (l : line) : option sock :=
  let* w := l_word l in
  if word_is w "bind" then let* a := address E l (ce_control_port E) true in Some (set_sk_bind (Some a) c)
  else if word_is w "multicast_group" then let* a := address E l 0 false in Some (set_sk_multicast (Some a) c)
  else if word_is w "interface" then let* v := l_value l in Some (set_sk_interface v c)
  else None.
Definition Control_Finish (E : cenv) (parent : conf) (c : sock) : option conf :=
  match sk_bind c with None => None | Some _ => Some (set_cf_controls (ce_fixup E c :: cf_controls parent) parent) end.

(** ** The file *)

(** NestedConfigParser::child.  The class TargetHost (src/Config.cxx:97-110)
    is never instantiated. *)
Inductive child := CListener (c : lconf) | CCluster (name : bytes) (c : cluster) | CSpawn (body : list line) | CExporter (c : sock) | CControl (c : sock).

(** src/Config.cxx:455-491 ParseLine2() *)
Definition ParseLine2 (E : cenv) (c : conf) (l : line) : option (conf * option child) :=
  let B := ce_build E in
  let* w := l_word l in
  let section (ch : child) := if l_brace l then Some (c, Some ch) else None in
  if word_is w "listener" then section (CListener (new_listener E))
  else if word_is w "zeroconf_cluster" then
    if HAVE_AVAHI B then let* name := l_name_brace l in Some (c, Some (CCluster name {| cl_zeroconf := []; cl_host_keys := []; cl_send_client_address := false |}))
    else None
  else if word_is w "spawn" then section (CSpawn [])
  else if word_is w "prometheus_exporter" then section (CExporter (new_exporter E))
  else if word_is w "translation_server" && ENABLE_TRANSLATION B then let* v := l_value l in Some (set_cf_server v c, None)
  else if word_is w "control" && ENABLE_CONTROL B then section (CControl (new_control E))
  else if word_is w "populate_io_buffers" then let* b := l_bool l in Some (set_cf_populate b c, None)
  else None.

(** NestedConfigParser::ParseLine() (libcommon) *)
Definition parse_line (E : cenv) (s : conf * option child) (l : line) : option (conf * option child) :=
  match s with
  | (c, None) => ParseLine2 E c l
  | (c, Some ch) =>
      if l_close l then
        let* c := match ch with
          | CListener x => Listener_Finish E c x
          | CCluster name x => Cluster_Finish E c name x
          | CSpawn body => if ce_spawn_finish E body then Some (set_cf_spawn (cf_spawn c ++ body) c) else None
          | CExporter x => Exporter_Finish E c x
          | CControl x => Control_Finish E c x
          end in
        Some (c, None)
      else
        let* ch := match ch with
          | CListener x => let* x := Listener_ParseLine E c x l in Some (CListener x)
          | CCluster name x => let* x := Cluster_ParseLine E x l in Some (CCluster name x)
          | CSpawn body => if ce_spawn E body l then Some (CSpawn (body ++ [l])) else None
          | CExporter x => let* x := Exporter_ParseLine E x l in Some (CExporter x)
          | CControl x => let* x := Control_ParseLine E x l in Some (CControl x)
          end in
        Some (c, Some ch)
  end.

Fixpoint parse_lines (E : cenv) (s : conf * option child) (ls : list line) : option (conf * option child) :=
  match ls with [] => Some s | l :: t => let* s := parse_line E s l in parse_lines E s t end.

Definition new_conf : conf :=
  {| cf_server := []; cf_controls := []; cf_listeners := []; cf_targets := []; cf_clusters := []; cf_exporters := []; cf_spawn := []; cf_populate := false |}.

(** src/Config.cxx:76-92 Check(), without debug_mode *)
Definition default_listener (E : cenv) : lconf :=
  on_sock (fun s => set_sk_keepalive true (set_sk_user_timeout 60000 (set_sk_listen 1024 (set_sk_bind (Some (ce_any E LUKKO_DEFAULT_PORT)) s)))) (new_listener E).
Definition Check (E : cenv) (c : conf) : conf :=
  match cf_listeners c with [] => set_cf_listeners [default_listener E] c | _ => c end.

(** src/Config.cxx:493-502 LoadConfigFile(), src/Main.cxx:132-134.  At the end
    of the file no section may be open (NestedConfigParser::Finish()). *)
Definition LoadConfigFile (E : cenv) (file : list line) : option conf :=
  match parse_lines E (new_conf, None) file with
  | Some (c, None) => Some (Check E c)
  | _ => None
  end.

(** ** What is made of it *)

(** src/Main.cxx:54-94 LoadHostKeys(): the three files, if they exist; [None]:
    not there; the last argument are newly generated keys *)
Definition LoadHostKeys (files : list (option bytes)) (generated : list bytes) : list bytes :=
  let keys := flat_map (fun k => match k with Some k => [k] | None => [] end) files in
  match keys with [] => generated | _ => keys end.

(** src/Listener.cxx:114-116 Listener::host_keys *)
Definition listener_host_keys (instance : list bytes) (c : lconf) : list bytes :=
  match lc_host_keys c with [] => instance | _ => lc_host_keys c end.

(** src/Listener.cxx:82-106 LoadProxyHostKeys(), GetSendClientAddress() *)
Definition LoadProxyHostKeys (c : lconf) : option (list bytes) :=
  match lc_proxy c with PNone => None | PCluster _ x => Some (cl_host_keys x) | PTarget _ t => Some (tg_host_keys t) end.
Definition SendClientAddress (c : lconf) : bool :=
  match lc_proxy c with PNone => false | PCluster _ x => cl_send_client_address x | PTarget _ t => tg_send_client_address t end.
