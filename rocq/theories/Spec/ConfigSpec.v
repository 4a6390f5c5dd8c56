(** What a configuration file means: doc/index.rst, "Configuration". *)

From Coq Require Import NArith List Bool String.
From Verif.Base Require Import Bytes.
From Verif.Model Require Import Config.
Import ListNotations.
Open Scope N_scope.

(** ** Lines of a section *)

Definition has_word (w : string) (l : line) : bool :=
  match l_word l with Some x => bytes_eqb x (bs w) | None => false end.
Definition lines_of (w : string) (body : list line) : list line := filter (has_word w) body.

(** the last line with this option *)
Definition last_line (w : string) (body : list line) : option line := hd_error (rev (lines_of w body)).

(** the last line counts; without one, the default *)
Definition setting {A} (read : line -> option A) (w : string) (default : A) (body : list line) : A :=
  match last_line w body with
  | Some l => match read l with Some a => a | None => default end
  | None => default
  end.
Definition flag := setting l_bool.

Definition some {A} (x : option A) : option (option A) := option_map Some x.
Definition the_address (E : cenv) (port : N) (passive : bool) (l : line) : option bytes :=
  match l_value l with Some v => ce_address E v port passive | None => None end.

(** all keys from all files *)
Definition secret_keys (E : cenv) (l : line) : list bytes :=
  match l_path l with Some p => match ce_secret E p with Some k => [k] | None => [] end | None => [] end.
Definition public_keys (E : cenv) (l : line) : list bytes :=
  match l_path l with Some p => match ce_public E p with Some ks => ks | None => [] end | None => [] end.

Definition about_zeroconf (l : line) : bool :=
  match l_word l with Some w => bytes_eqb (firstn 9 w) (bs "zeroconf_") | None => false end.

(** ** Options and their values *)

Inductive kind :=
| KFlag                                  (* yes or no *)
| KText                                  (* a string *)
| KTag                                   (* a string of no more than 256 bytes *)
| KNumber                                (* a positive number *)
| KAddress (port : N) (passive : bool)   (* a socket address *)
| KMode                                  (* a file mode, after the address of a local socket *)
| KSecretKey                             (* a file with a secret key *)
| KPublicKeys                            (* a file with public keys *)
| KCluster                               (* a cluster from above in the file; only once *)
| KIgnored.

Definition listener_options (E : cenv) : list (string * kind) :=
  let B := ce_build E in
  [ ("bind", KAddress 2200 true); ("interface", KText); ("mode", KMode); ("mptcp", KFlag); ("ack_timeout", KNumber);
    ("keepalive", KFlag); ("v6only", KFlag); ("reuse_port", KFlag); ("tag", if ENABLE_TRANSLATION B then KTag else KIgnored);
    ("host_key_file", KSecretKey); ("authorized_host_key_file", KPublicKeys); ("max_connections_per_ip", KNumber);
    ("tarpit", KFlag); ("verbose_errors", KFlag); ("exec_reject_stderr", KFlag); ("accept_client_address", KFlag) ]%string
  ++ (if HAVE_AVAHI B then [ ("proxy_to_zeroconf", KCluster); ("proxy_skip_our_own", KFlag) ]%string else [])
  ++ (if ENABLE_POND B then [ ("pond_server", KAddress (ce_log_port E) false) ]%string else []).

(** an address of the last "bind" line *)
Definition bound (E : cenv) (port : N) (before : list line) : option bytes :=
  setting (fun l => some (the_address E port true l)) "bind" None before.

(** [clusters]: those above; [port]: of "bind"; [before]: the lines before
    this one in its section *)
Definition value_ok (E : cenv) (clusters : list (bytes * cluster)) (port : N) (before : list line) (l : line) (k : kind) : Prop :=
  match k with
  | KFlag => exists b, l_bool l = Some b
  | KText => exists v, l_value l = Some v
  | KTag => exists v, l_value l = Some v /\ len v <= 256
  | KNumber => exists n, l_positive l = Some n
  | KAddress port passive => exists a, the_address E port passive l = Some a
  | KMode => exists a v m, bound E port before = Some a /\ ce_local E a = true /\ l_value l = Some v /\ parse_mode v = Some m
  | KSecretKey => exists p k, l_path l = Some p /\ ce_secret E p = Some k
  | KPublicKeys => exists p ks, l_path l = Some p /\ ce_public E p = Some ks
  | KCluster => lines_of "proxy_to_zeroconf" before = [] /\ exists name c, l_value l = Some name /\ lookup name clusters = Some c
  | KIgnored => True
  end.

Definition known (E : cenv) (clusters : list (bytes * cluster)) (port : N) (options : list (string * kind)) (before : list line) (l : line) : Prop :=
  exists name k, In (name, k) options /\ l_word l = Some (bs name) /\ value_ok E clusters port before l k.

(** each line, given the lines before *)
Definition each (ok : list line -> line -> Prop) (body : list line) : Prop :=
  forall before l after, body = before ++ l :: after -> ok before l.

(** ** Sections *)

(** listener *)
Definition listener_line (E : cenv) (clusters : list (bytes * cluster)) (before : list line) (l : line) : Prop :=
  known E clusters 2200 (listener_options E) before l \/
  (about_zeroconf l = true /\ HAVE_AVAHI (ce_build E) = true /\ ce_service E l = ZYes).

Definition file_mode (l : line) : option N := match l_value l with Some v => parse_mode v | None => None end.

Definition the_cluster (clusters : list (bytes * cluster)) (l : line) : option proxy :=
  match l_value l with
  | Some name => match lookup name clusters with Some c => Some (PCluster name c) | None => None end
  | None => None
  end.

Definition listener_of (E : cenv) (clusters : list (bytes * cluster)) (body : list line) : lconf :=
  let D := ce_defaults E in
  {| lc_sock :=
       {| sk_bind := bound E 2200 body;
          sk_multicast := None;
          sk_interface := setting l_value "interface" (sk_interface D) body;
          sk_mode := setting file_mode "mode" (sk_mode D) body;
          sk_mptcp := flag "mptcp" (sk_mptcp D) body;
          (* milliseconds; "unsigned" has 32 bits *)
          sk_user_timeout := setting (fun l => option_map (fun n => (1000 * n) mod 2 ^ 32) (l_positive l)) "ack_timeout" (sk_user_timeout D) body;
          sk_keepalive := flag "keepalive" (sk_keepalive D) body;
          sk_v6only := flag "v6only" (sk_v6only D) body;
          sk_reuse_port := flag "reuse_port" (sk_reuse_port D) body;
          sk_no_delay := true;
          sk_listen := 256;
          sk_defer_accept := sk_defer_accept D;
          sk_pass_cred := sk_pass_cred D |};
     lc_zeroconf := filter about_zeroconf body;
     lc_tag := if ENABLE_TRANSLATION (ce_build E) then setting l_value "tag" [] body else [];
     lc_host_keys := flat_map (secret_keys E) (lines_of "host_key_file" body);
     lc_authorized := flat_map (public_keys E) (lines_of "authorized_host_key_file" body);
     lc_proxy := setting (the_cluster clusters) "proxy_to_zeroconf" PNone body;
     lc_pond := setting (fun l => some (the_address E (ce_log_port E) false l)) "pond_server" None body;
     lc_max_connections := setting l_positive "max_connections_per_ip" 0 body;
     lc_tarpit := flag "tarpit" false body;
     lc_verbose_errors := flag "verbose_errors" false body;
     lc_exec_reject_stderr := flag "exec_reject_stderr" false body;
     lc_accept_client_address := flag "accept_client_address" false body;
     lc_skip_our_own := flag "proxy_skip_our_own" false body |}.

(** zeroconf_cluster *)
Definition cluster_line (E : cenv) (before : list line) (l : line) : Prop :=
  known E [] 0 [("host_key_file", KPublicKeys); ("send_client_address", KFlag)]%string before l \/
  (about_zeroconf l = true /\ ce_explorer E l = ZYes).
Definition cluster_of (E : cenv) (body : list line) : cluster :=
  {| cl_zeroconf := filter about_zeroconf body;
     cl_host_keys := flat_map (public_keys E) (lines_of "host_key_file" body);
     cl_send_client_address := flag "send_client_address" false body |}.

(** prometheus_exporter *)
Definition exporter_line (E : cenv) (before : list line) (l : line) : Prop :=
  known E [] 9100 [("bind", KAddress 9100 true); ("interface", KText); ("mode", KMode); ("v6only", KFlag); ("reuse_port", KFlag)]%string before l.
Definition exporter_of (E : cenv) (body : list line) : sock :=
  let D := ce_defaults E in
  {| sk_bind := bound E 9100 body; sk_multicast := None; sk_interface := setting l_value "interface" (sk_interface D) body;
     sk_mode := setting file_mode "mode" (sk_mode D) body; sk_mptcp := sk_mptcp D; sk_user_timeout := sk_user_timeout D; sk_keepalive := sk_keepalive D;
     sk_v6only := flag "v6only" (sk_v6only D) body; sk_reuse_port := flag "reuse_port" (sk_reuse_port D) body;
     sk_no_delay := true; sk_listen := 16; sk_defer_accept := 10; sk_pass_cred := sk_pass_cred D |}.

(** control *)
Definition control_line (E : cenv) (before : list line) (l : line) : Prop :=
  known E [] (ce_control_port E) [("bind", KAddress (ce_control_port E) true); ("multicast_group", KAddress 0 false); ("interface", KText)]%string before l.
Definition control_of (E : cenv) (body : list line) : sock :=
  let D := ce_defaults E in
  {| sk_bind := bound E (ce_control_port E) body;
     sk_multicast := setting (fun l => some (the_address E 0 false l)) "multicast_group" None body;
     sk_interface := setting l_value "interface" (sk_interface D) body;
     sk_mode := sk_mode D; sk_mptcp := sk_mptcp D; sk_user_timeout := sk_user_timeout D; sk_keepalive := sk_keepalive D; sk_v6only := sk_v6only D;
     sk_reuse_port := sk_reuse_port D; sk_no_delay := sk_no_delay D; sk_listen := sk_listen D; sk_defer_accept := sk_defer_accept D; sk_pass_cred := true |}.

(** ** The file *)

Inductive item := Top (l : line) | Sect (head : line) (body : list line) (close : line).
Definition item_lines (i : item) : list line := match i with Top l => [l] | Sect h b c => h :: b ++ [c] end.

Definition tops (items : list item) : list line := flat_map (fun i => match i with Top l => [l] | _ => [] end) items.
(** the sections of one kind, in order *)
Definition sections (w : string) (items : list item) : list (list line) :=
  flat_map (fun i => match i with Sect h b _ => if has_word w h then [b] else [] | _ => [] end) items.
Definition clusters_in (E : cenv) (items : list item) : list (bytes * cluster) :=
  flat_map (fun i => match i with
                     | Sect h b _ => if has_word "zeroconf_cluster" h then match l_name_brace h with Some name => [(name, cluster_of E b)] | None => [] end else []
                     | _ => [] end) items.

Definition item_ok (E : cenv) (before : list item) (i : item) : Prop :=
  let B := ce_build E in
  match i with
  | Top l =>
      (has_word "translation_server" l = true /\ ENABLE_TRANSLATION B = true /\ exists v, l_value l = Some v) \/
      (has_word "populate_io_buffers" l = true /\ exists b, l_bool l = Some b)
  | Sect h b c =>
      l_close c = true /\ Forall (fun l => l_close l = false) b /\
      ((has_word "listener" h = true /\ l_brace h = true /\ each (listener_line E (clusters_in E before)) b /\ bound E 2200 b <> None) \/
       (has_word "zeroconf_cluster" h = true /\ HAVE_AVAHI B = true /\ each (cluster_line E) b /\
        exists name, l_name_brace h = Some name /\ ~ In name (map fst (clusters_in E before)) /\
          ce_explorer_enabled E (filter about_zeroconf b) = true /\ ce_explorer_check E (filter about_zeroconf b) = true /\
          cl_host_keys (cluster_of E b) <> []) \/
       (has_word "spawn" h = true /\ l_brace h = true /\ each (fun pre l => ce_spawn E pre l = true) b /\ ce_spawn_finish E b = true) \/
       (has_word "prometheus_exporter" h = true /\ l_brace h = true /\ each (exporter_line E) b /\ bound E 9100 b <> None) \/
       (has_word "control" h = true /\ ENABLE_CONTROL B = true /\ l_brace h = true /\ each (control_line E) b /\ bound E (ce_control_port E) b <> None))
  end.

Definition file_ok (E : cenv) (items : list item) : Prop := forall before i after, items = before ++ i :: after -> item_ok E before i.

Fixpoint listeners_in (E : cenv) (above : list item) (items : list item) : list lconf :=
  match items with
  | [] => []
  | i :: t =>
      match i with
      | Sect h b _ => if has_word "listener" h then [on_sock (ce_fixup E) (listener_of E (clusters_in E above) b)] else []
      | _ => []
      end ++ listeners_in E (above ++ [i]) t
  end.

(** lists are in reverse order *)
Definition meaning (E : cenv) (items : list item) : conf :=
  {| cf_server := setting l_value "translation_server" [] (tops items);
     cf_controls := rev (map (fun b => ce_fixup E (control_of E b)) (sections "control" items));
     cf_listeners := rev (listeners_in E [] items);
     cf_targets := [];
     cf_clusters := clusters_in E items;
     cf_exporters := rev (map (fun b => ce_fixup E (exporter_of E b)) (sections "prometheus_exporter" items));
     cf_spawn := List.concat (sections "spawn" items);
     cf_populate := flag "populate_io_buffers" false (tops items) |}.

(** without any listener, one for port 2200 *)
Definition standard_listener (E : cenv) : lconf :=
  let c := listener_of E [] [] in
  {| lc_sock := {| sk_bind := Some (ce_any E 2200); sk_multicast := None; sk_interface := sk_interface (lc_sock c); sk_mode := sk_mode (lc_sock c);
                   sk_mptcp := sk_mptcp (lc_sock c); sk_user_timeout := 60000; sk_keepalive := true; sk_v6only := sk_v6only (lc_sock c);
                   sk_reuse_port := sk_reuse_port (lc_sock c); sk_no_delay := true; sk_listen := 1024; sk_defer_accept := sk_defer_accept (lc_sock c);
                   sk_pass_cred := sk_pass_cred (lc_sock c) |};
     lc_zeroconf := []; lc_tag := []; lc_host_keys := []; lc_authorized := []; lc_proxy := PNone; lc_pond := None; lc_max_connections := 0;
     lc_tarpit := false; lc_verbose_errors := false; lc_exec_reject_stderr := false; lc_accept_client_address := false; lc_skip_our_own := false |}.

Definition whole (E : cenv) (items : list item) : conf :=
  let m := meaning E items in
  match sections "listener" items with
  | [] => {| cf_server := cf_server m; cf_controls := cf_controls m; cf_listeners := [standard_listener E]; cf_targets := cf_targets m; cf_clusters := cf_clusters m;
             cf_exporters := cf_exporters m; cf_spawn := cf_spawn m; cf_populate := cf_populate m |}
  | _ => m
  end.

(** ** File modes *)

Definition octal_digits (s : bytes) : Prop := s <> [] /\ Forall (fun b => 48 <= b <= 55) s.
Definition octal_value (s : bytes) : N := fold_left (fun acc b => 8 * acc + (b - 48)) s 0.
