(** Specification of "authorized_keys" lines and their options (OpenSSH's
    file format as described in doc/index.rst, section "Public Key
    Authentication"), written as a grammar and without reference to the
    parser. *)

From Coq Require Import NArith List Bool String.
From Verif.Base Require Import Bytes.
From Verif.Spec Require Import WireSpec.
From Verif.Model Require Import KeyOptions.
Import ListNotations.
Open Scope N_scope.

(** An option: its name and its value (empty if there is none). *)
Definition item := (bytes * bytes)%type.

Definition named (names : list string) (i : item) : Prop := In (fst i) (map bs names).
Definition is_named (names : list string) (i : item) : bool := existsb (bytes_eqb (fst i)) (map bs names).

(** The documented options.  "command" needs a value, the switches must not
    have one; lukko ignores the value of the others. *)
Definition acceptable (i : item) : Prop :=
  (named ["command"%string] i /\ snd i <> []) \/
  (named ["port-forwarding"; "no-port-forwarding"; "pty"; "no-pty"; "restrict"]%string i /\ snd i = []) \/
  named ["home-read-only"; "user-rc"; "no-user-rc"; "agent-forwarding"; "no-agent-forwarding";
         "X11-forwarding"; "no-X11-forwarding"]%string i.

(** The value of the last "command" option, nothing if there is none. *)
Fixpoint last_command (l : list item) : bytes :=
  match l with
  | [] => []
  | i :: r =>
      if existsb (is_named ["command"%string]) r then last_command r
      else if is_named ["command"%string] i then snd i else []
  end.

(** The last option which is listed in [yes] or [no] decides. *)
Fixpoint decided (yes no : list string) (l : list item) : bool :=
  match l with
  | [] => false
  | i :: r =>
      if existsb (is_named (yes ++ no)) r then decided yes no r
      else is_named yes i
  end.

(** What a list of options means. *)
Definition denote (l : list item) : key_options :=
  {| ko_command := last_command l;
     ko_no_port_forwarding := decided ["no-port-forwarding"; "restrict"]%string ["port-forwarding"]%string l;
     ko_no_pty := decided ["no-pty"; "restrict"]%string ["pty"]%string l;
     ko_home_read_only := existsb (is_named ["home-read-only"%string]) l |}.

(** ** The text of options *)

Definition lower (c : N) : Prop := 97 <= c /\ c <= 122.

Definition option_name (n : bytes) : Prop :=
  match n with
  | [] => False
  | c :: r => lower c /\ Forall (fun d => lower d \/ d = 45) r
  end.

(** [quoted v t]: [t] is [v] with some bytes preceded by a backslash; a quote
    (34) and a backslash (92) must be. *)
Inductive quoted : bytes -> bytes -> Prop :=
| Q_end : quoted [] []
| Q_byte : forall c v t, c <> 34 -> c <> 92 -> quoted v t -> quoted (c :: v) (c :: t)
| Q_escaped : forall c v t, quoted v t -> quoted (c :: v) (92 :: c :: t).

(** NAME, NAME=VALUE or NAME="VALUE" *)
Inductive option_text : item -> bytes -> Prop :=
| T_bare : forall n, option_name n -> option_text (n, []) n
| T_plain : forall n v, option_name n ->
    Forall (fun c => c <> 44 /\ c <> 32) v -> hd 0 v <> 34 ->
    option_text (n, v) (n ++ [61] ++ v)
| T_quoted : forall n v t, option_name n -> quoted v t ->
    option_text (n, v) (n ++ [61; 34] ++ t ++ [34]).

(** one or more of them with a comma between *)
Inductive options_text : list item -> bytes -> Prop :=
| T_one : forall i t, option_text i t -> options_text [i] t
| T_more : forall i t l u, option_text i t -> options_text l u -> options_text (i :: l) (t ++ [44] ++ u).

(** ** Lines *)

Definition white (s : bytes) : Prop := Forall (fun c => c <= 32) s.
Definition no_space (s : bytes) : Prop := ~ In 32 s.

(** [KEYTYPE BASE64], followed by nothing or by a space and anything *)
Definition key_text (key_type b64 : bytes) (s : bytes) : Prop :=
  exists tail, s = key_type ++ [32] ++ b64 ++ tail /\
  no_space key_type /\ no_space b64 /\ b64 <> [] /\ (tail = [] \/ exists t, tail = 32 :: t).

Definition known_type (openssl : bool) (t : bytes) : Prop :=
  (exists r, t = bs "ssh-" ++ r) \/ (openssl = true /\ exists r, t = bs "ecdsa-" ++ r).

(** The line names the key [b64] with the options [l]: without options it
    starts with a known key type. *)
Definition line_text (openssl : bool) (line b64 : bytes) (l : list item) : Prop :=
  exists ws body, line = ws ++ body /\ white ws /\
  ((l = [] /\ exists ty, key_text ty b64 body /\ known_type openssl ty) \/
   (exists t ws2 ty c r, body = t ++ [32] ++ ws2 ++ (c :: r) /\ options_text l t /\
      white ws2 /\ 32 < c /\ key_text ty b64 (c :: r))).

(** The line authorizes the key [blob] with the options [o]. *)
Definition authorizes (openssl : bool) (base64 : bytes -> option bytes) (line blob : bytes) (o : key_options) : Prop :=
  exists b64 l, line_text openssl line b64 l /\ Forall acceptable l /\ base64 b64 = Some blob /\ o = denote l.

(** ** Options as restrictions *)

(** [a] restricts at least as much as [b]. *)
Definition at_least (a b : key_options) : Prop :=
  (ko_command b <> [] -> ko_command a = ko_command b) /\
  (ko_no_port_forwarding b = true -> ko_no_port_forwarding a = true) /\
  (ko_no_pty b = true -> ko_no_pty a = true) /\
  (ko_home_read_only b = true -> ko_home_read_only a = true).

(** Two different forced commands. *)
Definition conflict (a b : key_options) : Prop :=
  ko_command a <> [] /\ ko_command b <> [] /\ ko_command a <> ko_command b.

(** The payload of an options request: name and value of each option. *)
Definition options_payload (l : list item) : bytes :=
  enc (flat_map (fun i => [FString (fst i); FString (snd i)]) l).

(** [lines] are the lines of a text: what is between its newlines. *)
Definition NEWLINE : N := 10.
Fixpoint unlines (lines : list bytes) : bytes :=
  match lines with
  | [] => []
  | [l] => l
  | l :: r => l ++ [NEWLINE] ++ unlines r
  end.
Definition text_lines (text : bytes) (lines : list bytes) : Prop :=
  lines <> [] /\ Forall (fun l => ~ In NEWLINE l) lines /\ unlines lines = text.

(** The first of the lines which authorizes the key. *)
Definition first_authorizing (openssl : bool) (base64 : bytes -> option bytes)
    (lines : list bytes) (blob : bytes) (o : key_options) : Prop :=
  exists pre line post, lines = pre ++ line :: post /\ authorizes openssl base64 line blob o /\
    (forall l o', In l pre -> ~ authorizes openssl base64 l blob o').
