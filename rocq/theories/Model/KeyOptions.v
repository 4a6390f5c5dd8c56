(** Model of src/key/Options.cxx, src/key/TextFile.cxx, src/key/Set.cxx and
    src/OptionsRequest.cxx: the options of "authorized_keys" lines. *)

From Coq Require Import NArith List Bool String.
From Verif.Base Require Import Bytes.
From Verif.Model Require Import Wire Packets StringList.
Import ListNotations.
Open Scope N_scope.

(** src/key/Options.hxx:12-24 struct AuthorizedKeyOptions *)
Record key_options := {
  ko_command : bytes;
  ko_no_port_forwarding : bool;
  ko_no_pty : bool;
  ko_home_read_only : bool
}.

(** the default member initializers *)
Definition ko_default : key_options :=
  {| ko_command := []; ko_no_port_forwarding := false; ko_no_pty := false; ko_home_read_only := false |}.

Definition is_nil (s : bytes) : bool := match s with [] => true | _ => false end.

Definition set_command (v : bytes) (o : key_options) :=
  {| ko_command := v; ko_no_port_forwarding := ko_no_port_forwarding o; ko_no_pty := ko_no_pty o;
     ko_home_read_only := ko_home_read_only o |}.
Definition set_no_port_forwarding (b : bool) (o : key_options) :=
  {| ko_command := ko_command o; ko_no_port_forwarding := b; ko_no_pty := ko_no_pty o;
     ko_home_read_only := ko_home_read_only o |}.
Definition set_no_pty (b : bool) (o : key_options) :=
  {| ko_command := ko_command o; ko_no_port_forwarding := ko_no_port_forwarding o; ko_no_pty := b;
     ko_home_read_only := ko_home_read_only o |}.
Definition set_home_read_only (b : bool) (o : key_options) :=
  {| ko_command := ko_command o; ko_no_port_forwarding := ko_no_port_forwarding o; ko_no_pty := ko_no_pty o;
     ko_home_read_only := b |}.

(** src/key/Options.cxx:9-63 AuthorizedKeyOptions::Set(); [None]: returns
    false (no member has been changed then) *)
Definition Set_ (o : key_options) (name value : bytes) : option key_options :=
  if bytes_eqb name (bs "command") then
    if is_nil value then None else Some (set_command value o)
  else if bytes_eqb name (bs "port-forwarding") then
    if negb (is_nil value) then None else Some (set_no_port_forwarding false o)
  else if bytes_eqb name (bs "no-port-forwarding") then
    if negb (is_nil value) then None else Some (set_no_port_forwarding true o)
  else if bytes_eqb name (bs "pty") then
    if negb (is_nil value) then None else Some (set_no_pty false o)
  else if bytes_eqb name (bs "no-pty") then
    if negb (is_nil value) then None else Some (set_no_pty true o)
  else if bytes_eqb name (bs "restrict") then
    if negb (is_nil value) then None else Some (set_no_pty true (set_no_port_forwarding true o))
  else if bytes_eqb name (bs "user-rc") || bytes_eqb name (bs "no-user-rc") then Some o
  else if bytes_eqb name (bs "agent-forwarding") || bytes_eqb name (bs "no-agent-forwarding")
       || bytes_eqb name (bs "X11-forwarding") || bytes_eqb name (bs "no-X11-forwarding") then Some o
  else if bytes_eqb name (bs "home-read-only") then Some (set_home_read_only true o)
  else None.

(** src/key/Options.cxx:65-80 AuthorizedKeyOptions::Restrict(); the result
    is the new value of the object and the return value *)
Definition Restrict (o other : key_options) : key_options * bool :=
  let rest (c : bytes) :=
    ({| ko_command := c;
        ko_no_port_forwarding := ko_no_port_forwarding o || ko_no_port_forwarding other;
        ko_no_pty := ko_no_pty o || ko_no_pty other;
        ko_home_read_only := ko_home_read_only o || ko_home_read_only other |}, true) in
  if negb (is_nil (ko_command other)) then
    if is_nil (ko_command o) then rest (ko_command other)
    else if negb (bytes_eqb (ko_command o) (ko_command other)) then (o, false)
    else rest (ko_command o)
  else rest (ko_command o).

(** ** libcommon string helpers (not part of the repository; modelled from
    their documented meaning) *)

(** util/CharUtil.hxx IsWhitespaceOrNull(): everything up to the space *)
Definition is_ws (c : N) : bool := c <=? 32.

(** util/StringStrip.hxx StripLeft(std::string_view) *)
Fixpoint StripLeft (s : bytes) : bytes :=
  match s with
  | c :: r => if is_ws c then StripLeft r else s
  | [] => []
  end.

(** util/StringSplit.hxx Split(haystack, ch): what is before and after the
    first [ch]; everything and nothing if there is none *)
Fixpoint Split (s : bytes) (ch : N) : bytes * bytes :=
  match s with
  | c :: r =>
      if c =? ch then ([], r)
      else let '(a, b) := Split r ch in (c :: a, b)
  | [] => ([], [])
  end.

Fixpoint starts_with (s prefix : bytes) : bool :=
  match prefix, s with
  | [], _ => true
  | p :: ps, c :: cs => (c =? p) && starts_with cs ps
  | _ :: _, [] => false
  end.

(** util/CharUtil.hxx IsLowerAlphaASCII() *)
Definition IsLowerAlphaASCII (c : N) : bool := (97 <=? c) && (c <=? 122).

(** ** src/key/TextFile.cxx *)

(** src/key/TextFile.cxx:22-30 MaybeSupportsKeyType(); [openssl] is the
    build option HAVE_OPENSSL *)
Definition MaybeSupportsKeyType (openssl : bool) (key_type : bytes) : bool :=
  starts_with key_type (bs "ssh-") || (openssl && starts_with key_type (bs "ecdsa-")).

(** src/key/TextFile.cxx:32-42 *)
Definition IsOptionNameStartChar (c : N) : bool := IsLowerAlphaASCII c.
Definition IsOptionNameMiddleChar (c : N) : bool := IsLowerAlphaASCII c || (c =? 45).

(** the loop in src/key/TextFile.cxx:54-63; [None]: [p == end] *)
Fixpoint name_loop (s : bytes) : option (bytes * bytes) :=
  match s with
  | [] => None
  | c :: r =>
      if negb (IsOptionNameMiddleChar c) then Some ([], s)
      else match name_loop r with
           | Some (a, b) => Some (c :: a, b)
           | None => None
           end
  end.

(** src/key/TextFile.cxx:44-64 ParseOptionName() *)
Definition ParseOptionName (s : bytes) : bytes * bytes :=
  match s with
  | [] => ([], [])
  | c :: r =>
      if negb (IsOptionNameStartChar c) then ([], [])
      else match name_loop r with
           | Some (a, b) => (c :: a, b)
           | None => ([], [])
           end
  end.

(** the loop in src/key/TextFile.cxx:77-94 (34 is the double quote, 92 the
    backslash) *)
Fixpoint quoted_loop (s : bytes) : option (bytes * bytes) :=
  match s with
  | [] => None
  | c :: r =>
      if c =? 34 then Some ([], r)
      else if c =? 92 then
        match r with
        | [] => None
        | d :: r' =>
            match quoted_loop r' with
            | Some (v, t) => Some (d :: v, t)
            | None => None
            end
        end
      else match quoted_loop r with
           | Some (v, t) => Some (c :: v, t)
           | None => None
           end
  end.

(** the loop in src/key/TextFile.cxx:100-105 (44 is the comma, 32 the
    space) *)
Fixpoint plain_loop (s : bytes) : bytes * bytes :=
  match s with
  | [] => ([], [])
  | c :: r =>
      if (c =? 44) || (c =? 32) then ([], s)
      else let '(v, t) := plain_loop r in (c :: v, t)
  end.

(** src/key/TextFile.cxx:66-113 ParseOptionValue() *)
Definition ParseOptionValue (s : bytes) : bytes * bytes :=
  match s with
  | 34 :: r => match quoted_loop r with Some x => x | None => ([], []) end
  | _ => plain_loop s
  end.

(** src/key/TextFile.cxx:115-144 ParseOptions(); the result is what is left
    of the line and the options; the empty rest stands for failure.  Each
    iteration consumes at least two bytes, [fuel] is the number of
    iterations allowed and [ParseOptions] provides enough of it. *)
Fixpoint options_loop (fuel : nat) (s : bytes) (o : key_options) : bytes * key_options :=
  match fuel with
  | O => ([], o)
  | S fuel =>
      let '(name, rest) := ParseOptionName s in
      if is_nil name then ([], o) else
      let '(value, s) :=
        match rest with
        | 61 :: r => ParseOptionValue r
        | _ => ([], rest)
        end in
      match Set_ o name value with
      | None => ([], o)
      | Some o =>
          match s with
          | [] => ([], o)
          | 32 :: r => (StripLeft r, o)
          | 44 :: r => options_loop fuel r o
          | _ => ([], o)
          end
      end
  end.

Definition ParseOptions (s : bytes) (o : key_options) : bytes * key_options :=
  options_loop (S (List.length s)) s o.

(** src/key/TextFile.cxx:146-163 ExtractPublicKeyBlobFromLine() (35 is the
    number sign) *)
Definition ExtractPublicKeyBlobFromLine (openssl : bool) (line : bytes) : bytes * key_options :=
  match StripLeft line with
  | [] => ([], ko_default)
  | 35 :: _ => ([], ko_default)
  | line =>
      let '(key_type, rest) := Split line 32 in
      let '(rest, o) :=
        if negb (MaybeSupportsKeyType openssl key_type) then
          let '(line, o) := ParseOptions line ko_default in
          (snd (Split line 32), o)
        else (rest, ko_default) in
      (fst (Split rest 32), o)
  end.

Section TextFile.
(** lib/sodium/Base64Alloc.hxx DecodeBase64(); [None]: nullptr *)
Variable DecodeBase64 : bytes -> option bytes.
Variable openssl : bool.

(** src/key/TextFile.cxx:192-216 PublicKeyBlobsEqual(),
    PublicKeysTextLineContains() *)
Definition PublicKeysTextLineContains (line needle : bytes) : option key_options :=
  let '(blob_base64, options) := ExtractPublicKeyBlobFromLine openssl line in
  if is_nil blob_base64 then None
  else match DecodeBase64 blob_base64 with
       | None => None
       | Some blob => if negb (bytes_eqb blob needle) then None else Some options
       end.

(** the loops in src/key/TextFile.cxx:218-227 and 229-237, over the lines *)
Fixpoint lines_contain (lines : list bytes) (needle : bytes) : option key_options :=
  match lines with
  | [] => None
  | l :: r =>
      match PublicKeysTextLineContains l needle with
      | Some o => Some o
      | None => lines_contain r needle
      end
  end.

(** src/key/TextFile.cxx:218-227 PublicKeysTextFileContains(string_view) *)
Definition PublicKeysTextContains (contents needle : bytes) : option key_options :=
  lines_contain (split 10 contents) needle.

(** libcommon io/BufferedReader.hxx ReadLine() (not part of the repository;
    modelled from its documented meaning): the lines without white space at
    the end; the caller sees a C string, which ends at the first null byte.
    What follows the last newline is a line only if it is not empty. *)
Fixpoint StripRight (s : bytes) : bytes :=
  match s with
  | [] => []
  | c :: r =>
      match StripRight r with
      | [] => if is_ws c then [] else [c]
      | r' => c :: r'
      end
  end.

Fixpoint c_str (s : bytes) : bytes :=
  match s with
  | [] => []
  | c :: r => if c =? 0 then [] else c :: c_str r
  end.

Fixpoint read_lines (pieces : list bytes) : list bytes :=
  match pieces with
  | [] => []
  | [last] => if is_nil last then [] else [c_str last]
  | l :: r => c_str (StripRight l) :: read_lines r
  end.

Definition file_lines (contents : bytes) : list bytes := read_lines (split 10 contents).

(** src/key/TextFile.cxx:229-250 PublicKeysTextFileContains(FileDescriptor);
    [contents] is what the file contains.  (A read error is caught and gives
    nullopt, unless an earlier line matched; not modelled.) *)
Definition PublicKeysTextFileContains (contents : bytes) (needle : bytes) : option key_options :=
  lines_contain (file_lines contents) needle.

(** ** src/key/Set.cxx *)

(** class PublicKeySet: a map from the key's blob to its options *)
Definition key_set := list (bytes * key_options).

(** src/key/Set.cxx:34-41 Find(span) *)
Fixpoint Find (set : key_set) (blob : bytes) : option key_options :=
  match set with
  | [] => None
  | (b, o) :: r => if bytes_eqb b blob then Some o else Find r blob
  end.

(** src/key/Set.cxx:15-20 Add(span, options): std::map::emplace() does
    nothing if the key exists *)
Definition Add (set : key_set) (blob : bytes) (o : key_options) : key_set :=
  match Find set blob with
  | Some _ => set
  | None => set ++ [(blob, o)]
  end.

(** src/key/TextFile.cxx:165-174 LoadPublicKeyLine() *)
Definition LoadPublicKeyLine (set : key_set) (line : bytes) : key_set :=
  let '(blob_base64, options) := ExtractPublicKeyBlobFromLine openssl line in
  if is_nil blob_base64 then set
  else match DecodeBase64 blob_base64 with
       | Some blob => Add set blob options
       | None => set
       end.

(** src/key/TextFile.cxx:176-190 LoadPublicKeysTextFile() *)
Definition LoadPublicKeysTextFile (set : key_set) (contents : bytes) : key_set :=
  fold_left LoadPublicKeyLine (file_lines contents) set.

End TextFile.

(** ** src/OptionsRequest.cxx *)

(** src/OptionsRequest.cxx:14-20 SerializeOption() *)
Definition SerializeOption (s : serializer) (name value : bytes) : option serializer :=
  let* s := WriteString s name in WriteString s value.

(** src/OptionsRequest.cxx:22-37 SerializeAuthorizedKeyOptions() *)
Definition SerializeAuthorizedKeyOptions (s : serializer) (o : key_options) : option serializer :=
  let* s := (if negb (is_nil (ko_command o)) then SerializeOption s (bs "command") (ko_command o) else Some s) in
  let* s := (if ko_no_port_forwarding o then SerializeOption s (bs "no-port-forwarding") [] else Some s) in
  let* s := (if ko_no_pty o then SerializeOption s (bs "no-pty") [] else Some s) in
  if ko_home_read_only o then SerializeOption s (bs "home-read-only") [] else Some s.

(** the loop in src/OptionsRequest.cxx:44-50; [None]: an exception
    (MalformedPacket or std::invalid_argument).  Each iteration consumes at
    least eight bytes. *)
Fixpoint deserialize_loop (fuel : nat) (d : bytes) (o : key_options) : option key_options :=
  match d with
  | [] => Some o
  | _ =>
      match fuel with
      | O => None
      | S fuel =>
          let* (name, d) := ReadString d in
          let* (value, d) := ReadString d in
          let* o := Set_ o name value in
          deserialize_loop fuel d o
      end
  end.

(** src/OptionsRequest.cxx:39-53 DeserializeAuthorizedKeyOptions() *)
Definition DeserializeAuthorizedKeyOptions (d : bytes) : option key_options :=
  deserialize_loop (List.length d) d ko_default.

(** src/OptionsRequest.hxx AUTHORIZED_KEY_OPTIONS_REQUEST *)
Definition AUTHORIZED_KEY_OPTIONS_REQUEST : bytes := bs "authorized-key-options@lukko.cm4all.com".

(** src/Connection.cxx:1393-1401 SendAuthorizedKeyOptions(): the packet *)
Definition MakeOptionsRequest (junk : bytes) (o : key_options) : option serializer :=
  let* s := MakeGlobalRequest junk AUTHORIZED_KEY_OPTIONS_REQUEST false in
  SerializeAuthorizedKeyOptions s o.
