(** Model of the version exchange.
    Connection::OnBufferedData(), src/ssh/Connection.cxx:824-863

    Simplifications: how many bytes fit into the buffer of the packet parser
    is a parameter of each event; what the packet parser does with them is in
    Model/Input.v; errors and hangups of the socket are not modelled here. *)

From Coq Require Import NArith List Bool String.
From Verif.Base Require Import Bytes.
Import ListNotations.
Open Scope N_scope.

Record vx := {
  x_client : bool;              (* role == Role::CLIENT *)
  x_buffer : bytes;             (* the input buffer of the socket *)
  x_exchanged : bool;           (* version_exchanged *)
  x_peer_version : bytes;       (* peer_version *)
  x_fed : bytes;                (* everything which was moved to the packet parser *)
  x_kexinits : N;               (* calls of SendKexInit() *)
  x_disposed : bool             (* disposer.Dispose(this) *)
}.

Definition mk_vx r b e p f k d : vx := {|
  x_client := r; x_buffer := b; x_exchanged := e; x_peer_version := p; x_fed := f; x_kexinits := k; x_disposed := d |}.

Definition new_vx (client : bool) : vx := mk_vx client [] false [] [] 0 false.

(** std::find(r.begin(), r.end(), '\n'): what is before the line feed and what
    is after it *)
Fixpoint find_eol (r : bytes) : option (bytes * bytes) :=
  match r with
  | [] => None
  | 10 :: rest => Some ([], rest)
  | c :: rest =>
      match find_eol rest with
      | Some (line, more) => Some (c :: line, more)
      | None => None
      end
  end.

Definition starts_with (p s : bytes) : bool := bytes_eqb (take (len p) s) p.

(** if (s.ends_with('\r')) s.remove_suffix(1) *)
Fixpoint strip_cr (s : bytes) : bytes :=
  match s with
  | [] => []
  | [13] => []
  | c :: rest => c :: strip_cr rest
  end.

(** input.Feed(socket.GetInputBuffer()): [k] bytes fit,
    src/ssh/Connection.cxx:857-862, src/ssh/Input.cxx:85-107 *)
Definition FeedInput (k : N) (v : vx) : vx :=
  mk_vx (x_client v) (drop k (x_buffer v)) (x_exchanged v) (x_peer_version v) (x_fed v ++ take k (x_buffer v))
    (x_kexinits v) (x_disposed v).

Definition dispose (v : vx) : vx :=
  mk_vx (x_client v) (x_buffer v) (x_exchanged v) (x_peer_version v) (x_fed v) (x_kexinits v) true.

(** src/ssh/Connection.cxx:824-863 *)
Definition OnBufferedData (k : N) (v : vx) : vx :=
  if x_exchanged v then FeedInput k v
  else
    match find_eol (x_buffer v) with
    | None => if 255 <=? len (x_buffer v) then dispose v else v
    | Some (s, rest) =>
        let v := mk_vx (x_client v) rest (x_exchanged v) (x_peer_version v) (x_fed v) (x_kexinits v) (x_disposed v) in
        if negb (starts_with (bs "SSH-") s) then dispose v
        else
          FeedInput k
            (mk_vx (x_client v) rest true (strip_cr s) (x_fed v)
               (if x_client v then x_kexinits v + 1 else x_kexinits v) (x_disposed v))
    end.

(** A chunk is received and the callback is invoked; nothing happens after the
    connection was disposed. *)
Definition vx_receive (c : bytes * N) (v : vx) : vx :=
  if x_disposed v then v
  else OnBufferedData (snd c)
         (mk_vx (x_client v) (x_buffer v ++ fst c) (x_exchanged v) (x_peer_version v) (x_fed v) (x_kexinits v) false).

Fixpoint vx_run (chunks : list (bytes * N)) (v : vx) : vx :=
  match chunks with
  | [] => v
  | c :: rest => vx_run rest (vx_receive c v)
  end.
