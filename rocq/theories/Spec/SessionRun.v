(** The history of one session channel (C42, C43, C45, C55). *)

From Coq Require Import NArith List Bool String.
From Verif.Base Require Import Bytes.
From Verif.Model Require Import Wire Packets KeyOptions Auth Session Server.
Import ListNotations.
Open Scope N_scope.

(** A session channel, from its creation; each event together with the
    account at that time. *)
Definition srun (cfg : config) (l : list (account * sop)) : session * list sevent :=
  fold_left (fun r x => let '(y, e) := sstep cfg (fst x) (snd x) (fst r) in (y, snd r ++ e)) l (new_session, []).

(** What the server has logged of session channel [n] since its (latest)
    creation. *)
Definition session_log (n : N) (log : list vevent) : list sevent :=
  fold_left (fun acc e =>
    match e with
    | VSession k => if k =? n then [] else acc
    | VSess k e => if k =? n then acc ++ [e] else acc
    | _ => acc
    end) log [].

(** What the events of the server mean for session channel [n]. *)
Definition for_session (n : N) (op : vop) : list sop :=
  match op with
  | OPacket msg payload env =>
      if msg =? MSG_CHANNEL_REQUEST then
        match ParseChannelRequest payload with
        | Some c => if cr_local_channel c =? n then [ORequest (cr_request_type c) (cr_data c) (pe_pty env)] else []
        | None => []
        end
      else []
  | OSession k o => if k =? n then match o with ORequest _ _ _ => [] | _ => [o] end else []
  | _ => []
  end.
Definition happened (n : N) (ops : list vop) : list sop := flat_map (for_session n) ops.

Definition count {A} (f : A -> bool) (l : list A) : nat := List.length (filter f l).

Definition is_request (o : sop) : bool := match o with ORequest _ _ _ => true | _ => false end.
(** a request to start a program *)
Definition is_start (o : sop) : bool :=
  match o with
  | ORequest t _ _ => bytes_eqb t (bs "exec") || bytes_eqb t (bs "shell") || bytes_eqb t (bs "subsystem")
  | _ => false
  end.
Definition is_started (e : sevent) : bool := match e with SStarted _ => true | _ => false end.
Definition is_answer (e : sevent) : bool := match e with SAnswer _ => true | _ => false end.
(** the program has ended, or could not be executed *)
Definition is_end (o : sop) : bool := match o with OExit | OSpawned _ false => true | _ => false end.

(** The client waits for the answer to each of its requests before it sends
    the next one. *)
Definition waits (cfg : config) (l : list (account * sop)) : Prop :=
  forall l1 a o l2, l = l1 ++ (a, o) :: l2 -> is_request o = true ->
  count is_answer (snd (srun cfg l1)) = count is_request (map snd l1).

(** [part l l']: the elements of [l] appear in [l'] in the same order. *)
Inductive part {A} : list A -> list A -> Prop :=
| part_nil : forall l, part [] l
| part_skip : forall x l l', part l l' -> part l (x :: l')
| part_take : forall x l l', part l l' -> part (x :: l) (x :: l').

(** ** Sizes (C43) *)

(** Each variable counts with its name, its value and 32 bytes. *)
Definition env_total (env : list (bytes * bytes)) : N :=
  fold_right (fun v n => len (fst v) + len (snd v) + 32 + n) 0 env.

(** The variables which were accepted. *)
Definition accepted_env (l : list sevent) : list (bytes * bytes) :=
  flat_map (fun e => match e with SEnv name value => [(name, value)] | _ => [] end) l.

Definition total (l : list bytes) : N := fold_right (fun x n => len x + n) 0 l.

(** The size of what the client has specified of the command. *)
Definition client_bytes (a : account) (p : started) : N :=
  match st_program p with
  | Shell _ _ | Sftp _ => 0
  | ShellCommand _ cmd =>
      match ko_command (ac_options a) with
      | [] => len cmd
      | _ => match st_original_command p with Some cmd => len cmd | None => 0 end
      end
  | Rsync _ args => total args
  | Git _ _ arg => len arg
  end.
