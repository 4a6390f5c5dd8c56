(** Which request a program answers (C45, C55). *)

From Coq Require Import NArith PeanoNat List Bool String.
From Verif.Base Require Import Bytes.
From Verif.Spec Require Import WireSpec PacketSpec QuoteSpec.
From Verif.Model Require Import Wire KeyOptions Auth Session.
Import ListNotations.
Open Scope N_scope.

(** [cmd] is [command], ending before the first null byte. *)
Definition up_to_nul (command cmd : bytes) : Prop :=
  ~ In 0 cmd /\ (command = cmd \/ exists rest, command = cmd ++ 0 :: rest).

(** the payload of an exec request *)
Definition exec_payload (data cmd : bytes) : Prop :=
  exists command, exactly data [FString command] /\ up_to_nul command cmd.

(** Program [p], started for account [a], is what a request of type [type]
    with payload [data] asks for. *)
Definition answers_request (a : account) (type data : bytes) (p : started) : Prop :=
  match st_program p with
  | Shell _ _ => type = bs "shell" /\ st_original_command p = None /\ ko_command (ac_options a) = []
  | ShellCommand _ cmd =>
      match ko_command (ac_options a) with
      | [] => type = bs "exec" /\ exec_payload data cmd /\ st_original_command p = None
      | forced => up_to_nul forced cmd /\
          ((type = bs "shell" /\ st_original_command p = None) \/
           (type = bs "exec" /\ exists original, exec_payload data original /\ st_original_command p = Some original))
      end
  | Sftp _ => type = bs "subsystem" /\ exactly data [FString (bs "sftp")]
  | Rsync _ args => type = bs "exec" /\
      exists cmd rest, exec_payload data cmd /\ cmd = bs "rsync --server " ++ rest /\ args = words cmd
  | Git _ name arg => type = bs "exec" /\
      exists quoted, exec_payload data (name ++ 32 :: quoted) /\
        ~ In Malformed (qtokens quoted) /\ Nat.even (quotes (qtokens quoted)) = true /\ arg = literals (qtokens quoted)
  end.
