(** A transaction of several instructions.  The runtime calls [process_instruction] (/repo/dex/src/lib.rs:25-35, which calls
    State::process, /repo/dex/src/state.rs) once for each instruction, with the bytes and accounts of that instruction, and keeps the accounts only if
    all of them succeed.  Instructions for other programs in the same transaction are steps of the environment and not
    modelled here. *)
From Verif Require Import Base Instr Store Process.

(** What one instruction of a transaction is given. *)
Record call := mkCall { ca_clock : clock; ca_bytes : bytes; ca_metas : list meta }.
(** One after the other, until one fails. *)
Fixpoint run_all (e : env) (s : store) (l : list call) : res store :=
  match l with
  | [] => Ok s
  | c :: r => s1 <- process_bytes e (ca_clock c) s (ca_bytes c) (ca_metas c) ;; run_all e s1 r
  end.
(** The transaction: all or nothing. *)
Definition bundle (e : env) (s : store) (l : list call) : store := match run_all e s l with Ok s' => s' | _ => s end.
