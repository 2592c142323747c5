(** Model of assert-owner/src/lib.rs.  Accounts are given with the program owning each. *)
From Verif Require Import Base Instr.

(** entry, [assert-owner/src/lib.rs:7-18]; the list holds the owner of each account *)
Definition assert_owner (owners : list Z) (data : bytes) : res unit :=
  match owners with
  | [] => Err EAssert
  | o :: _ =>
      _ <- check (length data =? 32)%nat EAssert ;;
      check (key_unle data 0 =? o) EOther
  end.
