(** Which accounts matter to an instruction.  Nothing here is part of the program. *)
From Verif Require Import Base Store Process.

(** The two states have the same accounts at the listed keys. *)
Definition same_at (ks : list Z) (a b : store) : Prop := forall x, In x ks -> sget a x = sget b x.
(** The same account at every key. *)
Definition same_world (a b : store) : Prop := forall x, sget a x = sget b x.
(** The same outcome: the same error, or success. *)
Definition same_outcome (r1 r2 : res store) : Prop :=
  match r1, r2 with Ok _, Ok _ => True | Err x, Err y => x = y | Panic, Panic => True | _, _ => False end.
(** Account [x] belongs neither to the program nor to the token program. *)
Definition others (e : env) (s : store) (x : Z) : Prop := a_prog (sget s x) <> e_prog e /\ a_prog (sget s x) <> spl_id.
