(** Processing of events by many: the vocabulary of the property.  Nothing here is part of the program. *)
From Verif Require Import Base Market Instr Store Process World WorldSpec.

(** [s1] comes from [s] by successful consume transactions on market [k] with event queue [q], any number of them, with any
    numbers of events and any accounts in any order, at any times and sent by anybody. *)
Inductive cranks (e : env) (k q : Z) : store -> store -> Prop :=
| cranks_nil s : cranks e k q s s
| cranks_tx s c i ms oos n s1 s' : crank i ms k q oos n -> process e c s i ms = Ok s1 -> cranks e k q s1 s' -> cranks e k q s s'.
