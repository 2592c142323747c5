(** When a trader can have their money.  Nothing here is part of the program. *)
From Verif Require Import Base Fees Critbit CritbitSlab Codec ListSum Market Matching Slots Ledger MatchSteps MatchSpec Core Instr InstrProofs Store Process StoreProofs World WorldSpec LifeSpec AbsentSpec.

(** All that the account has on the market can be withdrawn at once, and then the account can be closed. *)
Definition all_free (oo : open_orders) : Prop :=
  oo_coin_free oo = oo_coin_total oo /\ oo_pc_free oo = oo_pc_total oo /\ forall j, 0 <= j < 128 -> is_free oo j = true.
(** The account has no order on the book. *)
Definition no_orders (x : Z) (A : astate) : Prop := forall sd l, In l (book_of A sd) -> l_owner l <> x.
