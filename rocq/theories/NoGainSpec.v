(** Trading against orders that stand while their owners are away.  Nothing here is part of the program. *)
From Verif Require Import Base Fees Critbit CritbitSlab Codec ListSum Market Matching Ledger MatchSteps MatchSpec Core Instr InstrProofs Store Process StoreProofs World WorldSpec LifeSpec AbsentSpec StatementSpec IncomeSpec.

(** A stretch of a history as in [books] in which none of the wallets [away] signs anything. *)
Inductive dealt (e : env) (k : Z) (away : Z -> Prop) (s : store) : list event_view -> list dealing -> store -> Prop :=
| dealt_now : dealt e k away s [] [] s
| dealt_tx E T s1 c b ms i s2 E1 : dealt e k away s E T s1 -> no_overflow e s1 -> sized s1 -> is_bytes b -> legal e ms -> (forall w, away w -> ~ signed_by ms w) -> unpack b = Some i ->
    pays_others e k s1 i ms -> process e c s1 i ms = Ok s2 -> queued e k s1 s2 E1 -> dealt e k away s (E ++ E1) (T ++ [line e k s1 s2 i ms]) s2
| dealt_env E T s1 s2 : dealt e k away s E T s1 -> rely e s1 s2 -> dealt e k away s E T s2.
(** What everybody else gained by trading, taken together: the trades of every account but those in [xs], less what
    those without an account paid on balance. *)
Definition of_others (xs : list Z) (E : list event_view) : list event_view := filter (fun v => negb (existsb (Z.eqb (ev_owner v)) xs)) E.
Definition coin_gain (xs : list Z) (E : list event_view) (T : list dealing) : Z := zsum coin_trade (of_others xs E) - zsum coin_swap T.
Definition pc_gain (xs : list Z) (E : list event_view) (T : list dealing) : Z := zsum pc_trade (of_others xs E) - zsum pc_swap T.
(** [xs] are accounts of absent owners. *)
Definition standing (away : Z -> Prop) (L : list (Z * open_orders)) (xs : list Z) : Prop := forall x, In x xs -> exists oo, In (x, oo) L /\ away (oo_owner oo).
(** Price [p] is no better than what the orders of [xs] offer: they buy at [p] or less and sell at [p] or more. *)
Definition fair (A : astate) (xs : list Z) (p : Z) : Prop :=
  (forall l, In l (a_bids A) -> In (l_owner l) xs -> l_price l <= p) /\ (forall l, In l (a_asks A) -> In (l_owner l) xs -> p <= l_price l).
