(** Who trades how much with an incoming order: price and time priority as a formula.  Nothing here is part of the
    program. *)
From Verif Require Import Base Fees Critbit Codec ListSum MatchSpec Ledger MoreSpec PlaceSpec ExitSpec.

(** Of [lots] lots that an order of account [x] on side [sd] trades with the resting orders [bk], the part of [l]: what is
    left after the orders of others served before it, and no more than it has.  Orders of [x] itself have no part. *)
Definition share (sd : side) (x : Z) (bk : list leaf) (lots : Z) (l : leaf) : Z :=
  if l_owner l =? x then 0 else Z.max 0 (Z.min (l_qty l) (lots - zsum l_qty (ahead_of sd (others x bk) l))).

(** The resting orders within the limit of an order with terms [T]. *)
Definition in_reach (T : terms) (bk : list leaf) : list leaf := filter (reaches (tm_side T) (tm_price T)) bk.
(** Nothing but its quantity and its limit holds the order back: none of the orders within its limit is of the same account,
    it allows as many meetings as there are of them and, if it is a bid, its money would buy them all, fees (of tier [t]) included. *)
Definition unhindered (pl : Z) (t : tier) (T : terms) (bk : list leaf) : Prop :=
  (forall l, In l (in_reach T bk) -> l_owner l <> tm_account T) /\ zlen (in_reach T bk) <= tm_meetings T /\
  (tm_side T = Bid -> zsum (fun l => l_qty l * l_price l * pl + taker_fee t (l_qty l * l_price l * pl)) (in_reach T bk) <= tm_money T).
