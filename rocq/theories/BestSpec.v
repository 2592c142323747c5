(** Best execution: what an incoming order could have traded instead.  Nothing here is part of the program. *)
From Verif Require Import Base Fees Critbit Codec ListSum Ledger MatchSpec.

(** Base and quote currency changing hands in a trade, as the resting order's fill reports it. *)
Definition coin_traded (v : event_view) : Z :=
  match v with EvFill Bid true _ received _ _ _ _ _ _ => received | EvFill Ask true paid _ _ _ _ _ _ _ => paid | _ => 0 end.
Definition pc_traded (v : event_view) : Z :=
  match v with EvFill Bid true paid _ _ _ _ _ _ _ => paid | EvFill Ask true _ received _ _ _ _ _ _ => received | _ => 0 end.

(** Another way to trade: [n] lots of each resting order by its id, none of an order of the same account. *)
Definition choice (x : Z) (bk : list leaf) (n : Z -> Z) : Prop :=
  forall l, In l bk -> 0 <= n (l_key l) <= l_qty l /\ (l_owner l = x -> n (l_key l) = 0).
Definition chosen (n : Z -> Z) (bk : list leaf) : Z := zsum (fun l => n (l_key l)) bk.
Definition worth (n : Z -> Z) (bk : list leaf) : Z := zsum (fun l => n (l_key l) * l_price l) bk.
(** The trades in [E] of account [x] against book [bk] are the best there are: the same number of lots cannot be bought for
    less, or sold for more. *)
Definition best_trades (sd : side) (cl pl x : Z) (bk : list leaf) (E : list event_view) : Prop :=
  forall n, choice x bk n -> cl * chosen n bk = zsum coin_traded E ->
  match sd with Bid => zsum pc_traded E <= pl * worth n bk | Ask => pl * worth n bk <= zsum pc_traded E end.

(** Why matching ended: the allowed number of meetings took place, nothing of the order is left, or every order
    still on the other side is outside the limit or too dear for what is left of the money. *)
Definition done (pl : Z) (k : taker) (limit : nat) (q L : Z) (tr : list round) (opp' : list leaf) : Prop :=
  length tr = limit \/ zsum (used k) tr = q \/
  forall b, In b opp' -> within (tk_side k) (tk_limit k) (l_price b) -> ~ affords pl k (L - zsum (tr_cost pl k) tr) 1 (l_price b).
