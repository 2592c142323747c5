(** The life of a resting order, as its owner can read it off the events of the market.  Nothing here is
    part of the program. *)
From Verif Require Import Base Fees Critbit CritbitSlab Codec ListSum Market Matching Ledger MatchSteps MatchSpec Core Instr InstrProofs Store Process StoreProofs World WorldSpec.

(** The event is about the order with this id on this side. *)
Definition about (sd : side) (id : Z) (v : event_view) : bool := side_eqb (ev_side v) sd && (ev_id v =? id).

Section Order.
Variables (m : market) (sd : side) (l : leaf).
(** What [n] lots of the order lock, and what they fetch at the price of the order. *)
Definition part (n : Z) : Z := match sd with Bid => n * l_price l * m_pc_lot m | Ask => n * m_coin_lot m end.
Definition fetch (n : Z) : Z := match sd with Bid => n * m_coin_lot m | Ask => n * l_price l * m_pc_lot m end.
(** The order trades [n] lots; [freed] of what it locks is released and [kept] stays locked. *)
Definition traded (n : Z) (t : tier) : event_view := EvFill sd true (part n) (fetch n) 0 (l_key l) (l_owner l) (l_slot l) t (l_cid l).
Definition released (given_back : bool) (freed kept : Z) : event_view := EvOut sd (negb given_back) freed kept (l_key l) (l_owner l) (l_slot l) (l_cid l).
(** The events about the order while it goes from [q] lots to [q']: trades at its own price, reductions, and
    at most one end: sold out, or what is left of it released in full.  Nothing follows the end. *)
Inductive story : Z -> list event_view -> Z -> Prop :=
| story_still q : story q [] q
| story_trade q n t r q' : 0 < n < q -> story (q - n) r q' -> story q (traded n t :: r) q'
| story_less q n r q' : 0 < n < q -> story (q - n) r q' -> story q (released false (part n) (part (q - n)) :: r) q'
| story_sold q t : 0 < q -> story q [traded q t; released false 0 0] 0
| story_out q given_back : 0 < q -> story q [released given_back (part q) 0] 0.
(** What an event takes from what the order locks, and what it brings. *)
Definition taken (v : event_view) : Z := match v with EvFill _ _ paid _ _ _ _ _ _ _ => paid | EvOut _ _ unlocked _ _ _ _ _ => unlocked end.
Definition brought (v : event_view) : Z := match v with EvFill _ _ _ received _ _ _ _ _ _ => received | EvOut _ _ _ _ _ _ _ _ => 0 end.
Definition spent (v : event_view) : Z := match v with EvFill _ _ paid _ _ _ _ _ _ _ => paid | EvOut _ _ _ _ _ _ _ _ => 0 end.
(** [q] lots of the order are on the book. *)
Definition rests (A : astate) (q : Z) : Prop :=
  (0 < q /\ In (set_qty l q) (book_of A sd)) \/ (q = 0 /\ forall y, In y (book_of A sd) -> l_key y <> l_key l).
End Order.

(** Between two states, the queue of market [k] has lost events at the front or gained [E] at the end, not both. *)
Definition queued (e : env) (k : Z) (s s' : store) (E : list event_view) : Prop :=
  exists m A L m' A' L' vs rest, seen e s k m A L /\ seen e s' k m' A' L' /\ a_evs A = vs ++ rest /\ a_evs A' = rest ++ E /\ (vs = [] \/ E = []).
(** A stretch of a history, with all that is queued on market [k] meanwhile. *)
Inductive stretch (e : env) (k : Z) (s : store) : list event_view -> store -> Prop :=
| stretch_now : stretch e k s [] s
| stretch_tx E s1 c b ms E1 : stretch e k s E s1 -> no_overflow e s1 -> sized s1 -> is_bytes b -> legal e ms ->
    queued e k s1 (transact e c s1 b ms) E1 -> stretch e k s (E ++ E1) (transact e c s1 b ms)
| stretch_env E s1 s2 : stretch e k s E s1 -> rely e s1 s2 -> stretch e k s E s2.

(** Orders come with these instructions. *)
Definition brings_orders (i : instr) : bool := match i with INewOrderV3 _ | ISendTake _ | IReplaceOne _ | IReplaceMany _ => true | _ => false end.
Definition withdraws_orders (i : instr) : bool := match i with ICancelV2 _ _ | ICancelByCid _ | ICancelByCids _ | IReplaceOne _ | IReplaceMany _ => true | _ => false end.
(** The side has no room for another order. *)
Definition full (e : env) (s : store) (m : market) (sd : side) (A : astate) : Prop :=
  forall sl, dexd e s (match sd with Bid => m_bids m | Ask => m_asks m end) = Some (DSlab sd sl) -> ~ has_room (slab_cap sl) (book_of A sd).
(** Why an event about order [l] of owner [w] is there: a trade comes with somebody else's order.  Anything released
    was withdrawn by the owner's signature, met the owner's own order, was pruned by the prune authority, or
    had to leave a full side as the last in priority. *)
Definition cause (e : env) (s : store) (k : Z) (m : market) (i : instr) (ms : list meta) (A A' : astate) (sd : side) (l : leaf) (w : Z) (v : event_view) : Prop :=
  (is_fill v = true /\ brings_orders i = true /\ key_at ms 0 = Some k /\ acts_for i ms <> Some (l_owner l)) \/
  (v = released sd l false 0 0) \/
  (is_fill v = false /\ (withdraws_orders i = true \/ brings_orders i = true) /\ key_at ms 0 = Some k /\ acts_for i ms = Some (l_owner l) /\ signed_by ms w) \/
  ((exists n, i = IPrune n) /\ key_at ms 0 = Some k /\ permissioned m /\ signed_by ms (m_prune_auth m)) \/
  ((exists q, 0 < q /\ v = released sd l false (part m sd l q) 0) /\ brings_orders i = true /\ key_at ms 0 = Some k /\
   ((exists ix, i = INewOrderV3 ix) -> full e s m sd A) /\
   forall y y', In y (book_of A sd) -> In y' (book_of A' sd) -> l_key y' = l_key y -> l_key y = l_key l \/ before sd y l).

(** Priority.  An id carries the price of the order and its number among the orders of the market. *)
Definition price_of (id : Z) : Z := id / B64.
Definition number_of (sd : side) (id : Z) : Z := match sd with Bid => B64 - 1 - id mod B64 | Ask => id mod B64 end.
(** The first order has the better price, or the same price and was placed earlier. *)
Definition outranks (sd : side) (id id' : Z) : Prop :=
  match sd with Bid => price_of id' < price_of id | Ask => price_of id < price_of id' end \/ (price_of id = price_of id' /\ number_of sd id < number_of sd id').
(** A trade of a resting order of this side. *)
Definition resting_trade (sd : side) (v : event_view) : Prop := match v with EvFill sd' maker _ _ _ _ _ _ _ _ => maker = true /\ sd' = sd | EvOut _ _ _ _ _ _ _ _ => False end.
(** The events say that the order is gone. *)
Definition ended (sd : side) (l : leaf) (E : list event_view) : Prop := exists w, In w E /\ about sd (l_key l) w = true /\ ev_final w = true.
(** No order that [l] outranks trades while [l] is there. *)
Definition served_first (sd : side) (l : leaf) (E : list event_view) : Prop :=
  forall E1 v E2, E = E1 ++ v :: E2 -> resting_trade sd v -> outranks sd (l_key l) (ev_id v) -> ended sd l E1.
