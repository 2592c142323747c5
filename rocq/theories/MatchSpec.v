(** What matching an order should do, stated over lists of orders and events only. *)
From Verif Require Import Base Fees Critbit CritbitProofs Codec ListSum Ledger.

(** Priority on each side: larger ids first among bids, smaller ids first among asks. *)
Definition before (sd : side) (a b : leaf) : Prop :=
  match sd with Bid => l_key b < l_key a | Ask => l_key a < l_key b end.
Definition best_of (sd : side) (b : leaf) (bk : list leaf) : Prop :=
  In b bk /\ forall x, In x bk -> x = b \/ before sd b x.
Definition worst_of (sd : side) (b : leaf) (bk : list leaf) : Prop :=
  In b bk /\ forall x, In x bk -> x = b \/ before sd x b.
(** The limit of an incoming order on side [sd] admits trading at [price]. *)
Definition within (sd : side) (lim price : Z) : Prop :=
  match sd with Bid => price <= lim | Ask => lim <= price end.

(** Book with [n] lots taken from the order with id [k]; an order with nothing left disappears. *)
Definition take_from (k n : Z) (bk : list leaf) : list leaf :=
  flat_map (fun l => if l_key l =? k then (if l_qty l =? n then [] else [set_qty l (l_qty l - n)]) else [l]) bk.

(** An incoming order, as far as matching is concerned. *)
Record taker := mkTaker {
  tk_side : side; tk_id : Z; tk_owner : Z; tk_slot : Z; tk_tier : tier; tk_cid : Z; tk_st : self_trade;
  tk_silent : bool  (* send-take: no events about the taker *) }.
Definition tk_limit (k : taker) : Z := tk_id k / B64.

(** A matching round: the resting order met and the quantity taken from it. *)
Definition round := (leaf * Z)%type.
Definition self (k : taker) (x : round) : bool := tk_owner k =? l_owner (fst x).
(** Lots of the incoming order used up by a round. *)
Definition used (k : taker) (x : round) : Z :=
  if self k x then match tk_st k with CancelProvide => 0 | _ => snd x end else snd x.
(** Matching rounds from quantity [q] and opposite book [bk] to [q'] and [bk']: each meets the
    best order of the book as it then is, at a price within the limit. *)
Inductive rounds (k : taker) : Z -> list leaf -> list round -> Z -> list leaf -> Prop :=
| rounds_nil q bk : rounds k q bk [] q bk
| rounds_cons q bk b t tr q' bk' :
    best_of (other (tk_side k)) b bk -> within (tk_side k) (tk_limit k) (l_price b) ->
    0 < t <= l_qty b -> used k (b, t) <= q -> (tk_side k = Ask -> t = l_qty b \/ t = q) ->
    (self k (b, t) = true -> tk_st k <> AbortTransaction /\ (tk_st k = CancelProvide -> t = l_qty b)) ->
    rounds k (q - used k (b, t)) (take_from (l_key b) t bk) tr q' bk' ->
    rounds k q bk ((b, t) :: tr) q' bk'.

Section Lots.
Variables cl pl : Z.
Definition tr_coin (k : taker) (x : round) : Z := if self k x then 0 else snd x.
Definition value (x : round) : Z := snd x * l_price (fst x) * pl.
Definition tr_value (k : taker) (x : round) : Z := if self k x then 0 else value x.
Definition tr_fee (k : taker) (x : round) : Z := if self k x then 0 else taker_fee (tk_tier k) (value x).
Definition tr_fifth (k : taker) (x : round) : Z := tr_fee k x / 5.
(** What the order would put on deposit for [n] lots at price [price]. *)
Definition backing (sd : side) (n price : Z) : Z := match sd with Bid => n * price * pl | Ask => n * cl end.

Definition maker_out (s : side) (unlocked still : Z) (b : leaf) : event_view :=
  EvOut s true unlocked still (l_key b) (l_owner b) (l_slot b) (l_cid b).
Definition taker_out (k : taker) (unlocked still : Z) : event_view :=
  EvOut (tk_side k) false unlocked still (tk_id k) (tk_owner k) (tk_slot k) (tk_cid k).
Definition maker_fill (k : taker) (x : round) (ft : tier) : event_view :=
  let b := fst x in
  match tk_side k with
  | Bid => EvFill Ask true (snd x * cl) (value x) 0 (l_key b) (l_owner b) (l_slot b) ft (l_cid b)
  | Ask => EvFill Bid true (value x) (snd x * cl) 0 (l_key b) (l_owner b) (l_slot b) ft (l_cid b)
  end.
Definition taker_fill (k : taker) (x : round) : event_view :=
  let fee := taker_fee (tk_tier k) (value x) in
  match tk_side k with
  | Bid => EvFill Bid false (value x + fee) (snd x * cl) fee (tk_id k) (tk_owner k) (tk_slot k) (tk_tier k) (tk_cid k)
  | Ask => EvFill Ask false (snd x * cl) (value x - fee) fee (tk_id k) (tk_owner k) (tk_slot k) (tk_tier k) (tk_cid k)
  end.
(** Events a round reports.  A meeting with an order of the same account reports no fill: it
    releases what is cancelled of the resting order and of the incoming one.  A trade reports what
    the resting order pays and receives, that it is gone if nothing of it is left, and the taker's side. *)
Definition reported (k : taker) (x : round) (g : list event_view) : Prop :=
  let '(b, t) := x in
  if self k x then exists u s,
    g = [maker_out (other (tk_side k)) (backing (other (tk_side k)) t (l_price b))
           (backing (other (tk_side k)) (l_qty b - t) (l_price b)) b; taker_out k u s]
  else exists ft rest,
    g = maker_fill k x ft :: (if t =? l_qty b then [maker_out (other (tk_side k)) 0 0 b] else []) ++
        (if tk_silent k then [] else taker_fill k x :: rest) /\
    (rest = [] \/ exists u, rest = [taker_out k u 0]).

(** Quote currency a round costs an incoming bid. *)
Definition tr_cost (k : taker) (x : round) : Z :=
  if self k x then used k x * l_price (fst x) * pl else value x + taker_fee (tk_tier k) (value x).

(** An incoming bid with [L] quote units left can pay for [n] lots at [price], fee included; nothing
    but its quantity limits an ask. *)
Definition affords (k : taker) (L n price : Z) : Prop :=
  tk_side k = Bid -> n * price * pl + taker_fee (tk_tier k) (n * price * pl) <= L.
(** Rounds that trade all they can: [limit] rounds, [q] lots and [L] quote units are left.  The order goes on
    until one of them is used up, not even one lot of the best order can be paid for, or the best order
    is outside the limit.  A round takes all of the resting order, or all that is left of the incoming
    one, or as many lots as can be paid for; of an own order, with CancelProvide, it takes everything. *)
Inductive eager (k : taker) : nat -> Z -> Z -> list leaf -> list round -> Prop :=
| eager_stop limit q L bk :
    limit = O \/ q = 0 \/
    (forall b, best_of (other (tk_side k)) b bk -> within (tk_side k) (tk_limit k) (l_price b) -> ~ affords k L 1 (l_price b)) ->
    eager k limit q L bk []
| eager_round limit q L bk b t tr :
    0 < q -> best_of (other (tk_side k)) b bk -> within (tk_side k) (tk_limit k) (l_price b) -> affords k L 1 (l_price b) ->
    (if self k (b, t) && match tk_st k with CancelProvide => true | _ => false end then t = l_qty b
     else 0 < t <= l_qty b /\ t <= q /\ affords k L t (l_price b) /\ (t = l_qty b \/ t = q \/ ~ affords k L (t + 1) (l_price b))) ->
    eager k limit (q - used k (b, t)) (L - tr_cost k (b, t)) (take_from (l_key b) t bk) tr ->
    eager k (S limit) q L bk ((b, t) :: tr).

(** How an order ends, when [can] lots could still rest: own book before and after, last events,
    lots left resting.  The remainder rests exactly when the order type allows it, something can
    rest and nothing in the opposite book is within the limit. *)
Inductive finish (k : taker) (has_room : Prop) (allowed : bool) (can : Z) (opp own : list leaf)
  : list leaf -> list event_view -> Z -> Prop :=
| fin_gone E : E = [] \/ (tk_silent k = false /\ exists u, E = [taker_out k u 0]) ->
    can = 0 \/ allowed = false \/ (exists x, In x opp /\ within (tk_side k) (tk_limit k) (l_price x)) ->
    finish k has_room allowed can opp own own E 0
| fin_rest l E : allowed = true -> 0 < can -> (forall x, In x opp -> ~ within (tk_side k) (tk_limit k) (l_price x)) ->
    has_room -> l = mkLeaf (tk_slot k) (tier_to_u8 (tk_tier k)) (tk_id k) (tk_owner k) can (tk_cid k) ->
    E = [] \/ (tk_silent k = false /\ exists u s, E = [taker_out k u s]) ->
    finish k has_room allowed can opp own (lins l own) E can
| fin_evict l w E : allowed = true -> 0 < can -> (forall x, In x opp -> ~ within (tk_side k) (tk_limit k) (l_price x)) ->
    ~ has_room -> l = mkLeaf (tk_slot k) (tier_to_u8 (tk_tier k)) (tk_id k) (tk_owner k) can (tk_cid k) ->
    worst_of (tk_side k) w own -> E = [] \/ (tk_silent k = false /\ exists u s, E = [taker_out k u s]) ->
    finish k has_room allowed can opp own (lins l (ldel (l_key w) own))
      (E ++ [maker_out (tk_side k) (backing (tk_side k) (l_qty w) (l_price w)) 0 w]) can.

(** Everything a successful order does: [q] lots and [L] quote units offered, [limit] rounds allowed. *)
Record report (k : taker) (limit : nat) (post_only : bool) (has_room : Prop) (allowed : bool) (q L : Z)
    (opp own opp' own' : list leaf) (E : list event_view) (tr : list round) (q' n : Z) : Prop := mkReport {
  rp_rounds : rounds k q opp tr q' opp';
  rp_len : (length tr <= limit)%nat;
  rp_po : post_only = true -> tr = [];
  rp_end : exists gs Eend, E = concat gs ++ Eend /\ Forall2 (reported k) tr gs /\
     finish k has_room allowed
       (match tk_side k with Ask => q' | Bid => Z.min q' ((L - zsum (tr_cost k) tr) / pl / tk_limit k) end)
       opp' own own' Eend n;
  rp_eager : post_only = false -> eager k limit q L opp tr
}.
End Lots.

Definition is_fill (v : event_view) : bool := match v with EvFill _ _ _ _ _ _ _ _ _ _ => true | _ => false end.
Definition nofill (E : list event_view) : Prop := forall v, In v E -> is_fill v = false.
(** No bid is priced at or above an ask. *)
Definition uncrossed (bids asks : list leaf) : Prop :=
  forall b a, In b bids -> In a asks -> l_price b < l_price a.
(** Same order, possibly reduced. *)
Definition same_order (a b : leaf) : Prop :=
  l_key a = l_key b /\ l_owner a = l_owner b /\ l_slot a = l_slot b /\ l_tier a = l_tier b /\ l_cid a = l_cid b /\
  l_qty b <= l_qty a.
