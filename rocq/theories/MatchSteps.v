(** One iteration of the matching loop, described over sorted lists of orders and unbounded
    integers.  MatchRefine.v proves that the model of matching.rs performs exactly these steps. *)
From Verif Require Import Base Fees Critbit CritbitProofs CritbitSlab CritbitOps Codec Matching.

Record astate := mkA { a_bids : list leaf; a_asks : list leaf; a_evs : list event_view }.

Definition best_bid (A : astate) : option leaf := first_leaf true (a_bids A).
Definition best_ask (A : astate) : option leaf := first_leaf false (a_asks A).

Section Ctx.
(** lot sizes, node capacities of the two slabs, the order being placed and its limit price *)
Variables (cl pl capb capa : Z) (p : order_params) (lim : Z).

Definition has_room (cap : Z) (l : list leaf) : Prop := nodes_for (zlen l + 1) <= cap.
Definition my_leaf (q : Z) : leaf :=
  mkLeaf (op_slot p) (tier_to_u8 (op_tier p)) (op_order_id p) (op_owner p) q (op_cid p).
Definition out_of (sd : side) (release : bool) (unlocked still : Z) (l : leaf) : event_view :=
  EvOut sd release unlocked still (l_key l) (l_owner l) (l_slot l) (l_cid l).
Definition my_out (sd : side) (unlocked still : Z) : event_view :=
  EvOut sd false unlocked still (op_order_id p) (op_owner p) (op_slot p) (op_cid p).
Definition leaf_tier (l : leaf) : tier := match tier_of_u8 (l_tier l) with Some t => t | None => TBase end.
(** What remains of the book when order [b] is reduced to [left]. *)
Definition shrink (b : leaf) (left : Z) (bk : list leaf) : list leaf :=
  if left =? 0 then ldel (l_key b) bk else lset (set_qty b left) bk.
Definition vis (l : list event_view) : list event_view := if is_send_take p then [] else l.

Definition add_coin_unlocked pr x := mkPr (p_coin_unlocked pr + x) (p_pc_unlocked pr) (p_coin_credit pr) (p_pc_credit pr) (p_coin_debit pr) (p_pc_debit pr).
Definition add_pc_unlocked pr x := mkPr (p_coin_unlocked pr) (p_pc_unlocked pr + x) (p_coin_credit pr) (p_pc_credit pr) (p_coin_debit pr) (p_pc_debit pr).
Definition add_ask_fill pr net t := mkPr (p_coin_unlocked pr) (p_pc_unlocked pr) (p_coin_credit pr) (p_pc_credit pr + net) (p_coin_debit pr + t) (p_pc_debit pr).
Definition add_bid_fill pr t paid := mkPr (p_coin_unlocked pr) (p_pc_unlocked pr) (p_coin_credit pr + t) (p_pc_credit pr) (p_coin_debit pr) (p_pc_debit pr + paid).

(** Quantities cancelled on (maker, taker) when an order meets its owner's own order. *)
Definition self_qty (t maker_qty : Z) : option (Z * Z) :=
  match op_st p with
  | DecrementTake => Some (t, t)
  | CancelProvide => Some (maker_qty, 0)
  | AbortTransaction => None
  end.

Definition ask_crosses (A : astate) : Prop := exists b, best_bid A = Some b /\ lim <= l_price b.
Definition bid_crosses (A : astate) : Prop := exists b, best_ask A = Some b /\ l_price b <= lim.

(** An iteration of an incoming ask of [q] lots: new state, proceeds, fee charged, quantity left for
    the next iteration. *)
Inductive ask_step (po : bool) (A : astate) (pr : proceeds) (q : Z)
  : astate -> proceeds -> Z -> option Z -> Prop :=
| AS_post :
    ~ ask_crosses A -> op_post_allowed p = true -> is_send_take p = false -> has_room capa (a_asks A) ->
    ask_step po A pr q (mkA (a_bids A) (lins (my_leaf q) (a_asks A)) (a_evs A)) pr 0 None
| AS_evict w :
    ~ ask_crosses A -> op_post_allowed p = true -> is_send_take p = false -> ~ has_room capa (a_asks A) ->
    first_leaf true (a_asks A) = Some w ->
    ask_step po A pr q
      (mkA (a_bids A) (lins (my_leaf q) (ldel (l_key w) (a_asks A)))
           (a_evs A ++ [out_of Ask true (l_qty w * cl) 0 w])) pr 0 None
| AS_release :
    (ask_crosses A -> po = true) -> (~ ask_crosses A -> op_post_allowed p = false) ->
    ask_step po A pr q (mkA (a_bids A) (a_asks A) (a_evs A ++ vis [my_out Ask (q * cl) 0]))
      (if is_send_take p then pr else add_coin_unlocked pr q) 0 None
| AS_self b cprov ctake :
    best_bid A = Some b -> lim <= l_price b -> po = false -> op_owner p = l_owner b ->
    self_qty (Z.min (l_qty b) q) (l_qty b) = Some (cprov, ctake) ->
    ask_step po A pr q
      (mkA (shrink b (l_qty b - cprov) (a_bids A)) (a_asks A)
           (a_evs A ++ [out_of Bid true (cprov * l_price b * pl) ((l_qty b - cprov) * l_price b * pl) b;
                        my_out Ask (ctake * cl) (q - ctake)]))
      (add_coin_unlocked pr ctake) 0 (if q - ctake =? 0 then None else Some (q - ctake))
| AS_fill b t v fee :
    best_bid A = Some b -> lim <= l_price b -> po = false -> op_owner p <> l_owner b ->
    t = Z.min (l_qty b) q -> v = t * l_price b * pl -> fee = taker_fee (op_tier p) v ->
    ask_step po A pr q
      (mkA (shrink b (l_qty b - t) (a_bids A)) (a_asks A)
           (a_evs A ++
             ((EvFill Bid true v (w64 (t * cl)) 0 (l_key b) (l_owner b) (l_slot b) (leaf_tier b) (l_cid b)
               :: (if l_qty b - t =? 0 then [out_of Bid true 0 0 b] else [])) ++
             vis (EvFill Ask false (t * cl) (v - fee) fee (op_order_id p) (op_owner p) (op_slot p) (op_tier p) (op_cid p)
                  :: (if q - t =? 0 then [my_out Ask 0 0] else [])))))
      (add_ask_fill pr (v - fee) t) fee (if q - t =? 0 then None else Some (q - t)).

(** An iteration of an incoming bid of [q] lots with [L] native pc locked. *)
Definition bid_budget (L : Z) : Z :=
  match remove_taker_fee (op_tier p) L with Ok n => n / pl | _ => 0 end.
Definition bid_post_qty (q L : Z) : Z := Z.min q (L / pl / lim).

Inductive bid_step (po : bool) (A : astate) (pr : proceeds) (q L : Z)
  : astate -> proceeds -> Z -> option (Z * Z) -> Prop :=
| BS_post n :
    ~ bid_crosses A -> op_post_allowed p = true -> n = bid_post_qty q L -> 0 < n -> has_room capb (a_bids A) ->
    bid_step po A pr q L
      (mkA (lins (my_leaf n) (a_bids A)) (a_asks A) (a_evs A ++ [my_out Bid (L - n * lim * pl) (n * lim * pl)]))
      (add_pc_unlocked pr (L - n * lim * pl)) 0 None
| BS_evict n w :
    ~ bid_crosses A -> op_post_allowed p = true -> n = bid_post_qty q L -> 0 < n -> ~ has_room capb (a_bids A) ->
    first_leaf false (a_bids A) = Some w ->
    bid_step po A pr q L
      (mkA (lins (my_leaf n) (ldel (l_key w) (a_bids A))) (a_asks A)
           (a_evs A ++ [my_out Bid (L - n * lim * pl) (n * lim * pl); out_of Bid true (l_qty w * l_price w * pl) 0 w]))
      (add_pc_unlocked pr (L - n * lim * pl)) 0 None
| BS_release :
    (forall b, best_ask A = Some b -> l_price b <= lim ->
       po = true \/ Z.min (Z.min (l_qty b) q) (bid_budget L / l_price b) = 0) ->
    (~ bid_crosses A -> op_post_allowed p = false \/ bid_post_qty q L = 0) ->
    bid_step po A pr q L (mkA (a_bids A) (a_asks A) (a_evs A ++ vis [my_out Bid L 0]))
      (if is_send_take p then pr else add_pc_unlocked pr L) 0 None
| BS_self b t cprov ctake unl still :
    best_ask A = Some b -> l_price b <= lim -> po = false -> op_owner p = l_owner b ->
    t = Z.min (Z.min (l_qty b) q) (bid_budget L / l_price b) -> 0 < t ->
    self_qty t (l_qty b) = Some (cprov, ctake) ->
    (unl, still) = (if (q - ctake =? 0) || (L - ctake * l_price b * pl =? 0) then (L, 0)
                    else (ctake * l_price b * pl, L - ctake * l_price b * pl)) ->
    bid_step po A pr q L
      (mkA (a_bids A) (shrink b (l_qty b - cprov) (a_asks A))
           (a_evs A ++ [out_of Ask true (cprov * cl) ((l_qty b - cprov) * cl) b; my_out Bid unl still]))
      (add_pc_unlocked pr unl) 0
      (if (q - ctake =? 0) || (L - ctake * l_price b * pl =? 0) then None
       else Some (q - ctake, L - ctake * l_price b * pl))
| BS_fill b t v fee :
    best_ask A = Some b -> l_price b <= lim -> po = false -> op_owner p <> l_owner b ->
    t = Z.min (Z.min (l_qty b) q) (bid_budget L / l_price b) -> 0 < t ->
    v = t * l_price b * pl -> fee = taker_fee (op_tier p) v ->
    bid_step po A pr q L
      (mkA (a_bids A) (shrink b (l_qty b - t) (a_asks A))
           (a_evs A ++
             ((EvFill Ask true (t * cl) v 0 (l_key b) (l_owner b) (l_slot b) (leaf_tier b) (l_cid b)
               :: (if l_qty b - t =? 0 then [out_of Ask true 0 0 b] else [])) ++
             vis (EvFill Bid false (v + fee) (t * cl) fee (op_order_id p) (op_owner p) (op_slot p) (op_tier p) (op_cid p)
                  :: (if (q - t =? 0) || (L - v - fee =? 0) then [my_out Bid (L - v - fee) 0] else [])))))
      (let pr1 := add_bid_fill pr t (v + fee) in
       if ((q - t =? 0) || (L - v - fee =? 0)) && negb (is_send_take p) then add_pc_unlocked pr1 (L - v - fee) else pr1)
      fee
      (if (q - t =? 0) || (L - v - fee =? 0) then None else Some (q - t, L - v - fee)).

(** A whole new order: iterations until nothing remains; the iteration with limit 0 is post-only.
    [F] and [R] are the total fee and the total referrer share charged. *)
Inductive ask_run : nat -> bool -> astate -> proceeds -> Z -> astate -> proceeds -> Z -> Z -> Prop :=
| AR_last n po A pr q A' pr' fee :
    ask_step (match n with O => true | S _ => po end) A pr q A' pr' fee None ->
    ask_run n po A pr q A' pr' fee (fee / 5)
| AR_more n po A pr q A1 pr1 fee q1 A' pr' F R :
    ask_step po A pr q A1 pr1 fee (Some q1) -> ask_run n po A1 pr1 q1 A' pr' F R ->
    ask_run (S n) po A pr q A' pr' (fee + F) (fee / 5 + R).
Inductive bid_run : nat -> bool -> astate -> proceeds -> Z -> Z -> astate -> proceeds -> Z -> Z -> Prop :=
| BR_last n po A pr q L A' pr' fee :
    bid_step (match n with O => true | S _ => po end) A pr q L A' pr' fee None ->
    bid_run n po A pr q L A' pr' fee (fee / 5)
| BR_more n po A pr q L A1 pr1 fee q1 L1 A' pr' F R :
    bid_step po A pr q L A1 pr1 fee (Some (q1, L1)) -> bid_run n po A1 pr1 q1 L1 A' pr' F R ->
    bid_run (S n) po A pr q L A' pr' (fee + F) (fee / 5 + R).
End Ctx.
