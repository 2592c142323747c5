(** Model of dex/src/matching.rs: matching a new order against the book, posting, eviction,
    cancellation.  Arithmetic wraps exactly where the release build wraps. *)
From Verif Require Import Base Fees Critbit Queue Codec Market.

(** OrderBookState, [matching.rs:64-69], with the event queue the functions write to. *)
Record obs := mkObs { ob_bids : slab; ob_asks : slab; ob_mkt : market; ob_eq : queue event }.
Definition orders_of (o : obs) (s : side) : slab := match s with Bid => ob_bids o | Ask => ob_asks o end.
(** orders_mut, [matching.rs:72-77] *)
Definition set_orders (o : obs) (s : side) (x : slab) : obs :=
  match s with
  | Bid => mkObs x (ob_asks o) (ob_mkt o) (ob_eq o)
  | Ask => mkObs (ob_bids o) x (ob_mkt o) (ob_eq o)
  end.
Definition set_mkt (o : obs) (m : market) : obs := mkObs (ob_bids o) (ob_asks o) m (ob_eq o).
Definition set_eq (o : obs) (q : queue event) : obs := mkObs (ob_bids o) (ob_asks o) (ob_mkt o) q.

(** find_bbo, [matching.rs:79-84] *)
Definition find_bbo (o : obs) (s : side) : res (option Z) :=
  match s with Bid => find_max (ob_bids o) | Ask => find_min (ob_asks o) end.

(** [event_q.push_back(Event::new(v)).map_err(|_| EventQueueFull)?] *)
Definition emit (o : obs) (v : event_view) : res obs :=
  q <- push_back (ob_eq o) (event_new v) ;;
  match q with Some q' => Ok (set_eq o q') | None => Err EEventQueueFull end.
(** [remove_by_key(k).unwrap()] *)
Definition remove_order_by_key (o : obs) (s : side) (k : Z) : res obs :=
  '(sl, l) <- remove_by_key (orders_of o s) k ;;
  _ <- unwrap l ;; Ok (set_orders o s sl).
(** [leaf_ref.set_quantity(q)] through the handle [h] *)
Definition write_qty (o : obs) (s : side) (h : Z) (l : leaf) (q : Z) : obs :=
  set_orders o s (slab_set (orders_of o s) h (NLeaf (set_qty l q))).

(** RequestProceeds, [matching.rs:181-219] *)
Record proceeds := mkPr {
  p_coin_unlocked : Z; p_pc_unlocked : Z; p_coin_credit : Z; p_pc_credit : Z;
  p_coin_debit : Z; p_pc_debit : Z }.
Definition pr_zero : proceeds := mkPr 0 0 0 0 0 0.
Definition pr_unlock_coin (p : proceeds) (x : Z) : res proceeds :=
  v <- cadd (p_coin_unlocked p) x ;;
  Ok (mkPr v (p_pc_unlocked p) (p_coin_credit p) (p_pc_credit p) (p_coin_debit p) (p_pc_debit p)).
Definition pr_unlock_pc (p : proceeds) (x : Z) : res proceeds :=
  v <- cadd (p_pc_unlocked p) x ;;
  Ok (mkPr (p_coin_unlocked p) v (p_coin_credit p) (p_pc_credit p) (p_coin_debit p) (p_pc_debit p)).
Definition pr_credit_coin (p : proceeds) (x : Z) : res proceeds :=
  v <- cadd (p_coin_credit p) x ;;
  Ok (mkPr (p_coin_unlocked p) (p_pc_unlocked p) v (p_pc_credit p) (p_coin_debit p) (p_pc_debit p)).
Definition pr_credit_pc (p : proceeds) (x : Z) : res proceeds :=
  v <- cadd (p_pc_credit p) x ;;
  Ok (mkPr (p_coin_unlocked p) (p_pc_unlocked p) (p_coin_credit p) v (p_coin_debit p) (p_pc_debit p)).
Definition pr_debit_coin (p : proceeds) (x : Z) : res proceeds :=
  v <- cadd (p_coin_debit p) x ;;
  Ok (mkPr (p_coin_unlocked p) (p_pc_unlocked p) (p_coin_credit p) (p_pc_credit p) v (p_pc_debit p)).
Definition pr_debit_pc (p : proceeds) (x : Z) : res proceeds :=
  v <- cadd (p_pc_debit p) x ;;
  Ok (mkPr (p_coin_unlocked p) (p_pc_unlocked p) (p_coin_credit p) (p_pc_credit p) (p_coin_debit p) v).

(** The parts of NewOrderParams, [matching.rs:221-232], that stay fixed while the order is matched. *)
Record order_params := mkParams {
  op_order_id : Z; op_owner : Z; op_slot : Z; op_tier : tier;
  op_cid : Z; op_st : self_trade; op_post_allowed : bool }.
(** [system_program::ID] *)
Definition system_id : Z := 0.
Definition is_send_take (p : order_params) : bool := op_owner p =? system_id.
(** extract_price_from_order_id, [matching.rs:60-62] *)
Definition price_of_id (id : Z) : Z := id / B64.

(** Option<OrderRemaining>, [matching.rs:234-237]; the pc part is 0 for [None]. *)
Definition remaining := option (Z * Z).

(** Accruing fees, [matching.rs:527-533] and [matching.rs:864-870] *)
Definition accrue (m : market) (taker_fee maker_rebates : Z) : market :=
  let net_before := wsub taker_fee maker_rebates in
  let rr := referrer_rebate taker_fee in
  let net := wsub net_before rr in
  set_counters m (m_coin_deposits m) (wsub (m_pc_deposits m) net_before)
               (wadd (m_pc_fees m) net) (wadd (m_rebates m) rr).

Definition tier_of_leaf (l : leaf) : res tier := unwrap (tier_of_u8 (l_tier l)).

(** Posting with eviction: [matching.rs:558-582] (asks: boot the maximum) and
    [matching.rs:921-946] (bids: boot the minimum). *)
Definition post_order (o : obs) (sd : side) (l : leaf) : res obs :=
  '(s1, out) <- insert_leaf (orders_of o sd) l ;;
  match out with
  | Inserted _ _ => Ok (set_orders o sd s1)
  | OutOfSpace =>
      '(s2, ev) <- remove_extreme s1 (match sd with Ask => true | Bid => false end) ;;
      ord <- unwrap ev ;;
      unlocked <- match sd with
                  | Ask => Ok (wmul (l_qty ord) (m_coin_lot (ob_mkt o)))
                  | Bid => p <- leaf_price ord ;; Ok (wmul (wmul (l_qty ord) p) (m_pc_lot (ob_mkt o)))
                  end ;;
      o1 <- emit (set_orders o sd s2)
                 (EvOut sd true unlocked 0 (l_key ord) (l_owner ord) (l_slot ord) (l_cid ord)) ;;
      '(s3, out2) <- insert_leaf (orders_of o1 sd) l ;;
      match out2 with
      | Inserted _ _ => Ok (set_orders o1 sd s3)
      | OutOfSpace => Panic
      end
  end.

(** The end of new_ask, [matching.rs:502-609], from the fill totals onwards.  [max_qty] is the
    quantity this call started with, [unfilled] what is left, [accum] the filled value in pc lots. *)
Definition ask_finish (o : obs) (pr : proceeds) (p : order_params) (max_qty unfilled accum rebates : Z)
    (crossed done : bool) : res (obs * proceeds * remaining) :=
  let mkt := ob_mkt o in
  let taker_pc := wmul accum (m_pc_lot mkt) in
  let fee := taker_fee (op_tier p) taker_pc in
  let net_pc := wsub taker_pc fee in
  let traded := wsub max_qty unfilled in
  pr1 <- pr_credit_pc pr net_pc ;;
  pr2 <- pr_debit_coin pr1 traded ;;
  o1 <- (if (0 <? taker_pc) && negb (is_send_take p) then
           emit o (EvFill Ask false (wmul traded (m_coin_lot mkt)) net_pc fee (op_order_id p)
                          (op_owner p) (op_slot p) (op_tier p) (op_cid p))
         else Ok o) ;;
  let o2 := set_mkt o1 (accrue mkt fee rebates) in
  if negb done && negb (unfilled =? 0) then Ok (o2, pr2, Some (unfilled, 0))
  else if op_post_allowed p && negb crossed && (0 <? unfilled) then
    _ <- check (negb (is_send_take p)) EAssert ;;
    o3 <- post_order o2 Ask (mkLeaf (op_slot p) (tier_to_u8 (op_tier p)) (op_order_id p) (op_owner p)
                                    unfilled (op_cid p)) ;;
    Ok (o3, pr2, None)
  else if negb (is_send_take p) then
    pr3 <- pr_unlock_coin pr2 unfilled ;;
    o3 <- emit o2 (EvOut Ask false (wmul unfilled (m_coin_lot mkt)) 0 (op_order_id p) (op_owner p)
                         (op_slot p) (op_cid p)) ;;
    Ok (o3, pr3, None)
  else Ok (o2, pr2, None).

(** new_ask, [matching.rs:341-611].  The Rust [loop] never runs a second time: every path through its
    body breaks or returns. *)
Definition new_ask (o : obs) (pr : proceeds) (p : order_params) (max_qty limit_price : Z)
    (post_only : bool) : res (obs * proceeds * remaining) :=
  let mkt := ob_mkt o in
  bh <- find_bbo o Bid ;;
  match bh with
  | None => ask_finish o pr p max_qty max_qty 0 0 false true
  | Some h =>
      best <- get_leaf (ob_bids o) h ;;
      price <- leaf_price best ;;
      let crossed := limit_price <=? price in
      if negb crossed || post_only then ask_finish o pr p max_qty max_qty 0 0 crossed true
      else
        let bid_size := l_qty best in
        let trade := Z.min bid_size max_qty in
        if trade =? 0 then ask_finish o pr p max_qty max_qty 0 0 crossed true
        else if op_owner p =? l_owner best then
          (* self trade, [matching.rs:398-460] *)
          '(c_provide, c_take) <-
            match op_st p with
            | DecrementTake => Ok (trade, trade)
            | CancelProvide => Ok (l_qty best, 0)
            | AbortTransaction => Err EWouldSelfTrade
            end ;;
          let left := wsub bid_size c_provide in
          o1 <- emit o (EvOut Bid true (wmul (wmul c_provide price) (m_pc_lot mkt))
                              (wmul (wmul left price) (m_pc_lot mkt))
                              (l_key best) (l_owner best) (l_slot best) (l_cid best)) ;;
          o2 <- (if left =? 0 then remove_order_by_key o1 Bid (l_key best)
                 else Ok (write_qty o1 Bid h best left)) ;;
          let unfilled := wsub max_qty c_take in
          o3 <- emit o2 (EvOut Ask false (wmul c_take (m_coin_lot mkt)) unfilled (op_order_id p)
                               (op_owner p) (op_slot p) (op_cid p)) ;;
          pr1 <- pr_unlock_coin pr c_take ;;
          Ok (o3, pr1, if unfilled =? 0 then None else Some (unfilled, 0))
        else
          (* fill, [matching.rs:462-500] *)
          mt <- tier_of_leaf best ;;
          let maker_pc := wmul (wmul trade price) (m_pc_lot mkt) in
          let rebate := maker_rebate mt maker_pc in
          o1 <- emit o (EvFill Bid true (wsub maker_pc rebate) (wmul trade (m_coin_lot mkt)) rebate
                               (l_key best) (l_owner best) (l_slot best) mt (l_cid best)) ;;
          let left := wsub (l_qty best) trade in
          let o2 := write_qty o1 Bid h best left in
          let unfilled := wsub max_qty trade in
          let accum := wadd 0 (wmul trade price) in
          o4 <- (if left =? 0 then
                   o3 <- emit o2 (EvOut Bid true 0 0 (l_key best) (l_owner best) (l_slot best) (l_cid best)) ;;
                   remove_order_by_key o3 Bid (l_key best)
                 else Ok o2) ;;
          ask_finish o4 pr p max_qty unfilled accum (wadd 0 rebate) true false
  end.

(** The end of new_bid, [matching.rs:835-950]. *)
Definition bid_finish (o : obs) (pr : proceeds) (p : order_params) (max_qty locked limit_price max_pc
    coin_rem pc_rem rebates : Z) (crossed done : bool) : res (obs * proceeds * remaining) :=
  let mkt := ob_mkt o in
  let fill := wmul (wsub max_pc pc_rem) (m_pc_lot mkt) in
  let fee := taker_fee (op_tier p) fill in
  let native_rem := wsub (wsub locked fill) fee in
  let received := wsub max_qty coin_rem in
  let paid := wadd fill fee in
  pr1 <- pr_credit_coin pr received ;;
  pr2 <- pr_debit_pc pr1 paid ;;
  o1 <- (if (0 <? fill) && negb (is_send_take p) then
           emit o (EvFill Bid false paid (wmul received (m_coin_lot mkt)) fee (op_order_id p)
                          (op_owner p) (op_slot p) (op_tier p) (op_cid p))
         else Ok o) ;;
  let o2 := set_mkt o1 (accrue mkt fee rebates) in
  if negb done && negb (coin_rem =? 0) && negb (native_rem =? 0) then
    Ok (o2, pr2, Some (coin_rem, native_rem))
  else
    (* [limit_price = None] is 0 *)
    '(post, keep) <-
      (if negb (limit_price =? 0) && op_post_allowed p && negb crossed then
         if m_pc_lot mkt =? 0 then Panic
         else
           let q := Z.min coin_rem (native_rem / m_pc_lot mkt / limit_price) in
           Ok (q, wmul q limit_price)
       else Ok (0, 0)) ;;
    '(o3, pr3) <-
      (if negb (is_send_take p) then
         let still := wmul keep (m_pc_lot mkt) in
         let unlocked := wsub native_rem still in
         pr3 <- pr_unlock_pc pr2 unlocked ;;
         o3 <- emit o2 (EvOut Bid false unlocked still (op_order_id p) (op_owner p) (op_slot p) (op_cid p)) ;;
         Ok (o3, pr3)
       else Ok (o2, pr2)) ;;
    if 0 <? keep then
      o4 <- post_order o3 Bid (mkLeaf (op_slot p) (tier_to_u8 (op_tier p)) (op_order_id p) (op_owner p)
                                      post (op_cid p)) ;;
      Ok (o4, pr3, None)
    else Ok (o3, pr3, None).

(** new_bid, [matching.rs:630-951]; [limit_price] 0 is [None], [locked] is native_pc_qty_locked. *)
Definition new_bid (o : obs) (pr : proceeds) (p : order_params) (max_qty locked limit_price : Z)
    (post_only : bool) : res (obs * proceeds * remaining) :=
  let mkt := ob_mkt o in
  _ <- (if op_post_allowed p then check (negb (limit_price =? 0)) EAssert else Ok tt) ;;
  net <- remove_taker_fee (op_tier p) locked ;;
  if m_pc_lot mkt =? 0 then Panic else
  let max_pc := net / m_pc_lot mkt in
  let finish o crossed done coin_rem pc_rem rebates :=
    bid_finish o pr p max_qty locked limit_price max_pc coin_rem pc_rem rebates crossed done in
  ah <- find_bbo o Ask ;;
  match ah with
  | None => finish o false true max_qty max_pc 0
  | Some h =>
      best <- get_leaf (ob_asks o) h ;;
      price <- leaf_price best ;;
      let crossed := if limit_price =? 0 then true else price <=? limit_price in
      if negb crossed || post_only then finish o crossed true max_qty max_pc 0
      else
        let offer_size := l_qty best in
        let trade := Z.min (Z.min offer_size max_qty) (max_pc / price) in
        if trade =? 0 then finish o crossed true max_qty max_pc 0
        else if op_owner p =? l_owner best then
          (* self trade, [matching.rs:708-791] *)
          '(c_take, c_provide) <-
            match op_st p with
            | CancelProvide => Ok (0, l_qty best)
            | DecrementTake => Ok (trade, trade)
            | AbortTransaction => Err EWouldSelfTrade
            end ;;
          let left := wsub (l_qty best) c_provide in
          o1 <- emit o (EvOut Ask true (wmul c_provide (m_coin_lot mkt)) (wmul left (m_coin_lot mkt))
                              (l_key best) (l_owner best) (l_slot best) (l_cid best)) ;;
          o2 <- (if left =? 0 then remove_order_by_key o1 Ask (l_key best)
                 else Ok (write_qty o1 Ask h best left)) ;;
          let t_unlocked := wmul (wmul c_take price) (m_pc_lot mkt) in
          let t_still := wsub locked t_unlocked in
          let coin_rem := wsub max_qty c_take in
          let more := negb (coin_rem =? 0) && negb (t_still =? 0) in
          let '(unlocked, still) := if more then (t_unlocked, t_still) else (locked, 0) in
          pr1 <- pr_unlock_pc pr unlocked ;;
          o3 <- emit o2 (EvOut Bid false unlocked still (op_order_id p) (op_owner p) (op_slot p) (op_cid p)) ;;
          Ok (o3, pr1, if more then Some (coin_rem, t_still) else None)
        else
          (* fill, [matching.rs:792-833] *)
          mt <- tier_of_leaf best ;;
          let maker_pc := wmul (wmul trade price) (m_pc_lot mkt) in
          let rebate := maker_rebate mt maker_pc in
          o1 <- emit o (EvFill Ask true (wmul trade (m_coin_lot mkt)) (wadd maker_pc rebate) rebate
                               (l_key best) (l_owner best) (l_slot best) mt (l_cid best)) ;;
          let left := wsub (l_qty best) trade in
          let o2 := write_qty o1 Ask h best left in
          let coin_rem := wsub max_qty trade in
          let pc_rem := wsub max_pc (wmul trade price) in
          o4 <- (if left =? 0 then
                   o3 <- emit o2 (EvOut Ask true 0 0 (l_key best) (l_owner best) (l_slot best) (l_cid best)) ;;
                   remove_order_by_key o3 Ask (l_key best)
                 else Ok o2) ;;
          finish o4 true false coin_rem pc_rem (wadd 0 rebate)
  end.

(** The loop of new_order, [matching.rs:263-322]; [limit] (u16) bounds the number of iterations. *)
Fixpoint new_order_loop (limit : nat) (o : obs) (pr : proceeds) (p : order_params) (sd : side)
    (post_only : bool) (max_qty pc_locked : Z) : res (obs * proceeds * remaining) :=
  let post_only := match limit with O => true | S _ => post_only end in
  let limit_price := price_of_id (op_order_id p) in
  '(o1, pr1, rem) <-
    match sd with
    | Bid =>
        _ <- passert (negb (pc_locked =? 0)) ;;
        new_bid o pr p max_qty pc_locked limit_price post_only
    | Ask =>
        _ <- passert (pc_locked =? 0) ;;
        _ <- passert (negb (limit_price =? 0)) ;;
        new_ask o pr p max_qty limit_price post_only
    end ;;
  match limit with
  | O => Ok (o1, pr1, rem)
  | S n =>
      match rem with
      | None => Ok (o1, pr1, None)
      | Some (q, pc) => new_order_loop n o1 pr1 p sd post_only q pc
      end
  end.

Definition ot_post_only (t : order_type) : bool := match t with PostOnly => true | _ => false end.
Definition ot_post_allowed (t : order_type) : bool :=
  match t with ImmediateOrCancel => false | _ => true end.

(** process_orderbook_request for a NewOrder request, and new_order's set-up,
    [matching.rs:86-137, 239-262].  The CancelOrder request branch is [cancel_order] below. *)
Definition new_order (o : obs) (sd : side) (ot : order_type) (order_id owner slot : Z) (t : tier)
    (max_qty pc_locked cid : Z) (st : self_trade) (limit : nat) : res (obs * proceeds * remaining) :=
  new_order_loop limit o pr_zero
    (mkParams order_id owner slot t cid st (ot_post_allowed ot)) sd (ot_post_only ot) max_qty pc_locked.

(** Value of the funds backing a resting order, as computed in [matching.rs:986-998, 1029-1036]. *)
Definition order_native (m : market) (sd : side) (l : leaf) : res Z :=
  match sd with
  | Bid => p <- leaf_price l ;; Ok (wmul (wmul (l_qty l) p) (m_pc_lot m))
  | Ask => Ok (wmul (l_qty l) (m_coin_lot m))
  end.

(** cancel_leaf_node, [matching.rs:975-1016] *)
Definition cancel_leaf_node (o : obs) (l : leaf) (sd : side) (oo : open_orders) (addr order_id : Z)
  : res (obs * open_orders) :=
  _ <- check (l_owner l =? addr) EOrderNotYours ;;
  let slot := l_slot l in
  id <- unwrap (znth (oo_orders oo) slot) ;;
  _ <- check (order_id =? id) EAssert ;;
  _ <- check (match slot_side oo slot with Some s => side_eqb sd s | None => false end) EAssert ;;
  n <- order_native (ob_mkt o) sd l ;;
  oo1 <- match sd with Bid => unlock_pc oo n | Ask => unlock_coin oo n end ;;
  o1 <- emit o (EvOut sd false n 0 order_id addr slot (l_cid l)) ;;
  Ok (o1, oo1).

(** cancel_order_v2, [matching.rs:953-973] *)
Definition cancel_order_v2 (o : obs) (sd : side) (addr : Z) (oo : open_orders) (order_id : Z)
  : res (obs * open_orders) :=
  '(sl, ol) <- remove_by_key (orders_of o sd) order_id ;;
  l <- ok_or ol EOrderNotFound ;;
  cancel_leaf_node (set_orders o sd sl) l sd oo addr order_id.

(** cancel_order, [matching.rs:1018-1058]: the CancelOrder request, which no instruction submits. *)
Definition cancel_order (o : obs) (sd : side) (order_id owner slot : Z) : res obs :=
  '(sl, ol) <- remove_by_key (orders_of o sd) order_id ;;
  match ol with
  | None => Ok (set_orders o sd sl)
  | Some l =>
      if (l_owner l =? owner) && (l_slot l =? slot) then
        n <- order_native (ob_mkt o) sd l ;;
        emit (set_orders o sd sl) (EvOut sd true n 0 order_id owner slot (l_cid l))
      else
        '(sl2, out) <- insert_leaf sl l ;;
        match out with Inserted _ _ => Ok (set_orders o sd sl2) | OutOfSpace => Panic end
  end.

(** [filter_map(|k| slab.remove_by_key(k))] *)
Fixpoint remove_keys (s : slab) (ks : list Z) : res (slab * list leaf) :=
  match ks with
  | [] => Ok (s, [])
  | k :: r =>
      '(s1, ol) <- remove_by_key s k ;;
      '(s2, ls) <- remove_keys s1 r ;;
      Ok (s2, match ol with Some l => l :: ls | None => ls end)
  end.
(** remove_all, [matching.rs:158-179]: asks are searched first, sharing the limit with bids;
    the result is (bids removed, asks removed). *)
Definition remove_all (o : obs) (owner : Z) (limit : nat) : res (obs * list leaf * list leaf) :=
  let p (l : leaf) := l_owner l =? owner in
  let (aks, limit1) := find_by (ob_asks o) limit p in
  let (bks, _) := find_by (ob_bids o) limit1 p in
  '(bs, bl) <- remove_keys (ob_bids o) bks ;;
  '(as_, al) <- remove_keys (ob_asks o) aks ;;
  Ok (mkObs bs as_ (ob_mkt o) (ob_eq o), bl, al).
