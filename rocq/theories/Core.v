(** The instruction bodies of dex/src/state.rs:2550-3610, on decoded accounts.  Account parsing, the
    token program and the writing back of accounts are in Process.v. *)
From Verif Require Import Base Fees Queue Codec Critbit Market Matching.

(** NewOrderInstructionV3, [instruction.rs:103-132]; the [NonZeroU64] fields are positive. *)
Record order_ix := mkOrderIx {
  oi_side : side; oi_price : Z; oi_qty : Z; oi_pc : Z; oi_st : self_trade; oi_ot : order_type;
  oi_cid : Z; oi_limit : Z; oi_max_ts : Z }.
(** SendTakeInstruction, [instruction.rs:74-100] *)
Record take_ix := mkTakeIx {
  ti_side : side; ti_price : Z; ti_qty : Z; ti_pc : Z; ti_min_coin : Z; ti_min_pc : Z; ti_limit : Z }.

Definition I64_MAX : Z := 9223372036854775807.
Definition set_cid (oo : open_orders) (slot cid : Z) : open_orders :=
  set_slots oo (oo_free_bits oo) (oo_bid_bits oo) (oo_orders oo) (zupd (oo_cids oo) slot cid).

(** process_new_order_v3 up to the token transfer, [state.rs:3239-3358].  [bal] is the payer's token
    balance, [now] the clock, [rq] the request queue's (count, next_seq_num).  Returns the amount to
    deposit last.  [lock - min lock free] cannot wrap. *)
Definition lock_funds (o : obs) (oo : open_orders) (ix : order_ix) (bal : Z) : res (obs * open_orders * Z * Z) :=
  let m := ob_mkt o in
  match oi_side ix with
  | Bid =>
      let lock := oi_pc ix in
      let from_free := Z.min lock (oo_pc_free oo) in
      let deposit := lock - from_free in
      _ <- check (deposit <=? bal) EInsufficientFunds ;;
      oo1 <- lock_free_pc oo from_free ;;
      oo2 <- credit_locked_pc oo1 deposit ;;
      d <- cadd (m_pc_deposits m) deposit ;;
      Ok (set_mkt o (set_pc_deposits m d), oo2, deposit, lock)
  | Ask =>
      lock <- (if oi_qty ix * m_coin_lot m <? B64 then Ok (oi_qty ix * m_coin_lot m) else Err EInsufficientFunds) ;;
      let from_free := Z.min lock (oo_coin_free oo) in
      let deposit := lock - from_free in
      _ <- check (deposit <=? bal) EInsufficientFunds ;;
      oo1 <- lock_free_coin oo from_free ;;
      oo2 <- credit_locked_coin oo1 deposit ;;
      d <- cadd (m_coin_deposits m) deposit ;;
      Ok (set_mkt o (set_coin_deposits m d), oo2, deposit, 0)
  end.
(** [state.rs:3315-3349] *)
Definition apply_proceeds (oo : open_orders) (cl : Z) (pr : proceeds) : res open_orders :=
  cu <- cmul (p_coin_unlocked pr) cl ;;
  cc <- cmul (p_coin_credit pr) cl ;;
  cd <- cmul (p_coin_debit pr) cl ;;
  oo1 <- credit_locked_coin oo cc ;;
  oo2 <- unlock_coin oo1 cc ;;
  oo3 <- unlock_coin oo2 cu ;;
  oo4 <- credit_locked_pc oo3 (p_pc_credit pr) ;;
  oo5 <- unlock_pc oo4 (p_pc_credit pr) ;;
  oo6 <- unlock_pc oo5 (p_pc_unlocked pr) ;;
  ct <- csub (oo_coin_total oo6) cd ;;
  pt <- csub (oo_pc_total oo6) (p_pc_debit pr) ;;
  let oo7 := set_balances oo6 (oo_coin_free oo6) ct (oo_pc_free oo6) pt in
  _ <- check (oo_coin_free oo7 <=? oo_coin_total oo7) EAssert ;;
  _ <- check (oo_pc_free oo7 <=? oo_pc_total oo7) EAssert ;;
  Ok oo7.
Definition new_order_core (o : obs) (rq : Z * Z) (oo : open_orders) (addr : Z) (t : tier) (ix : order_ix)
    (bal now : Z) : res (obs * (Z * Z) * open_orders * Z) :=
  _ <- check (negb (oi_max_ts ix <? I64_MAX) || (now <=? oi_max_ts ix)) EMaxTimestamp ;;
  _ <- check (fst rq =? 0) EAssert ;;
  '(o1, oo1, deposit, pc_locked) <- lock_funds o oo ix bal ;;
  let (id, seq') := gen_order_id (snd rq) (oi_price ix) (oi_side ix) in
  '(oo2, slot) <- add_order oo1 id (oi_side ix) ;;
  _ <- unwrap (znth (oo_cids oo2) slot) ;;
  let oo3 := set_cid oo2 slot (oi_cid ix) in
  '(o2, pr, rem) <- new_order o1 (oi_side ix) (oi_ot ix) id addr slot t (oi_qty ix) pc_locked (oi_cid ix)
                      (oi_st ix) (Z.to_nat (oi_limit ix)) ;;
  _ <- check (match rem with None => true | _ => false end) EAssert ;;
  oo4 <- apply_proceeds oo3 (m_coin_lot (ob_mkt o2)) pr ;;
  Ok (o2, (fst rq, seq'), oo4, deposit).

(** process_send_take up to the transfers, [state.rs:2699-2787]: (deposit, withdrawal) amounts. *)
Definition send_take_core (o : obs) (rq : Z * Z) (t : tier) (ix : take_ix) : res (obs * (Z * Z) * Z * Z) :=
  let (id, seq') := gen_order_id (snd rq) (ti_price ix) (ti_side ix) in
  let pc_locked := match ti_side ix with Bid => ti_pc ix | Ask => 0 end in
  '(o1, pr, _) <- new_order o (ti_side ix) ImmediateOrCancel id system_id 0 t (ti_qty ix) pc_locked 0
                    AbortTransaction (Z.to_nat (ti_limit ix)) ;;
  let m := ob_mkt o1 in
  _ <- check (match ti_side ix with
              | Bid => ti_min_coin ix <=? p_coin_credit pr
              | Ask => ti_min_pc ix <=? p_pc_credit pr end) EMinAmountNotMet ;;
  match ti_side ix with
  | Bid =>
      let deposit := p_pc_debit pr in
      withdraw <- cmul (p_coin_credit pr) (m_coin_lot m) ;;
      _ <- check (withdraw <=? m_coin_deposits m) EAssert ;;
      Ok (set_mkt o1 (set_counters m (m_coin_deposits m - withdraw) (wadd (m_pc_deposits m) deposit)
                                   (m_pc_fees m) (m_rebates m)), (fst rq, seq'), deposit, withdraw)
  | Ask =>
      deposit <- cmul (p_coin_debit pr) (m_coin_lot m) ;;
      let withdraw := p_pc_credit pr in
      _ <- check (withdraw <=? m_pc_deposits m) EAssert ;;
      Ok (set_mkt o1 (set_counters m (wadd (m_coin_deposits m) deposit) (m_pc_deposits m - withdraw)
                                   (m_pc_fees m) (m_rebates m)), (fst rq, seq'), deposit, withdraw)
  end.

(** process_prune, [state.rs:2847-2890] *)
Fixpoint cancel_leaves (o : obs) (oo : open_orders) (sd : side) (addr : Z) (ls : list leaf) : res (obs * open_orders) :=
  match ls with
  | [] => Ok (o, oo)
  | l :: r =>
      id <- unwrap (znth (oo_orders oo) (l_slot l)) ;;
      '(o1, oo1) <- cancel_leaf_node o l sd oo addr id ;;
      cancel_leaves o1 oo1 sd addr r
  end.
Definition prune_core (o : obs) (oo : open_orders) (addr limit : Z) : res (obs * open_orders) :=
  '(o1, bids, asks) <- remove_all o addr (Z.to_nat limit) ;;
  '(o2, oo2) <- cancel_leaves o1 oo Bid addr bids ;;
  cancel_leaves o2 oo2 Ask addr asks.

(** The account checks and the flag write of CloseOpenOrders, [state.rs:2398-2406, 2896-2914].  The
    lamports are in Process.v. *)
Definition close_core (oo : open_orders) : res open_orders :=
  _ <- check (oo_free_bits oo =? U128_MAX) ETooManyOpenOrders ;;
  _ <- check (oo_coin_total oo =? 0) ETooManyOpenOrders ;;
  _ <- check (oo_pc_total oo =? 0) ETooManyOpenOrders ;;
  Ok (set_oo_flags oo AF_Closed).

(** process_settle_funds, [state.rs:2916-2992], without the transfers: the new market and account, the
    two amounts paid out and the rebate sent to the referrer, if any. *)
Definition settle_core (m : market) (oo : open_orders) (referrer : bool) : res (market * open_orders * Z * Z * option Z) :=
  let ca := oo_coin_free oo in
  let pa := oo_pc_free oo in
  ct <- csub (oo_coin_total oo) ca ;;
  pt <- csub (oo_pc_total oo) pa ;;
  let rb := oo_rebates oo in
  let pay := referrer && (0 <? rb) in
  Ok (set_counters m (wsub (m_coin_deposits m) ca) (wsub (m_pc_deposits m) pa)
        (if pay then m_pc_fees m else wadd (m_pc_fees m) rb) (wsub (m_rebates m) rb),
      set_oo_rebates (set_balances oo 0 ct 0 pt) 0, ca, pa, if pay then Some rb else None).

(** process_cancel_order_by_client_id_v2, [state.rs:2994-3020] *)
Definition cancel_by_cid_core (o : obs) (addr : Z) (oo : open_orders) (cid : Z) : res (obs * open_orders) :=
  l <- orders_with_client_ids oo ;;
  '(_, id, sd) <- ok_or (find (fun e => cid =? fst (fst e)) l) EClientIdNotFound ;;
  cancel_order_v2 o sd addr oo id.

(** process_cancel_orders_by_client_ids, [state.rs:3022-3075].  When the order is not found the slab
    is unchanged, so continuing with the old state is what the code does. *)
Fixpoint cancel_each (o : obs) (addr : Z) (oo : open_orders) (ids : list (Z * side)) : res (obs * open_orders) :=
  match ids with
  | [] => Ok (o, oo)
  | (id, sd) :: r =>
      match cancel_order_v2 o sd addr oo id with
      | Ok (o1, oo1) => cancel_each o1 addr oo1 r
      | Err EOrderNotFound => cancel_each o addr oo r
      | Err e => Err e
      | Panic => Panic
      end
  end.
Definition cancel_by_cids_core (o : obs) (addr : Z) (oo : open_orders) (cids : list Z) : res (obs * open_orders) :=
  l <- orders_with_client_ids oo ;;
  cancel_each o addr oo
    (map (fun e => (snd (fst e), snd e)) (filter (fun e => existsb (Z.eqb (fst (fst e))) cids) l)).

(** One iteration of process_consume_events on the account that owns the event, [state.rs:3115-3209]. *)
Definition consume_event (oo : open_orders) (v : event_view) : res open_orders :=
  let '(sd, slot, id) := match v with
    | EvFill sd _ _ _ _ id _ slot _ _ => (sd, slot, id)
    | EvOut sd _ _ _ id _ slot _ => (sd, slot, id) end in
  _ <- check (slot <? 128) EAssert ;;
  _ <- check (match slot_side oo slot with Some s => side_eqb s sd | None => false end) EAssert ;;
  oid <- unwrap (znth (oo_orders oo) slot) ;;
  _ <- check (oid =? id) EAssert ;;
  match v with
  | EvFill sd maker paid received fee _ _ _ _ _ =>
      let oo1 :=
        if maker then
          match sd with
          | Bid => set_balances oo (wadd (oo_coin_free oo) received) (wadd (oo_coin_total oo) received)
                                   (wadd (oo_pc_free oo) fee) (wsub (oo_pc_total oo) paid)
          | Ask => set_balances oo (oo_coin_free oo) (wsub (oo_coin_total oo) paid)
                                   (wadd (oo_pc_free oo) received) (wadd (oo_pc_total oo) received)
          end
        else oo in
      Ok (if maker then oo1 else set_oo_rebates oo1 (wadd (oo_rebates oo1) (referrer_rebate fee)))
  | EvOut sd release unlocked still _ _ _ _ =>
      let oo1 := match sd with
        | Bid => if release then set_pc_free oo (wadd (oo_pc_free oo) unlocked) else oo
        | Ask => if release then set_coin_free oo (wadd (oo_coin_free oo) unlocked) else oo
        end in
      _ <- check (match sd with Bid => oo_pc_free oo1 <=? oo_pc_total oo1
                              | Ask => oo_coin_free oo1 <=? oo_coin_total oo1 end) EAssert ;;
      if still =? 0 then remove_order oo1 slot else Ok oo1
  end.
