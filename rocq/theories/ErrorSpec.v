(** What the errors mean, stated over the books, the accounts and the instruction only. *)
From Verif Require Import Base Fees Queue Codec Critbit CritbitSlab Market Slots MatchSteps Ledger MatchSpec Core Instr Store StoreProofs World WorldInv WorldSpec OpenSpec PlaceSpec TakeSpec.

(** Errors about the accounts listed with an instruction: one is missing, of the wrong kind, unsigned, or not the market's. *)
Definition about_accounts (er : err) : Prop :=
  In er [EAssert; EInvalidMarketFlags; EWrongOrdersAccount; EOrdersNotRentExempt; EInvalidOpenOrdersAuthority; ERentNotProvided;
         EWrongCoinVault; EWrongPcVault; EWrongCoinMint; EWrongPcMint; EWrongReqQ; EWrongEventQ; ENotSigner; EOther].

(** ** New orders *)
Section Order.
Variables (e : env) (s : store) (k : Z) (m : market) (A : astate) (L : list (Z * open_orders)) (c : clock) (ix : order_ix).
(** [x] is the account the order is placed on, for [w], with record [oo]; [payer] is the token account [t];
    [disc] is the discount account, if any. *)
Variables (x w : Z) (oo : open_orders) (payer : Z) (t : token) (disc : option Z).
Let opp := book_of A (other (oi_side ix)).
Let due := to_pay ix (m_coin_lot m) oo.
Definition order_error (er : err) : Prop :=
  match er with
  | EMaxTimestamp => ~ in_time (c_now c) ix
  | EInsufficientFunds => B64 <= locks ix (m_coin_lot m) \/ t_amount t < due \/ (t_delegate t = Some w /\ t_delegated t < due)
  | ETooManyOpenOrders => forall j, 0 <= j < 128 -> is_free oo j = false
  | EWouldSelfTrade => oi_st ix = AbortTransaction /\ oi_ot ix <> PostOnly /\
      meets_own opp (oi_side ix) (oi_price ix) x (oi_qty ix) (oi_pc ix) (m_pc_lot m) (oi_limit ix)
  | EEventQueueFull => exists q, dexd e s (m_event_q m) = Some (DEventQ q) /\
      zlen (q_buf q) < zlen (a_evs A) + events_needed opp (oi_side ix) (oi_price ix) x (oi_st ix) (oi_limit ix) /\
      (zlen (q_buf q) < 4611686018427387904 ->
       (oi_st ix = AbortTransaction /\ oi_ot ix <> PostOnly /\
        meets_own opp (oi_side ix) (oi_price ix) x (oi_qty ix) (oi_pc ix) (m_pc_lot m) (oi_limit ix)) \/
       exists num sl tr, next_number e s m num /\ dexd e s (match oi_side ix with Bid => m_bids m | Ask => m_asks m end) = Some (DSlab (oi_side ix) sl) /\
         tier_for s k w disc tr /\ overflows m A x ix tr num (slab_cap sl) (zlen (q_buf q)))
  | ETransferFailed => 0 < due /\
      ((t_owner t <> w /\ t_delegate t <> Some w) \/ In w [k; m_req_q m; m_event_q m; m_bids m; m_asks m] \/
       exists v, token_at s (pays_into m (oi_side ix)) = Some v /\ B64 <= t_amount v + due)
  | _ => False
  end.
End Order.

(** ** Cancellations *)
Section Cancel.
Variables (e : env) (s : store) (m : market) (A : astate) (x : Z) (oo : open_orders).
Definition cancel_error (sd : side) (id : Z) (er : err) : Prop :=
  match er with
  | EOrderNotFound => forall l, In l (book_of A sd) -> l_key l <> id
  | EOrderNotYours => exists l, In l (book_of A sd) /\ l_key l = id /\ l_owner l <> x
  | EEventQueueFull => (exists l, In l (book_of A sd) /\ l_key l = id /\ l_owner l = x) /\ ~ places e s m 1
  | _ => False
  end.
(** By client id: no slot in use carries it; or the first that does names an order no longer in the book. *)
Definition first_slot (cid j : Z) : Prop :=
  0 <= j < 128 /\ is_free oo j = false /\ cid_at oo j = cid /\ forall i, 0 <= i < j -> is_free oo i = false -> cid_at oo i <> cid.
Definition cancel_cid_error (cid : Z) (er : err) : Prop :=
  match er with
  | EClientIdNotFound => forall j, 0 <= j < 128 -> is_free oo j = false -> cid_at oo j <> cid
  | EOrderNotFound => exists j, first_slot cid j /\ forall l, In l (book_of A (side_at oo j)) -> l_key l <> order_at oo j
  | EEventQueueFull => (exists sd l, In l (book_of A sd) /\ l_owner l = x /\ l_cid l = cid) /\ ~ places e s m 1
  | _ => False
  end.
Definition cancel_cids_error (cids : list Z) (er : err) : Prop :=
  match er with
  | EEventQueueFull => ~ places e s m (zlen (with_cid x cids (a_bids A)) + zlen (with_cid x cids (a_asks A)))
  | _ => False
  end.
Definition prune_error (limit : Z) (er : err) : Prop :=
  match er with
  | EEventQueueFull => ~ places e s m (Z.min limit (zlen (own_orders x (a_bids A)) + zlen (own_orders x (a_asks A))))
  | _ => False
  end.
End Cancel.
(** ** Closing an account *)
Definition close_error (oo : open_orders) (er : err) : Prop :=
  match er with
  | ETooManyOpenOrders => (exists j, 0 <= j < 128 /\ is_free oo j = false) \/ oo_coin_total oo <> 0 \/ oo_pc_total oo <> 0
  | _ => False
  end.
