(** Model of the market account and the open-orders account of dex/src/state.rs. *)
From Verif Require Import Base.

(** AccountFlag, [state.rs:50-63] *)
Definition AF_Initialized := 1. Definition AF_Market := 2. Definition AF_OpenOrders := 4.
Definition AF_RequestQueue := 8. Definition AF_EventQueue := 16. Definition AF_Bids := 32.
Definition AF_Asks := 64. Definition AF_Disabled := 128. Definition AF_Closed := 256.
Definition AF_Permissioned := 512. Definition AF_CrankAuth := 1024.
(** [BitFlags::from_bits]: succeeds when no unknown bit is set. *)
Definition flags_known (f : Z) : bool := Z.land f 2047 =? f.
(** [flags.intersects(x)] / [contains(x)] for a single flag *)
Definition has_flag (f x : Z) : bool := negb (Z.land f x =? 0).

(** MarketState, [state.rs:293-343]; the three authority keys are those of MarketStateV2,
    [state.rs:204-211], meaningful only when the Permissioned flag is set.
    [coin_fees_accrued], [pc_dust_threshold], [fee_rate_bps] are never read by the program after
    initialisation and are carried along. *)
Record market := mkMarket {
  m_flags : Z; m_own : Z; m_nonce : Z; m_coin_mint : Z; m_pc_mint : Z;
  m_coin_vault : Z; m_coin_deposits : Z; m_coin_fees : Z;
  m_pc_vault : Z; m_pc_deposits : Z; m_pc_fees : Z; m_dust : Z;
  m_req_q : Z; m_event_q : Z; m_bids : Z; m_asks : Z;
  m_coin_lot : Z; m_pc_lot : Z; m_fee_rate : Z; m_rebates : Z;
  m_oo_auth : Z; m_prune_auth : Z; m_crank_auth : Z
}.
(** Updates of the four counters the instructions write. *)
Definition set_counters (m : market) (cd pd pf rr : Z) : market :=
  mkMarket (m_flags m) (m_own m) (m_nonce m) (m_coin_mint m) (m_pc_mint m)
    (m_coin_vault m) cd (m_coin_fees m) (m_pc_vault m) pd pf (m_dust m)
    (m_req_q m) (m_event_q m) (m_bids m) (m_asks m) (m_coin_lot m) (m_pc_lot m) (m_fee_rate m) rr
    (m_oo_auth m) (m_prune_auth m) (m_crank_auth m).
Definition set_coin_deposits (m : market) (x : Z) := set_counters m x (m_pc_deposits m) (m_pc_fees m) (m_rebates m).
Definition set_pc_deposits (m : market) (x : Z) := set_counters m (m_coin_deposits m) x (m_pc_fees m) (m_rebates m).
Definition set_pc_fees (m : market) (x : Z) := set_counters m (m_coin_deposits m) (m_pc_deposits m) x (m_rebates m).
Definition set_rebates (m : market) (x : Z) := set_counters m (m_coin_deposits m) (m_pc_deposits m) (m_pc_fees m) x.
Definition set_flags (m : market) (x : Z) : market :=
  mkMarket x (m_own m) (m_nonce m) (m_coin_mint m) (m_pc_mint m)
    (m_coin_vault m) (m_coin_deposits m) (m_coin_fees m) (m_pc_vault m) (m_pc_deposits m) (m_pc_fees m) (m_dust m)
    (m_req_q m) (m_event_q m) (m_bids m) (m_asks m) (m_coin_lot m) (m_pc_lot m) (m_fee_rate m) (m_rebates m)
    (m_oo_auth m) (m_prune_auth m) (m_crank_auth m).

(** MarketState::check_flags and MarketStateV2::check_flags, [state.rs:440-456, 253-279], as
    selected by Market::load, [state.rs:93-113]. *)
Definition check_market_flags (flags : Z) (allow_disabled : bool) : res unit :=
  _ <- check (flags_known flags) EInvalidMarketFlags ;;
  let base := if has_flag flags AF_Permissioned
              then [Z.lor (Z.lor AF_Initialized AF_Market) AF_Permissioned;
                    Z.lor (Z.lor (Z.lor AF_Initialized AF_Market) AF_Permissioned) AF_CrankAuth]
              else [Z.lor AF_Initialized AF_Market] in
  let allowed := if allow_disabled then base ++ map (fun f => Z.lor f AF_Disabled) base else base in
  check (existsb (Z.eqb flags) allowed) EInvalidMarketFlags.

(** [state.rs:128-154]; [None] for a version-1 market. *)
Definition oo_authority (m : market) : option Z :=
  if has_flag (m_flags m) AF_Permissioned then Some (m_oo_auth m) else None.
Definition prune_authority (m : market) : option Z :=
  if has_flag (m_flags m) AF_Permissioned then Some (m_prune_auth m) else None.
Definition crank_authority (m : market) : option Z :=
  if has_flag (m_flags m) AF_Permissioned then
    if has_flag (m_flags m) AF_CrankAuth then Some (m_crank_auth m) else None
  else None.
(** [state.rs:571-577] *)
Definition check_enabled (m : market) : res unit :=
  _ <- passert (flags_known (m_flags m)) ;;
  check (negb (has_flag (m_flags m) AF_Disabled)) EMarketIsDisabled.

(** OpenOrders, [state.rs:587-605] *)
Record open_orders := mkOO {
  oo_flags : Z; oo_market : Z; oo_owner : Z;
  oo_coin_free : Z; oo_coin_total : Z; oo_pc_free : Z; oo_pc_total : Z;
  oo_free_bits : Z; oo_bid_bits : Z;
  oo_orders : list Z; oo_cids : list Z; oo_rebates : Z
}.
Definition U128_MAX : Z := B128 - 1.
(** A zeroed account of the right size. *)
Definition oo_zero : open_orders :=
  mkOO 0 0 0 0 0 0 0 0 0 (repeat 0 128) (repeat 0 128) 0.

Definition set_balances (o : open_orders) (cf ct pf pt : Z) : open_orders :=
  mkOO (oo_flags o) (oo_market o) (oo_owner o) cf ct pf pt (oo_free_bits o) (oo_bid_bits o)
       (oo_orders o) (oo_cids o) (oo_rebates o).
Definition set_coin_free (o : open_orders) (x : Z) := set_balances o x (oo_coin_total o) (oo_pc_free o) (oo_pc_total o).
Definition set_coin_total (o : open_orders) (x : Z) := set_balances o (oo_coin_free o) x (oo_pc_free o) (oo_pc_total o).
Definition set_pc_free (o : open_orders) (x : Z) := set_balances o (oo_coin_free o) (oo_coin_total o) x (oo_pc_total o).
Definition set_pc_total (o : open_orders) (x : Z) := set_balances o (oo_coin_free o) (oo_coin_total o) (oo_pc_free o) x.
Definition set_oo_rebates (o : open_orders) (x : Z) : open_orders :=
  mkOO (oo_flags o) (oo_market o) (oo_owner o) (oo_coin_free o) (oo_coin_total o) (oo_pc_free o) (oo_pc_total o)
       (oo_free_bits o) (oo_bid_bits o) (oo_orders o) (oo_cids o) x.
Definition set_oo_flags (o : open_orders) (x : Z) : open_orders :=
  mkOO x (oo_market o) (oo_owner o) (oo_coin_free o) (oo_coin_total o) (oo_pc_free o) (oo_pc_total o)
       (oo_free_bits o) (oo_bid_bits o) (oo_orders o) (oo_cids o) (oo_rebates o).
Definition set_slots (o : open_orders) (fb bb : Z) (ord cids : list Z) : open_orders :=
  mkOO (oo_flags o) (oo_market o) (oo_owner o) (oo_coin_free o) (oo_coin_total o) (oo_pc_free o) (oo_pc_total o)
       fb bb ord cids (oo_rebates o).

(** check_flags, [state.rs:609-617] *)
Definition OO_FLAGS : Z := 5.
Definition oo_check_flags (o : open_orders) : res unit :=
  _ <- check (flags_known (oo_flags o)) EInvalidMarketFlags ;;
  check (oo_flags o =? OO_FLAGS) EWrongOrdersAccount.
(** init, [state.rs:619-630] *)
Definition oo_init (o : open_orders) (mkt owner : Z) : res open_orders :=
  _ <- check (oo_flags o =? 0) EAssert ;;
  Ok (mkOO OO_FLAGS mkt owner 0 0 0 0 U128_MAX (oo_bid_bits o) (oo_orders o) (oo_cids o) (oo_rebates o)).

(** [state.rs:632-665] *)
Definition credit_locked_coin (o : open_orders) (x : Z) : res open_orders :=
  t <- cadd (oo_coin_total o) x ;; Ok (set_coin_total o t).
Definition credit_locked_pc (o : open_orders) (x : Z) : res open_orders :=
  t <- cadd (oo_pc_total o) x ;; Ok (set_pc_total o t).
Definition lock_free_coin (o : open_orders) (x : Z) : res open_orders :=
  f <- csub (oo_coin_free o) x ;; Ok (set_coin_free o f).
Definition lock_free_pc (o : open_orders) (x : Z) : res open_orders :=
  f <- csub (oo_pc_free o) x ;; Ok (set_pc_free o f).
Definition unlock_coin (o : open_orders) (x : Z) : res open_orders :=
  f <- cadd (oo_coin_free o) x ;;
  _ <- passert (f <=? oo_coin_total o) ;; Ok (set_coin_free o f).
Definition unlock_pc (o : open_orders) (x : Z) : res open_orders :=
  f <- cadd (oo_pc_free o) x ;;
  _ <- passert (f <=? oo_pc_total o) ;; Ok (set_pc_free o f).

(** [1u128 << slot]; release builds mask the shift amount. *)
Definition slot_mask (slot : Z) : Z := Z.shiftl 1 (slot mod 128).
(** [!mask] on u128 *)
Definition not128 (x : Z) : Z := U128_MAX - x.
(** slot_is_free, [state.rs:667-670] *)
Definition slot_is_free (o : open_orders) (slot : Z) : bool :=
  negb (Z.land (oo_free_bits o) (slot_mask slot) =? 0).
(** slot_side, [state.rs:706-715] *)
Definition slot_side (o : open_orders) (slot : Z) : option side :=
  if negb (Z.land (oo_free_bits o) (slot_mask slot) =? 0) then None
  else if negb (Z.land (oo_bid_bits o) (slot_mask slot) =? 0) then Some Bid
  else Some Ask.
(** remove_order, [state.rs:717-728] *)
Definition remove_order (o : open_orders) (slot : Z) : res open_orders :=
  _ <- check (slot <? 128) EAssert ;;
  _ <- check (negb (slot_is_free o slot)) EAssert ;;
  Ok (set_slots o (Z.lor (oo_free_bits o) (slot_mask slot))
                  (Z.land (oo_bid_bits o) (not128 (slot_mask slot)))
                  (zupd (oo_orders o) slot 0) (zupd (oo_cids o) slot 0)).
(** u128::trailing_zeros *)
Fixpoint tz_from (fuel : nat) (bits i : Z) : Z :=
  match fuel with
  | O => 128
  | S f => if Z.testbit bits i then i else tz_from f bits (i + 1)
  end.
Definition trailing_zeros (bits : Z) : Z := tz_from 128 bits 0.
(** add_order, [state.rs:730-748] *)
Definition add_order (o : open_orders) (id : Z) (sd : side) : res (open_orders * Z) :=
  _ <- check (negb (oo_free_bits o =? 0)) ETooManyOpenOrders ;;
  let slot := trailing_zeros (oo_free_bits o) in
  _ <- check (slot_is_free o slot) EAssert ;;
  let m := slot_mask slot in
  let bb := match sd with Bid => Z.lor (oo_bid_bits o) m | Ask => Z.land (oo_bid_bits o) (not128 m) end in
  _ <- unwrap (znth (oo_orders o) slot) ;;
  Ok (set_slots o (Z.land (oo_free_bits o) (not128 m)) bb (zupd (oo_orders o) slot id) (oo_cids o), slot).

(** iter_filled_slots, [state.rs:672-694]: strips the lowest set bit of [!free_slot_bits] until
    nothing is left. *)
Fixpoint filled_from (fuel : nat) (bits : Z) : list Z :=
  match fuel with
  | O => []
  | S f => if bits =? 0 then []
           else let next := trailing_zeros bits in
                next :: filled_from f (Z.land bits (not128 (slot_mask next)))
  end.
Definition filled_slots (o : open_orders) : list Z := filled_from 128 (not128 (oo_free_bits o)).
(** orders_with_client_ids, [state.rs:696-704]; out-of-range indexing and [slot_side(..).unwrap()]
    are the panics. *)
Fixpoint with_cids (o : open_orders) (slots : list Z) : res (list (Z * Z * side)) :=
  match slots with
  | [] => Ok []
  | s :: r =>
      cid <- unwrap (znth (oo_cids o) s) ;;
      if cid =? 0 then with_cids o r
      else
        id <- unwrap (znth (oo_orders o) s) ;;
        sd <- unwrap (slot_side o s) ;;
        t <- with_cids o r ;;
        Ok ((cid, id, sd) :: t)
  end.
Definition orders_with_client_ids (o : open_orders) : res (list (Z * Z * side)) :=
  with_cids o (filled_slots o).
