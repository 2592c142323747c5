(** The bytes of the dex's accounts: padding, headers and the packed records of dex/src/state.rs and dex/src/critbit.rs,
    the loaders as they read bytes, and the view of an account's bytes as the data the other files work with. *)
From Verif Require Import Base Fees Queue Codec Critbit Market Matching Instr Store Process.

(** ** Packed records *)
(** A field of n bytes, little endian, or an address. *)
Inductive fld := U (n : nat) | K.
Definition width (f : fld) : nat := match f with U n => n | K => 32 end.
Definition rd (f : fld) (b : bytes) : Z := match f with U n => num b 0 n | K => key_unle b 0 end.
Definition wr (f : fld) (z : Z) : bytes := match f with U n => le n z | K => key_le z end.
Fixpoint size (fs : list fld) : nat := match fs with [] => 0 | f :: r => (width f + size r)%nat end.
Fixpoint split (fs : list fld) (b : bytes) : list Z := match fs with [] => [] | f :: r => rd f b :: split r (skipn (width f) b) end.
Fixpoint join (fs : list fld) (zs : list Z) : bytes := match fs, zs with f :: r, z :: q => wr f z ++ join r q | _, _ => [] end.

(** MarketState, [state.rs:293-343], 376 bytes; MarketStateV2 adds three addresses and 992 bytes, [state.rs:204-211] *)
Definition market_fields : list fld :=
  [U 8; K; U 8; K; K; K; U 8; U 8; K; U 8; U 8; U 8; K; K; K; K; U 8; U 8; U 8; U 8].
Definition market2_fields : list fld := market_fields ++ [K; K; K; U 992].
Definition dec_market (d : bytes) : market :=
  match split market_fields d with
  | [a; b; c; d; e; f; g; h; i; j; k; l; m; n; o; p; q; r; s; t] => mkMarket a b c d e f g h i j k l m n o p q r s t 0 0 0
  | _ => mkMarket 0 0 0 0 0 0 0 0 0 0 0 0 0 0 0 0 0 0 0 0 0 0 0
  end.
Definition dec_market2 (d : bytes) : market :=
  match split market2_fields d with
  | [a; b; c; d; e; f; g; h; i; j; k; l; m; n; o; p; q; r; s; t; u; v; w; _] => mkMarket a b c d e f g h i j k l m n o p q r s t u v w
  | _ => mkMarket 0 0 0 0 0 0 0 0 0 0 0 0 0 0 0 0 0 0 0 0 0 0 0
  end.
Definition market_list (m : market) : list Z :=
  [m_flags m; m_own m; m_nonce m; m_coin_mint m; m_pc_mint m; m_coin_vault m; m_coin_deposits m; m_coin_fees m; m_pc_vault m; m_pc_deposits m; m_pc_fees m; m_dust m;
   m_req_q m; m_event_q m; m_bids m; m_asks m; m_coin_lot m; m_pc_lot m; m_fee_rate m; m_rebates m].
Definition enc_market (m : market) : bytes := join market_fields (market_list m).
Definition enc_market2 (m : market) : bytes := join market2_fields (market_list m ++ [m_oo_auth m; m_prune_auth m; m_crank_auth m; 0]).
(** OpenOrders, [state.rs:587-605], 3216 bytes *)
Definition oo_head : list fld := [U 8; K; K; U 8; U 8; U 8; U 8; U 16; U 16].
Definition oo_fields : list fld := oo_head ++ repeat (U 16) 128 ++ repeat (U 8) 128 ++ [U 8].
Definition dec_oo (d : bytes) : open_orders :=
  match split oo_head d with
  | [a; b; c; x; y; z; w; f; g] =>
      let r := skipn (size oo_head) d in
      mkOO a b c x y z w f g (split (repeat (U 16) 128) r) (split (repeat (U 8) 128) (skipn 2048 r)) (num (skipn 3072 r) 0 8)
  | _ => oo_zero
  end.
Definition oo_list (o : open_orders) : list Z :=
  [oo_flags o; oo_market o; oo_owner o; oo_coin_free o; oo_coin_total o; oo_pc_free o; oo_pc_total o; oo_free_bits o; oo_bid_bits o] ++ oo_orders o ++ oo_cids o ++ [oo_rebates o].
Definition enc_oo (o : open_orders) : bytes := join oo_fields (oo_list o).
(** EventQueueHeader and RequestQueueHeader, [state.rs:872-878, 1098-1105]; Event, [state.rs:1166-1184] *)
Definition queue_head : list fld := [U 8; U 8; U 8; U 8].
Definition event_fields : list fld := [U 1; U 1; U 1; U 5; U 8; U 8; U 8; U 16; K; U 8].
Definition dec_event (d : bytes) : event :=
  match split event_fields d with [f; s; t; _; r; p; e; o; w; c] => mkEvent f s t r p e o w c | _ => blank_event end.
Definition enc_event (v : event) : bytes := join event_fields [e_flags v; e_slot v; e_tier v; 0; e_released v; e_paid v; e_fee v; e_oid v; e_owner v; e_cid v].
(** SlabHeader, AnyNode, [critbit.rs:27-64, 117-135, 157-163, 253-264] *)
Definition slab_head : list fld := [U 8; U 8; U 4; U 4; U 8].
Definition inner_fields : list fld := [U 4; U 4; U 16; U 4; U 4; U 40].
Definition leaf_fields : list fld := [U 4; U 1; U 1; U 2; U 16; K; U 8; U 8].
Definition free_fields : list fld := [U 4; U 4; U 64].
(** [critbit.rs:202-208, 404-420]; a tag outside 0..4 is never written and reads like an unused node *)
Definition dec_node (d : bytes) : node :=
  let t := num d 0 4 in
  if t =? 1 then match split inner_fields d with [_; p; k; a; b; _] => NInner p k a b | _ => NUninit end
  else if t =? 2 then match split leaf_fields d with [_; s; f; _; k; w; q; c] => NLeaf (mkLeaf s f k w q c) | _ => NUninit end
  else if t =? 3 then NFree (num d 4 4) else if t =? 4 then NLastFree (num d 4 4) else NUninit.
Definition enc_node (n : node) : bytes :=
  match n with
  | NUninit => join free_fields [0; 0; 0]
  | NInner p k a b => join inner_fields [1; p; k; a; b; 0]
  | NLeaf l => join leaf_fields [2; l_slot l; l_tier l; 0; l_key l; l_owner l; l_qty l; l_cid l]
  | NFree n => join free_fields [3; n; 0]
  | NLastFree n => join free_fields [4; n; 0]
  end.
(** remove_slop: as many records of [w] bytes as fit, [state.rs:2534-2545] *)
Fixpoint chunks (n w : nat) (b : bytes) : list bytes := match n with O => [] | S k => firstn w b :: chunks k w (skipn w b) end.
Definition records (w : nat) (b : bytes) : list bytes := chunks (length b / w) w b.

(** ** Padding *)
(** [state.rs:351-352] *)
Definition HEAD : bytes := [115; 101; 114; 117; 109].
Definition TAIL : bytes := [112; 97; 100; 100; 105; 110; 103].
Fixpoint same_bytes (a b : bytes) : bool :=
  match a, b with [], [] => true | x :: r, y :: q => (x =? y) && same_bytes r q | _, _ => false end.
Definition inside (b : bytes) : bytes := firstn (length b - 12) (skipn 5 b).
(** check_account_padding, [state.rs:362-368]: the cast to 8-byte words fails on a remainder *)
Definition check_padding (b : bytes) : res bytes :=
  _ <- check (12 <=? length b)%nat EAssert ;;
  _ <- check (same_bytes (firstn 5 b) HEAD) EAssert ;;
  _ <- check (same_bytes (skipn (length b - 7) b) TAIL) EAssert ;;
  _ <- check (length (inside b) mod 8 =? 0)%nat EAssert ;;
  Ok (inside b).
(** init_account_padding, [state.rs:354-360]: the inside, and the bytes afterwards *)
Definition init_padding (b : bytes) : res (bytes * bytes) :=
  _ <- check (12 <=? length b)%nat EAssert ;;
  _ <- check (length (inside b) mod 8 =? 0)%nat EAssert ;;
  Ok (inside b, HEAD ++ inside b ++ TAIL).

(** ** Loaders *)
(** Market::account_flags, Market::load, MarketState::load, MarketStateV2::load, [state.rs:93-126, 229-279, 415-455] *)
Definition flags_v1 (f : Z) (allow_disabled : bool) : res unit :=
  _ <- check (flags_known f) EInvalidMarketFlags ;;
  check ((f =? 3) || (allow_disabled && (f =? 131))) EInvalidMarketFlags.
Definition flags_v2 (f : Z) (allow_disabled : bool) : res unit :=
  _ <- check (flags_known f) EInvalidMarketFlags ;;
  check ((f =? 515) || (f =? 1539) || (allow_disabled && ((f =? 643) || (f =? 1667)))) EInvalidMarketFlags.
Definition b_market (b : bytes) (allow_disabled : bool) : res market :=
  _ <- check (13 <=? length b)%nat EAssert ;;
  let f := num b 5 8 in
  _ <- check (flags_known f) EInvalidMarketFlags ;;
  if has_flag f AF_Permissioned then
    d <- check_padding b ;;
    _ <- passert (length d =? 1464)%nat ;;
    let m := dec_market2 d in _ <- flags_v2 (m_flags m) allow_disabled ;; Ok m
  else
    d <- check_padding b ;;
    _ <- passert (length d =? 376)%nat ;;
    let m := dec_market d in _ <- flags_v1 (m_flags m) allow_disabled ;; Ok m.
(** strip_header with [init_allowed = false], [state.rs:378-414]: the header's bytes and the rest *)
Definition strip (w : nat) (b : bytes) : res (bytes * bytes) :=
  d <- check_padding b ;;
  _ <- passert (w <=? length d)%nat ;;
  Ok (firstn w d, skipn w d).
(** Slab::new, [critbit.rs:293-303] *)
Definition b_slab (r : bytes) : res slab :=
  _ <- passert (32 <=? length r)%nat ;;
  match split slab_head r with
  | [bump; fl; fh; root; leafs] => Ok (mkSlab bump fl fh root leafs (map dec_node (records 72 (skipn 32 r))))
  | _ => Panic
  end.
(** load_bids_mut, load_asks_mut, [state.rs:457-475] *)
Definition side_flag (sd : side) : Z := match sd with Bid => AF_Bids | Ask => AF_Asks end.
Definition b_book (sd : side) (b : bytes) : res slab :=
  '(h, r) <- strip 8 b ;;
  let f := num h 0 8 in
  _ <- passert (flags_known f) ;;
  _ <- check (f =? AF_Initialized + side_flag sd) EAssert ;;
  b_slab r.
(** load_request_queue_mut, load_event_queue_mut, [state.rs:477-499] *)
Definition b_req_q (b : bytes) : res (Z * Z) :=
  '(h, r) <- strip 32 b ;;
  let f := num h 0 8 in
  _ <- passert (flags_known f) ;;
  _ <- check (f =? AF_Initialized + AF_RequestQueue) EAssert ;;
  Ok (num h 16 8, num h 24 8).
Definition b_event_q (b : bytes) : res (queue event) :=
  '(h, r) <- strip 32 b ;;
  let f := num h 0 8 in
  _ <- passert (flags_known f) ;;
  _ <- check (f =? AF_Initialized + AF_EventQueue) EAssert ;;
  Ok (mkQueue (num h 8 8) (num h 16 8) (num h 24 8) (map dec_event (records 88 r))).
(** load_orders_mut up to the record, [state.rs:164-170]: the padding is written, not checked *)
Definition b_orders (b : bytes) : res open_orders :=
  '(d, _) <- init_padding b ;;
  _ <- passert (length d =? 3216)%nat ;;
  Ok (dec_oo d).
(** load_orders_mut, [state.rs:156-198] *)
Definition b_load_orders (b : bytes) (prog_ok : bool) (exempt : clock -> bool) (m : market) (owner : option Z) (rent : option clock) (auth : option Z) : res open_orders :=
  _ <- check prog_ok EAssert ;;
  oo <- b_orders b ;;
  oo1 <- (if oo_flags oo =? 0 then
            _ <- check (opt_eqb auth (oo_authority m)) EInvalidOpenOrdersAuthority ;;
            c <- ok_or rent ERentNotProvided ;;
            w <- ok_or owner EOwnerNotProvided ;;
            _ <- check (exempt c) EOrdersNotRentExempt ;;
            oo_init oo (m_own m) w
          else Ok oo) ;;
  _ <- oo_check_flags oo1 ;;
  _ <- check (oo_market oo1 =? m_own m) EWrongOrdersAccount ;;
  _ <- check (match owner with Some w => oo_owner oo1 =? w | None => true end) EWrongOrdersAccount ;;
  Ok oo1.
(** The check of InitializeMarket on the bytes of its five accounts, [state.rs:1647-1656] *)
Definition b_fresh (b : bytes) : bool :=
  (length b mod 8 =? 4)%nat && (20 <=? length b)%nat &&
  same_bytes (firstn 5 b) (repeat 0 5) && same_bytes (firstn 8 (skipn 5 b)) (repeat 0 8) && same_bytes (skipn (length b - 7) b) (repeat 0 7).

(** ** What InitializeMarket writes, [state.rs:3499-3610] *)
Definition framed (d : bytes) : bytes := HEAD ++ d ++ TAIL.
Definition put_head (fs : list fld) (zs : list Z) (d : bytes) : bytes := join fs zs ++ skipn (size fs) d.
Definition init_req_q (b : bytes) : bytes := framed (put_head queue_head [AF_Initialized + AF_RequestQueue; 0; 0; 0] (inside b)).
Definition init_event_q (b : bytes) : bytes := framed (put_head queue_head [AF_Initialized + AF_EventQueue; 0; 0; 0] (inside b)).
Definition init_book (sd : side) (b : bytes) : bytes := framed (put_head [U 8] [AF_Initialized + side_flag sd] (inside b)).

(** ** The view of an account's bytes *)
Definition all_zero (b : bytes) : bool := forallb (fun x => x =? 0) b.
Definition view (b : bytes) : adata :=
  if all_zero b then DZero
  else match check_padding b with
  | Ok d =>
      let f := num d 0 8 in
      if (length d =? 376)%nat && existsb (Z.eqb f) [3; 131] then DMarket (dec_market d)
      else if (length d =? 1464)%nat && existsb (Z.eqb f) [515; 1539; 643; 1667] then DMarket (dec_market2 d)
      else if (length d =? 3216)%nat && existsb (Z.eqb f) [5; 256] then DOO (dec_oo d)
      else if (32 <=? length d)%nat && (f =? 9) then DReqQ (num d 16 8, num d 24 8)
      else if (32 <=? length d)%nat && (f =? 17) then DEventQ (mkQueue (num d 8 8) (num d 16 8) (num d 24 8) (map dec_event (records 88 (skipn 32 d))))
      else if (40 <=? length d)%nat && (f =? 33) then match b_slab (skipn 8 d) with Ok x => DSlab Bid x | _ => DOther end
      else if (40 <=? length d)%nat && (f =? 65) then match b_slab (skipn 8 d) with Ok x => DSlab Ask x | _ => DOther end
      else DOther
  | _ => DOther
  end.
