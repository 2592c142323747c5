(** Account parsing and processing of every instruction, dex/src/state.rs:1442-3610, on the store.
    An instruction returns the new store; on [Err] or [Panic] the runtime drops all its effects.
    Error codes of malformed accounts are not distinguished exactly. *)
From Verif Require Import Base Fees Queue Codec Critbit Market Matching Core Instr Store.

(** ** Token movements *)
(** invoke_spl_token of a deposit with the balance check around it, [state.rs:2796-2824, 3374-3407].  [held] are the
    accounts the instruction has borrowed mutably: [invoke_signed] borrows every account it passes on, so the depositor
    must be none of them. *)
Definition transfer_in (s : store) (held : list Z) (src vault auth amt : Z) : res store :=
  if amt =? 0 then Ok s
  else
    b0 <- balance s vault ;;
    _ <- check (negb (existsb (Z.eqb auth) held)) ETransferFailed ;;
    s1 <- spl_transfer s src vault auth true amt ;;
    b1 <- balance s1 vault ;;
    _ <- check (b1 - b0 =? amt) EAssert ;;
    Ok s1.
(** send_from_vault, [state.rs:1409-1434] *)
Definition send_from_vault (s : store) (vault dst signer amt : Z) : res store :=
  match spl_transfer s vault dst signer true amt with Ok s' => Ok s' | _ => Err ETransferFailed end.

(** ** Writing the matching state back *)
Definition write_obs (s : store) (mkt bids asks evq : Z) (o : obs) : store :=
  put_data (put_data (put_data (put_data s mkt (DMarket (ob_mkt o)))
    bids (DSlab Bid (ob_bids o))) asks (DSlab Ask (ob_asks o))) evq (DEventQ (ob_eq o)).

(** ** NewOrderV3, [state.rs:1814-1923, 3223-3410] *)
Definition proc_new_order (e : env) (c : clock) (s : store) (ix : order_ix) (ms : list meta) : res store :=
  match ms with
  | mkt :: oa :: rqa :: eqa :: ba :: aa :: payer :: owner :: cv :: pv :: spl :: _rent :: disc =>
      da <- load_discount s disc ;;
      m <- load_market e s (mk mkt) false ;;
      _ <- check_signer owner ;;
      t <- load_fee_tier (m_own m) (mk owner) da ;;
      rq <- load_req_q s m (mk rqa) ;;
      q <- load_event_q s m (mk eqa) ;;
      pt <- load_token s (mk payer) ;;
      _ <- check (t_mint pt =? match oi_side ix with Bid => m_pc_mint m | Ask => m_coin_mint m end) EAssert ;;
      _ <- load_coin_vault s m (mk cv) ;;
      _ <- load_pc_vault s m (mk pv) ;;
      _ <- check_enabled m ;;
      _ <- check_spl (mk spl) ;;
      bids <- load_slab s Bid (m_bids m) (mk ba) ;;
      asks <- load_slab s Ask (m_asks m) (mk aa) ;;
      oo <- load_orders e s m (mk oa) (Some (mk owner)) (Some c) None ;;
      '(o', rq', oo', deposit) <- new_order_core (mkObs bids asks m q) rq oo (mk oa) t ix (t_amount pt) (c_now c) ;;
      let s1 := put_data (put_data (write_obs s (mk mkt) (mk ba) (mk aa) (mk eqa) o')
                  (mk rqa) (DReqQ rq')) (mk oa) (DOO oo') in
      transfer_in s1 (map mk [mkt; rqa; eqa; ba; aa]) (mk payer) (match oi_side ix with Bid => mk pv | Ask => mk cv end) (mk owner) deposit
  | _ => Err EAssert
  end.

(** ** SendTake, [state.rs:1721-1812, 2683-2845] *)
Definition proc_send_take (e : env) (s : store) (ix : take_ix) (ms : list meta) : res store :=
  match ms with
  | mkt :: rqa :: eqa :: ba :: aa :: cw :: pw :: signer :: cv :: pv :: spl :: vs :: disc =>
      da <- load_discount s disc ;;
      m <- load_market e s (mk mkt) false ;;
      _ <- check_signer signer ;;
      t <- load_fee_tier (m_own m) (mk signer) da ;;
      rq <- load_req_q s m (mk rqa) ;;
      q <- load_event_q s m (mk eqa) ;;
      _ <- load_coin_wallet s m (mk cw) ;;
      _ <- load_pc_wallet s m (mk pw) ;;
      _ <- load_coin_vault s m (mk cv) ;;
      _ <- load_pc_vault s m (mk pv) ;;
      _ <- check_spl (mk spl) ;;
      _ <- check_vault_signer e m (mk vs) ;;
      bids <- load_slab s Bid (m_bids m) (mk ba) ;;
      asks <- load_slab s Ask (m_asks m) (mk aa) ;;
      '(o', rq', deposit, withdraw) <- send_take_core (mkObs bids asks m q) rq t ix ;;
      let s1 := put_data (write_obs s (mk mkt) (mk ba) (mk aa) (mk eqa) o') (mk rqa) (DReqQ rq') in
      let '(src, dv, wv, dst) := match ti_side ix with
        | Bid => (mk pw, mk pv, mk cv, mk cw)
        | Ask => (mk cw, mk cv, mk pv, mk pw) end in
      s2 <- transfer_in s1 (map mk [mkt; rqa; eqa; ba; aa]) src dv (mk signer) deposit ;;
      if withdraw =? 0 then Ok s2 else send_from_vault s2 wv dst (mk vs) withdraw
  | _ => Err EAssert
  end.

(** ** The three cancels, [state.rs:2034-2223, 2994-3093]: same accounts, same checks *)
Definition proc_cancel (e : env) (s : store) (core : obs -> Z -> open_orders -> res (obs * open_orders)) (ms : list meta) : res store :=
  match ms with
  | mkt :: ba :: aa :: oa :: signer :: eqa :: _ =>
      m <- load_market e s (mk mkt) true ;;
      _ <- check_signer signer ;;
      oo <- load_orders e s m (mk oa) (Some (mk signer)) None None ;;
      bids <- load_slab s Bid (m_bids m) (mk ba) ;;
      asks <- load_slab s Ask (m_asks m) (mk aa) ;;
      q <- load_event_q s m (mk eqa) ;;
      '(o', oo') <- core (mkObs bids asks m q) (mk oa) oo ;;
      Ok (put_data (write_obs s (mk mkt) (mk ba) (mk aa) (mk eqa) o') (mk oa) (DOO oo'))
  | _ => Err EAssert
  end.
Definition proc_cancel_v2 e s sd id ms := proc_cancel e s (fun o k oo => cancel_order_v2 o sd k oo id) ms.
Definition proc_cancel_cid (e : env) (s : store) (cid : Z) (ms : list meta) : res store :=
  _ <- check (negb (cid =? 0)) EAssert ;;
  proc_cancel e s (fun o k oo => cancel_by_cid_core o k oo cid) ms.
Definition proc_cancel_cids (e : env) (s : store) (cids : list Z) (ms : list meta) : res store :=
  proc_cancel e s (fun o k oo => cancel_by_cids_core o k oo (filter (fun x => negb (x =? 0)) cids)) ms.

(** ** Replace, [state.rs:1925-1959, 3412-3440] *)
Fixpoint proc_new_orders (e : env) (c : clock) (s : store) (ixs : list order_ix) (ms : list meta) : res store :=
  match ixs with
  | [] => Ok s
  | ix :: r => s1 <- proc_new_order e c s ix ms ;; proc_new_orders e c s1 r ms
  end.
Fixpoint nths {A} (l : list A) (is : list nat) : option (list A) :=
  match is with
  | [] => Some []
  | i :: r => match nth_error l i, nths l r with Some x, Some y => Some (x :: y) | _, _ => None end
  end.
Definition proc_replace (e : env) (c : clock) (s : store) (ixs : list order_ix) (ms : list meta) : res store :=
  cms <- unwrap (nths ms [0; 4; 5; 1; 7; 3]%nat) ;;
  s1 <- proc_cancel_cids e s (firstn 8 (map oi_cid ixs)) cms ;;
  proc_new_orders e c s1 ixs ms.

(** ** SettleFunds, [state.rs:2225-2298, 2916-2992] *)
Definition proc_settle (e : env) (s : store) (ms : list meta) : res store :=
  match ms with
  | mkt :: oa :: owner :: cv :: pv :: cw :: pw :: vs :: spl :: refs =>
      _ <- check_spl (mk spl) ;;
      m <- load_market e s (mk mkt) true ;;
      _ <- check_signer owner ;;
      _ <- load_coin_vault s m (mk cv) ;;
      _ <- load_pc_vault s m (mk pv) ;;
      _ <- load_coin_wallet s m (mk cw) ;;
      _ <- load_pc_wallet s m (mk pw) ;;
      ref <- match refs with
             | [] => Ok None
             | [r] => _ <- load_pc_wallet s m (mk r) ;; Ok (Some (mk r))
             | _ => Err EAssert
             end ;;
      _ <- check_vault_signer e m (mk vs) ;;
      oo <- load_orders e s m (mk oa) (Some (mk owner)) None None ;;
      '(m', oo', ca, pa, rb) <- settle_core m oo (match ref with Some _ => true | None => false end) ;;
      let s1 := put_data (put_data s (mk mkt) (DMarket m')) (mk oa) (DOO oo') in
      s2 <- send_from_vault s1 (mk cv) (mk cw) (mk vs) ca ;;
      s3 <- send_from_vault s2 (mk pv) (mk pw) (mk vs) pa ;;
      match ref, rb with
      | Some r, Some x => send_from_vault s3 (mk pv) r (mk vs) x
      | _, _ => Ok s3
      end
  | _ => Err EAssert
  end.

(** ** DisableMarket, SweepFees, [state.rs:2300-2365, 3442-3475] *)
Definition disable_authority : Z := 82046055541990174724189878078911497047092872731685337474012754407765962964506.
Definition fee_sweeper : Z := 48874444751222627368957057403682612855800943335831178182211820792126596248100.
Definition proc_disable (e : env) (s : store) (ms : list meta) : res store :=
  match ms with
  | [mkt; signer] =>
      m <- load_market e s (mk mkt) false ;;
      _ <- check_signer signer ;;
      _ <- check (mk signer =? disable_authority) EAssert ;;
      Ok (put_data s (mk mkt) (DMarket (set_flags m (Z.lor (m_flags m) AF_Disabled))))
  | _ => Err EAssert
  end.
Definition proc_sweep (e : env) (s : store) (ms : list meta) : res store :=
  match ms with
  | [mkt; pv; auth; pw; vs; spl] =>
      m <- load_market e s (mk mkt) false ;;
      _ <- load_pc_vault s m (mk pv) ;;
      _ <- load_pc_wallet s m (mk pw) ;;
      _ <- check_vault_signer e m (mk vs) ;;
      _ <- check_spl (mk spl) ;;
      _ <- check_signer auth ;;
      _ <- check (mk auth =? fee_sweeper) EAssert ;;
      send_from_vault (put_data s (mk mkt) (DMarket (set_pc_fees m 0))) (mk pv) (mk pw) (mk vs) (m_pc_fees m)
  | _ => Err EAssert
  end.

(** ** CloseOpenOrders, InitOpenOrders, [state.rs:2367-2471, 2892-2914].  Closing into the account
    itself would destroy its lamports, which the runtime rejects. *)
Definition proc_close (e : env) (s : store) (ms : list meta) : res store :=
  match ms with
  | [oa; owner; dest; mkt] =>
      _ <- check_signer owner ;;
      m <- load_market e s (mk mkt) true ;;
      oo <- load_orders e s m (mk oa) (Some (mk owner)) None None ;;
      oo' <- close_core oo ;;
      let lam := a_lamports (sget s (mk oa)) in
      _ <- check (negb (mk dest =? mk oa) || (lam =? 0)) EOther ;;
      sum <- cadd (a_lamports (sget s (mk dest))) lam ;;
      Ok (put_data (put_lamports (put_lamports s (mk dest) sum) (mk oa) 0) (mk oa) (DOO oo'))
  | _ => Err EAssert
  end.
Definition proc_init_oo (e : env) (c : clock) (s : store) (ms : list meta) : res store :=
  match ms with
  | oa :: owner :: mkt :: _rent :: rest =>
      auth <- match rest with
              | [] => Ok None
              | [a] => _ <- check_signer a ;; Ok (Some (mk a))
              | _ => Err EAssert
              end ;;
      _ <- check_signer owner ;;
      m <- load_market e s (mk mkt) false ;;
      oo <- load_orders e s m (mk oa) (Some (mk owner)) (Some c) auth ;;
      Ok (put_data s (mk oa) (DOO oo))
  | _ => Err EAssert
  end.

(** ** Prune, [state.rs:2473-2527, 2847-2890] *)
Definition proc_prune (e : env) (s : store) (limit : Z) (ms : list meta) : res store :=
  match ms with
  | [mkt; ba; aa; auth; oa; owner; eqa] =>
      _ <- check_signer auth ;;
      m <- load_market e s (mk mkt) false ;;
      _ <- check (opt_eqb (prune_authority m) (Some (mk auth))) EAssert ;;
      oo <- load_orders e s m (mk oa) (Some (mk owner)) None None ;;
      bids <- load_slab s Bid (m_bids m) (mk ba) ;;
      asks <- load_slab s Ask (m_asks m) (mk aa) ;;
      q <- load_event_q s m (mk eqa) ;;
      '(o', oo') <- prune_core (mkObs bids asks m q) oo (mk oa) limit ;;
      Ok (put_data (write_obs s (mk mkt) (mk ba) (mk aa) (mk eqa) o') (mk oa) (DOO oo'))
  | _ => Err EAssert
  end.

(** ** ConsumeEvents and ConsumeEventsPermissioned, [state.rs:1961-2032, 3098-3215] *)
(** The standard library's slice binary search (Rust 1.52 and later), found or not. *)
Fixpoint bsearch (fuel : nat) (ks : list Z) (x left right : Z) : bool :=
  match fuel with
  | O => false
  | S f =>
      if left <? right then
        let mid := left + (right - left) / 2 in
        match znth ks mid with
        | None => false
        | Some k => if k <? x then bsearch f ks x (mid + 1) right
                    else if x <? k then bsearch f ks x left mid
                    else true
        end
      else false
  end.
Definition binary_search (ks : list Z) (x : Z) : bool := bsearch (S (length ks)) ks x 0 (zlen ks).
Fixpoint consume_loop (e : env) (s : store) (m : market) (q : queue event) (oos : list Z) (n : nat) : res (store * queue event) :=
  match n with
  | O => Ok (s, q)
  | S n' =>
      oev <- peek_front q ;;
      match oev with
      | None => Ok (s, q)
      | Some ev =>
          v <- event_as_view ev ;;
          if binary_search oos (e_owner ev) then
            oo <- load_orders e s m (e_owner ev) None None None ;;
            oo' <- consume_event oo v ;;
            r <- pop_front q ;;
            q' <- ok_or r EConsumeFailure ;;
            consume_loop e (put_data s (e_owner ev) (DOO oo')) m (fst q') oos n'
          else Ok (s, q)
      end
  end.
Definition consume_with (e : env) (s : store) (m : market) (eqa : Z) (oos : list Z) (limit : Z) : res store :=
  q <- load_event_q s m eqa ;;
  '(s', q') <- consume_loop e s m q oos (Z.to_nat limit) ;;
  Ok (put_data s' eqa (DEventQ q')).
Definition proc_consume (e : env) (s : store) (limit : Z) (ms : list meta) : res store :=
  match rev ms with
  | _ :: _ :: eqa :: mkt :: ((_ :: _) as r) =>
      m <- load_market e s (mk mkt) true ;;
      _ <- check (match crank_authority m with None => true | Some _ => false end) EAssert ;;
      consume_with e s m (mk eqa) (map mk (rev r)) limit
  | _ => Err EAssert
  end.
Definition proc_consume_perm (e : env) (s : store) (limit : Z) (ms : list meta) : res store :=
  match rev ms with
  | auth :: eqa :: mkt :: ((_ :: _) as r) =>
      m <- load_market e s (mk mkt) true ;;
      _ <- check_signer auth ;;
      _ <- check (opt_eqb (crank_authority m) (Some (mk auth))) EAssert ;;
      consume_with e s m (mk eqa) (map mk (rev r)) limit
  | _ => Err EAssert
  end.

(** ** InitializeMarket, [state.rs:1600-1719, 3477-3610] *)
(** [state.rs:1644-1656]: owned by the program, size 4 mod 8 and at least 20, header bytes zero *)
Definition check_fresh (e : env) (s : store) (k : Z) : res unit :=
  let a := sget s k in
  _ <- check (a_prog a =? e_prog e) EAssert ;;
  _ <- check ((a_len a mod 8 =? 4) && (20 <=? a_len a)) EAssert ;;
  check (match a_data a with DZero => true | _ => false end) EAssert.
Definition check_exempt (c : clock) (s : store) (k : Z) : res unit :=
  check (c_exempt c (a_lamports (sget s k)) (a_len (sget s k))) EAssert.
(** [state.rs:1663-1683] *)
Definition check_vault (s : store) (pda vault mint : Z) : res unit :=
  t <- load_token s vault ;;
  _ <- load_mint s mint ;;
  _ <- check (t_owner t =? pda) EAssert ;;
  _ <- check (match t_delegate t with None => true | _ => false end) EAssert ;;
  _ <- check (match t_close t with None => true | _ => false end) EAssert ;;
  check (mint =? t_mint t) EAssert.
(** How many entries fit in an account of [len] bytes: 12 bytes of padding, a header (plus the slab's
    own header), entries of 80, 88 and 72 bytes; the slop is cut off. *)
Definition req_slots (len : Z) : Z := (len - 44) / 80.
Definition event_slots (len : Z) : Z := (len - 44) / 88.
Definition slab_slots (len : Z) : Z := (len - 52) / 72.
Definition MARKET_V1_LEN : Z := 388.
Definition MARKET_V2_LEN : Z := 1476.
Definition blank_event : event := mkEvent 0 0 0 0 0 0 0 0 0.
Fixpoint each (f : Z -> res unit) (ks : list Z) : res unit :=
  match ks with [] => Ok tt | k :: r => _ <- f k ;; each f r end.
Definition key_in (k : Z) (ks : list Z) : bool := existsb (Z.eqb k) ks.
Definition proc_init_market (e : env) (c : clock) (s : store) (ix : init_ix) (ms : list meta) : res store :=
  match map mk ms with
  | mkt :: rqa :: eqa :: ba :: aa :: cv :: pv :: cm :: pm :: _rent :: auths =>
      _ <- check (zlen auths <=? 3) EAssert ;;
      _ <- each (check_exempt c s) [rqa; eqa; ba; aa; cv; pv; cm; pm] ;;
      _ <- each (check_fresh e s) [mkt; rqa; eqa; ba; aa] ;;
      pda <- ok_or (e_pda e (ii_nonce ix) mkt) EInvalidArgument ;;
      _ <- check_vault s pda cv cm ;;
      _ <- check_vault s pda pv pm ;;
      (* the five accounts are borrowed at the same time, except the two books *)
      _ <- check (negb (key_in rqa [mkt; eqa; ba; aa]) && negb (key_in eqa [mkt; ba; aa])) EOther ;;
      _ <- check (1 <=? req_slots (a_len (sget s rqa))) EReqQueueEmpty ;;
      _ <- check (128 <=? event_slots (a_len (sget s eqa))) EEventQueueTooSmall ;;
      let bs := slab_new (Z.to_nat (slab_slots (a_len (sget s ba)))) in
      let as_ := slab_new (Z.to_nat (slab_slots (a_len (sget s aa)))) in
      _ <- assert_minimum_capacity bs 100 ;;
      _ <- assert_minimum_capacity as_ 100 ;;
      let key i := nth i auths 0 in
      let flags := match auths with
        | [] => Z.lor AF_Initialized AF_Market
        | [_] | [_; _] => Z.lor (Z.lor AF_Initialized AF_Market) AF_Permissioned
        | _ => Z.lor (Z.lor (Z.lor AF_Initialized AF_Market) AF_Permissioned) AF_CrankAuth end in
      _ <- check (a_len (sget s mkt) =? match auths with [] => MARKET_V1_LEN | _ => MARKET_V2_LEN end) EAssert ;;
      let m := mkMarket flags mkt (ii_nonce ix) cm pm cv 0 0 pv 0 0 (ii_dust ix) rqa eqa ba aa
                 (ii_coin_lot ix) (ii_pc_lot ix) (ii_fee_rate ix) 0 (key 0%nat) (key 1%nat) (key 2%nat) in
      Ok (put_data (put_data (put_data (put_data (put_data s
            rqa (DReqQ (0, 0)))
            eqa (DEventQ (mkQueue 0 0 0 (repeat blank_event (Z.to_nat (event_slots (a_len (sget s eqa))))))))
            ba (DSlab Bid bs)) aa (DSlab Ask as_)) mkt (DMarket m))
  | _ => Err EAssert
  end.

(** ** State::process, [state.rs:2550-2680] *)
Definition process (e : env) (c : clock) (s : store) (i : instr) (ms : list meta) : res store :=
  match i with
  | IInitMarket ix => proc_init_market e c s ix ms
  | INewOrder _ => Panic
  | IMatchOrders _ => Ok s
  | IConsumeEvents l => proc_consume e s l ms
  | ICancelOrder _ _ _ _ => Panic
  | ISettleFunds => proc_settle e s ms
  | ICancelByCidOld _ => Panic
  | IDisableMarket => proc_disable e s ms
  | ISweepFees => proc_sweep e s ms
  | INewOrderV2 _ _ => Panic
  | INewOrderV3 ix => proc_new_order e c s ix ms
  | ICancelV2 sd id => proc_cancel_v2 e s sd id ms
  | ICancelByCid cid => proc_cancel_cid e s cid ms
  | ISendTake ix => proc_send_take e s ix ms
  | ICloseOO => proc_close e s ms
  | IInitOO => proc_init_oo e c s ms
  | IPrune l => proc_prune e s l ms
  | IConsumePermissioned l => proc_consume_perm e s l ms
  | ICancelByCids cids => proc_cancel_cids e s cids ms
  | IReplaceOne ix => proc_replace e c s [ix] ms
  | IReplaceMany ixs => proc_replace e c s ixs ms
  end.
Definition process_bytes (e : env) (c : clock) (s : store) (b : bytes) (ms : list meta) : res store :=
  i <- ok_or (unpack b) EInvalidArgument ;; process e c s i ms.
(** One transaction of one instruction: the runtime keeps the accounts only on success. *)
Definition transact (e : env) (c : clock) (s : store) (b : bytes) (ms : list meta) : store :=
  match process_bytes e c s b ms with Ok s' => s' | _ => s end.
