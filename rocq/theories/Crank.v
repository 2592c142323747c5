(** The crank program dex/crank/src/lib.rs: reading the accounts of a market off the chain and building the transactions that
    consume its events, list it, trade on it and settle.  The network is outside: what the program fetches are arguments, what it
    sends are results.  Every [Err] of the program is [EAssert]; a failed slice, [assert!] or division is [Panic].
    Key files, logging, the thread pool and the choice of random keys are left out. *)
From Verif Require Import Base Fees Queue Codec Critbit Market Matching Core Instr Store Process Layout Client.

(** ** Reading accounts *)
(** remove_dex_account_padding, [lib.rs:393-421]; the copy of unaligned words keeps the bytes *)
Definition c_inner (b : bytes) : res bytes :=
  _ <- passert (5 <=? length b)%nat ;;
  _ <- check (12 <=? length b)%nat EAssert ;;
  _ <- check (same_bytes (firstn 5 b) HEAD) EAssert ;;
  _ <- check (same_bytes (skipn (length b - 7) b) TAIL) EAssert ;;
  let d := firstn (length b - 12) (skipn 5 b) in
  _ <- check (length d mod 8 =? 0)%nat EAssert ;;
  Ok d.
(** MarketPubkeys, [lib.rs:381-391] *)
Record mkeys := mkKeys { k_market : Z; k_req_q : Z; k_event_q : Z; k_bids : Z; k_asks : Z; k_coin_vault : Z; k_pc_vault : Z; k_vault_signer : Z }.
(** get_keys_for_market, [lib.rs:423-472]; a pedantic cast needs the exact length *)
Definition c_market (b : bytes) : res market :=
  d <- c_inner b ;;
  _ <- check (13 <=? length b)%nat EAssert ;;
  let f := num b 5 8 in
  _ <- check (flags_known f) EAssert ;;
  if has_flag f AF_Permissioned then
    _ <- check (length d =? 1464)%nat EAssert ;;
    let m := dec_market2 d in _ <- flags_v2 (m_flags m) true ;; Ok m
  else
    _ <- check (length d =? 376)%nat EAssert ;;
    let m := dec_market d in _ <- flags_v1 (m_flags m) true ;; Ok m.
Definition c_keys (e : env) (k : Z) (b : bytes) : res mkeys :=
  m <- c_market b ;;
  vs <- ok_or (e_pda e (m_nonce m) k) EAssert ;;
  _ <- passert (m_own m =? k) ;;
  Ok (mkKeys k (m_req_q m) (m_event_q m) (m_bids m) (m_asks m) (m_coin_vault m) (m_pc_vault m) vs).
(** parse_event_queue, [lib.rs:474-484]: the events from the head to the end of the buffer and those from its start; the guard of
    the cast asks for one event at least *)
Definition c_events (d : bytes) : res (list event * list event) :=
  _ <- passert (32 <=? length d)%nat ;;
  let head := num d 8 8 in
  let count := num d 16 8 in
  let evs := map dec_event (records 88 (skipn 32 d)) in
  _ <- check (1 <=? length evs)%nat EAssert ;;
  _ <- passert (head <=? zlen evs) ;;
  let head_seg := skipn (Z.to_nat head) evs in
  let tail_seg := firstn (Z.to_nat head) evs in
  let head_len := Z.min (zlen head_seg) count in
  let tail_len := count - head_len in
  _ <- passert (tail_len <=? zlen tail_seg) ;;
  Ok (firstn (Z.to_nat head_len) head_seg, firstn (Z.to_nat tail_len) tail_seg).

(** ** Consuming events *)
(** sort_unstable and dedup of a vector, insert of a BTreeSet *)
Fixpoint c_insert (x : Z) (l : list Z) : list Z := match l with [] => [x] | y :: r => if x <=? y then x :: l else y :: c_insert x r end.
Fixpoint c_sort (l : list Z) : list Z := match l with [] => [] | x :: r => c_insert x (c_sort r) end.
Fixpoint c_dedup (l : list Z) : list Z :=
  match l with x :: ((y :: _) as r) => if x =? y then c_dedup r else x :: c_dedup r | _ => l end.
Fixpoint c_add (x : Z) (l : list Z) : list Z :=
  match l with [] => [x] | y :: r => if x <? y then x :: l else if x =? y then l else y :: c_add x r end.
(** The instruction both ways of consuming end in, [lib.rs:614-629, 718-724, 805-820] *)
Definition c_consume (prog : Z) (oos : list Z) (ks : mkeys) (coin_wallet pc_wallet limit : Z) : cinstr :=
  mkCI prog (pack (IConsumeEvents (limit mod 65536))) (map rw oos ++ [rw (k_market ks); rw (k_event_q ks); rw coin_wallet; rw pc_wallet]).
(** consume_events_instruction, [lib.rs:779-823] *)
Definition c_once (prog : Z) (ks : mkeys) (coin_wallet pc_wallet : Z) (eq_bytes : bytes) : res (option cinstr) :=
  d <- c_inner eq_bytes ;;
  '(seg0, seg1) <- c_events d ;;
  if (length seg0 + length seg1 =? 0)%nat then Ok None
  else
    let oos := firstn 32 (c_dedup (c_sort (map e_owner (seg0 ++ seg1)))) in
    Ok (Some (c_consume prog oos ks coin_wallet pc_wallet (zlen oos + 4))).
(** The options of consume_events_loop, [lib.rs:515-527] *)
Record c_opts := mkOpts { co_workers : Z; co_per_worker : Z; co_accounts : Z; co_max_len : Z }.
(** The accounts it names, [lib.rs:588-597] *)
Fixpoint c_used (n : Z) (used owners : list Z) : list Z :=
  match owners with
  | [] => used
  | x :: r => let used' := c_add x used in if n <=? zlen used' then used' else c_used n used' r
  end.
(** One turn of the loop, [lib.rs:538-666]: the transactions sent.  [slot] is that of the fetched event queue, [cranked] the highest
    one already served, [recent] tells whether the last turn is more recent than the configured delay.  The request queue is read as
    if it held events.  Each transaction also pays its sender a few lamports from itself, to be different from the others. *)
Definition c_turn (o : c_opts) (prog : Z) (ks : mkeys) (coin_wallet pc_wallet slot cranked : Z) (recent : bool) (eq_bytes rq_bytes : bytes) : res (list cinstr) :=
  if slot <=? cranked then Ok []
  else
    d <- c_inner eq_bytes ;;
    '(seg0, seg1) <- c_events d ;;
    rd <- c_inner rq_bytes ;;
    _ <- c_events rd ;;
    let n := zlen seg0 + zlen seg1 in
    if n =? 0 then Ok []
    else if recent && (n <? co_max_len o) then Ok []
    else
      let oos := c_used (co_accounts o) [] (map e_owner (seg0 ++ seg1)) in
      _ <- passert (negb (co_per_worker o =? 0)) ;;
      Ok (repeat (c_consume prog oos ks coin_wallet pc_wallet (co_per_worker o)) (Z.to_nat (Z.min (co_workers o) (2 * n / co_per_worker o + 1)))).
(** What the monitor shows, [lib.rs:1573-1593] *)
Definition c_length (eq_bytes : bytes) : res Z :=
  d <- c_inner eq_bytes ;; '(seg0, seg1) <- c_events d ;; Ok (zlen seg0 + zlen seg1).

(** ** Trading *)
(** The instruction of place_order, [lib.rs:1169-1187] *)
Definition c_place (prog : Z) (ks : mkeys) (oo wallet payer : Z) (ix : order_ix) : cinstr :=
  mkCI prog (pack (INewOrderV3 ix))
    [rw (k_market ks); rw oo; rw (k_req_q ks); rw (k_event_q ks); rw (k_bids ks); rw (k_asks ks); rw wallet; sg payer; rw (k_coin_vault ks); rw (k_pc_vault ks); ro spl_id; ro rent_id].
(** settle_funds, [lib.rs:1202-1226] *)
Definition c_settle (prog : Z) (ks : mkeys) (payer : Z) (signer : option Z) (oo coin_wallet pc_wallet : Z) : cinstr :=
  mkCI prog (pack ISettleFunds)
    [rw (k_market ks); rw oo; sg (match signer with Some x => x | None => payer end); rw (k_coin_vault ks); rw (k_pc_vault ks); rw coin_wallet; rw pc_wallet; ro (k_vault_signer ks); ro spl_id].
(** match_orders, [lib.rs:1421-1443] *)
Definition c_match (prog : Z) (ks : mkeys) (coin_wallet pc_wallet : Z) : cinstr :=
  mkCI prog (pack (IMatchOrders 2)) (map rw [k_market ks; k_req_q ks; k_event_q ks; k_bids ks; k_asks ks; coin_wallet; pc_wallet]).
(** cancel_order_by_client_order_id, cancel_orders_by_client_order_ids, close_open_orders, [lib.rs:999-1091] *)
Definition c_cancel_cid (prog : Z) (ks : mkeys) (owner oo cid : Z) : cinstr := b_cancel_by_client_id prog (k_market ks) (k_bids ks) (k_asks ks) oo owner (k_event_q ks) cid.
Definition c_cancel_cids (prog : Z) (ks : mkeys) (owner oo : Z) (cids : list Z) : cinstr := b_cancel_by_client_ids prog (k_market ks) (k_bids ks) (k_asks ks) oo owner (k_event_q ks) cids.
Definition c_close (prog : Z) (ks : mkeys) (owner oo : Z) : cinstr := b_close_open_orders prog oo owner owner (k_market ks).

(** ** Creating accounts *)
(** The system program's create_account: the payer must afford it and the new account must not exist yet *)
Record creation := mkCreate { cr_key : Z; cr_lamports : Z; cr_space : Z; cr_owner : Z }.
Definition sys_create (s : store) (payer : Z) (cr : creation) : res store :=
  let a := sget s (cr_key cr) in
  let p := sget s payer in
  _ <- check ((a_prog a =? 0) && (a_len a =? 0) && (a_lamports a =? 0)) EAssert ;;
  _ <- check ((a_prog p =? 0) && (a_len p =? 0) && (cr_lamports cr <=? a_lamports p)) EAssert ;;
  Ok (sput (sput s payer (set_lamports p (a_lamports p - cr_lamports cr))) (cr_key cr) (mkAccount (cr_owner cr) (cr_lamports cr) (cr_space cr) DZero)).
Fixpoint sys_creates (s : store) (payer : Z) (crs : list creation) : res store :=
  match crs with [] => Ok s | cr :: r => s1 <- sys_create s payer cr ;; sys_creates s1 payer r end.
(** create_dex_account, [lib.rs:1403-1419]; [rent] is the node's answer to the rent-exempt minimum *)
Definition c_create (rent : Z -> Z) (prog key len : Z) : creation := mkCreate key (rent (len + 12)) (len + 12) prog.
(** The search for the nonce of the vaults' owner, [lib.rs:1374-1383] *)
Fixpoint c_nonce (e : env) (k : Z) (fuel : nat) (i : Z) : res (Z * Z) :=
  match fuel with
  | O => Panic
  | S f => match e_pda e i k with Some p => Ok (i, p) | None => c_nonce e k f (i + 1) end
  end.
(** gen_listing_params, [lib.rs:1362-1401]; the five keys are drawn at random *)
Definition c_listing (e : env) (rent : Z -> Z) (market req_q event_q bids asks : Z) : res (list creation * (Z * Z)) :=
  n <- c_nonce e market 100 0 ;;
  Ok ([c_create rent (e_prog e) market 376; c_create rent (e_prog e) req_q 640; c_create rent (e_prog e) event_q 1048576;
       c_create rent (e_prog e) bids 65536; c_create rent (e_prog e) asks 65536], n).
(** list_market, [lib.rs:1258-1350], once the two vaults exist: the accounts to create, the instruction, and the keys it returns *)
Definition c_list_market (e : env) (rent : Z -> Z) (market req_q event_q bids asks coin_mint pc_mint coin_vault pc_vault coin_lot pc_lot : Z) : res (list creation * cinstr * mkeys) :=
  '(crs, (nonce, signer)) <- c_listing e rent market req_q event_q bids asks ;;
  Ok (crs, b_initialize_market market (e_prog e) coin_mint pc_mint coin_vault pc_vault None None None bids asks req_q event_q coin_lot pc_lot nonce 100,
      mkKeys market req_q event_q bids asks coin_vault pc_vault signer).
(** init_open_orders for a new account, [lib.rs:1093-1137] *)
Definition c_init_oo (e : env) (rent : Z -> Z) (ks : mkeys) (owner oo : Z) : creation * cinstr :=
  (c_create rent (e_prog e) oo 3216, b_init_open_orders (e_prog e) oo owner (k_market ks) None).
