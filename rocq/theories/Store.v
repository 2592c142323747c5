(** The accounts of the chain as the program sees them: a key-indexed store, the token program's
    transfer, and the checked loaders of dex/src/state.rs. *)
From Verif Require Import Base Fees Queue Codec Critbit Market Matching.

(** ** Accounts *)
(** An SPL token account (spl-token 3.0 [Account]): state 0 uninitialised, 1 initialised, 2 frozen. *)
Record token := mkToken {
  t_mint : Z; t_owner : Z; t_amount : Z; t_delegate : option Z; t_delegated : Z; t_state : Z; t_close : option Z }.
(** What an account holds.  [DZero] is all-zero data of any length, [DOther] any data none of the
    loaders accepts.  A program other than the dex may hold data that looks like the dex's. *)
Inductive adata :=
| DZero
| DMarket (m : market)
| DReqQ (rq : Z * Z)            (* count, next_seq_num; the entries are never used *)
| DEventQ (q : queue event)
| DSlab (sd : side) (s : slab)
| DOO (oo : open_orders)
| DToken (t : token)
| DMint                          (* an initialised mint *)
| DOther.
Record account := mkAccount { a_prog : Z; a_lamports : Z; a_len : Z; a_data : adata }.
(** A key with no account behind it. *)
Definition no_account : account := mkAccount 0 0 0 DZero.
Definition set_data (a : account) (d : adata) : account := mkAccount (a_prog a) (a_lamports a) (a_len a) d.
Definition set_lamports (a : account) (x : Z) : account := mkAccount (a_prog a) x (a_len a) (a_data a).

Definition store := list (Z * account).
Fixpoint sfind (s : store) (k : Z) : option account :=
  match s with [] => None | (k', a) :: r => if k' =? k then Some a else sfind r k end.
Definition sget (s : store) (k : Z) : account := match sfind s k with Some a => a | None => no_account end.
Fixpoint sput (s : store) (k : Z) (a : account) : store :=
  match s with
  | [] => [(k, a)]
  | (k', a') :: r => if k' =? k then (k, a) :: r else (k', a') :: sput r k a
  end.
Definition put_data (s : store) (k : Z) (d : adata) : store := sput s k (set_data (sget s k) d).
Definition put_lamports (s : store) (k x : Z) : store := sput s k (set_lamports (sget s k) x).

(** An entry of an instruction's account list: key and [is_signer]. *)
Record meta := mkMeta { mk : Z; mk_signer : bool }.

(** The program's surroundings: its own id and the vault signer of (nonce, market), that is
    [create_program_address], [state.rs:1350-1367]. *)
Record env := mkEnv { e_prog : Z; e_pda : Z -> Z -> option Z }.
(** The clock and rent sysvars during one instruction; [c_exempt lamports len]. *)
Record clock := mkClock { c_now : Z; c_exempt : Z -> Z -> bool }.

(** ** The token program (external, spl-token 3.0.0-pre1 processor.rs: process_transfer) *)
Definition spl_id : Z := 66775154015735857583171767488525747667084407289442957419076599694230912601146.
Definition token_at (s : store) (k : Z) : option token :=
  if a_prog (sget s k) =? spl_id then match a_data (sget s k) with DToken t => Some t | _ => None end else None.
Definition set_amount (t : token) (x : Z) : token :=
  mkToken (t_mint t) (t_owner t) x (t_delegate t) (t_delegated t) (t_state t) (t_close t).
Definition use_delegate (t : token) (amt : Z) : token :=
  let left := t_delegated t - amt in
  mkToken (t_mint t) (t_owner t) (t_amount t) (if left =? 0 then None else t_delegate t) left (t_state t) (t_close t).
Definition is_delegate (t : token) (auth : Z) : bool := match t_delegate t with Some d => d =? auth | None => false end.
(** Multisignature owners and the lamports of wrapped SOL are left out.  Amounts are u64 in the code,
    so the first check cannot fail there. *)
Definition spl_transfer (s : store) (src dst auth : Z) (signed : bool) (amt : Z) : res store :=
  _ <- check (0 <=? amt) ETransferFailed ;;
  ts <- ok_or (token_at s src) ETransferFailed ;;
  td <- ok_or (token_at s dst) ETransferFailed ;;
  _ <- check ((t_state ts =? 1) && (t_state td =? 1)) ETransferFailed ;;
  _ <- check (amt <=? t_amount ts) EInsufficientFunds ;;
  _ <- check (t_mint ts =? t_mint td) ETransferFailed ;;
  _ <- check signed ETransferFailed ;;
  _ <- check (is_delegate ts auth || (t_owner ts =? auth)) ETransferFailed ;;
  _ <- check (negb (is_delegate ts auth) || (amt <=? t_delegated ts)) EInsufficientFunds ;;
  if src =? dst then Ok s
  else
    _ <- check (t_amount td + amt <? B64) ETransferFailed ;;
    let ts1 := if is_delegate ts auth then use_delegate ts amt else ts in
    Ok (put_data (put_data s src (DToken (set_amount ts1 (t_amount ts - amt)))) dst (DToken (set_amount td (t_amount td + amt)))).

(** ** Loaders *)
(** Market::load, [state.rs:93-113, 415-437, 230-252] *)
Definition load_market (e : env) (s : store) (k : Z) (allow_disabled : bool) : res market :=
  match a_data (sget s k) with
  | DMarket m =>
      _ <- check (a_prog (sget s k) =? e_prog e) EAssert ;;
      _ <- check_market_flags (m_flags m) allow_disabled ;;
      Ok m
  | _ => Err EInvalidMarketFlags
  end.
(** load_orders_mut, [state.rs:156-198]; 3228 is the padded size of OpenOrders.  The account may have
    been initialised on the way, so callers write the result back. *)
Definition OO_LEN : Z := 3228.
Definition opt_eqb (a b : option Z) : bool :=
  match a, b with Some x, Some y => x =? y | None, None => true | _, _ => false end.
Definition load_orders (e : env) (s : store) (m : market) (k : Z) (owner : option Z) (rent : option clock) (auth : option Z) : res open_orders :=
  _ <- check (a_prog (sget s k) =? e_prog e) EAssert ;;
  oo <- match a_data (sget s k) with
        | DOO oo => Ok oo
        | DZero => if a_len (sget s k) =? OO_LEN then Ok oo_zero else Panic
        | _ => Err EWrongOrdersAccount
        end ;;
  oo1 <- (if oo_flags oo =? 0 then
            _ <- check (opt_eqb auth (oo_authority m)) EInvalidOpenOrdersAuthority ;;
            c <- ok_or rent ERentNotProvided ;;
            w <- ok_or owner EOwnerNotProvided ;;
            _ <- check (c_exempt c (a_lamports (sget s k)) (a_len (sget s k))) EOrdersNotRentExempt ;;
            oo_init oo (m_own m) w
          else Ok oo) ;;
  _ <- oo_check_flags oo1 ;;
  _ <- check (oo_market oo1 =? m_own m) EWrongOrdersAccount ;;
  _ <- check (match owner with Some w => oo_owner oo1 =? w | None => true end) EWrongOrdersAccount ;;
  Ok oo1.
(** load_bids_mut, load_asks_mut, [state.rs:457-475]; every caller turns a failure into an assertion error *)
Definition load_slab (s : store) (sd : side) (field k : Z) : res slab :=
  _ <- check (k =? field) EAssert ;;
  match a_data (sget s k) with
  | DSlab sd' x => _ <- check (side_eqb sd' sd) EAssert ;; Ok x
  | _ => Err EAssert
  end.
(** [state.rs:477-499] *)
Definition load_req_q (s : store) (m : market) (k : Z) : res (Z * Z) :=
  _ <- check (k =? m_req_q m) EWrongReqQ ;;
  match a_data (sget s k) with DReqQ rq => Ok rq | _ => Err EAssert end.
Definition load_event_q (s : store) (m : market) (k : Z) : res (queue event) :=
  _ <- check (k =? m_event_q m) EWrongEventQ ;;
  match a_data (sget s k) with DEventQ q => Ok q | _ => Err EAssert end.
(** TokenAccount::new, [state.rs:1482-1490] *)
Definition load_token (s : store) (k : Z) : res token :=
  _ <- check (a_prog (sget s k) =? spl_id) EAssert ;;
  _ <- check (a_len (sget s k) =? 165) EAssert ;;
  match a_data (sget s k) with DToken t => _ <- check (t_state t =? 1) EAssert ;; Ok t | _ => Err EAssert end.
(** TokenMint::new, [state.rs:1472-1480] *)
Definition load_mint (s : store) (k : Z) : res unit :=
  _ <- check (a_prog (sget s k) =? spl_id) EAssert ;;
  _ <- check (a_len (sget s k) =? 82) EAssert ;;
  match a_data (sget s k) with DMint => Ok tt | _ => Err EAssert end.
(** CoinVault, PcVault, CoinWallet, PcWallet, [state.rs:501-533, 1535-1558] *)
Definition load_coin_vault (s : store) (m : market) (k : Z) : res token :=
  t <- load_token s k ;; _ <- check (k =? m_coin_vault m) EWrongCoinVault ;; Ok t.
Definition load_pc_vault (s : store) (m : market) (k : Z) : res token :=
  t <- load_token s k ;; _ <- check (k =? m_pc_vault m) EWrongPcVault ;; Ok t.
Definition load_coin_wallet (s : store) (m : market) (k : Z) : res token :=
  t <- load_token s k ;; _ <- check (t_mint t =? m_coin_mint m) EWrongCoinMint ;; Ok t.
Definition load_pc_wallet (s : store) (m : market) (k : Z) : res token :=
  t <- load_token s k ;; _ <- check (t_mint t =? m_pc_mint m) EWrongPcMint ;; Ok t.
(** VaultSigner, [state.rs:1560-1570] *)
Definition check_vault_signer (e : env) (m : market) (k : Z) : res unit :=
  p <- ok_or (e_pda e (m_nonce m) (m_own m)) EOther ;;
  check (p =? k) EAssert.
(** The discount account as load_fee_tier reads it, [state.rs:544-548] *)
Definition discount_of (t : token) : discount_account :=
  {| da_mint := t_mint t; da_owner := t_owner t; da_balance := t_amount t |}.
Definition load_discount (s : store) (l : list meta) : res (option discount_account) :=
  match l with
  | [] => Ok None
  | [d] => t <- load_token s (mk d) ;; Ok (Some (discount_of t))
  | _ => Err EAssert
  end.
(** SplTokenProgram::new, SignerAccount::new, [state.rs:1467-1470, 1516-1519] *)
Definition check_spl (k : Z) : res unit := check (k =? spl_id) EAssert.
Definition check_signer (a : meta) : res unit := check (mk_signer a) ENotSigner.
(** TokenAccount::balance, [state.rs:1572-1577] *)
Definition balance (s : store) (k : Z) : res Z :=
  match a_data (sget s k) with DToken t => Ok (t_amount t) | _ => Panic end.
