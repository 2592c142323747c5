(** The permissioned proxy: dex/permissioned/src/proxy.rs and the three middlewares of
    dex/permissioned/src/middleware.rs, with the runtime's rules for calls between programs.
    Programs built from the crate choose a list of middlewares; here any list of the three shipped ones. *)
From Verif Require Import Base Fees Queue Codec Critbit Market Matching Core Instr Store Process.

(** The proxy's surroundings: [create_program_address] under its own id for the two kinds of seeds and the bump
    [find_program_address] finds, middleware.rs:476-537; the rent-exempt minimum of an open-orders account; and what the
    bytes 32..64 and 349..357 of an account that is no token account and no market happen to be. *)
Record pxenv := mkPx { px_open : Z -> Z -> Z -> option Z; px_init : Z -> Z -> option Z; px_bump : Z -> Z -> Z;
  px_rent : Z; px_word : account -> Z; px_lot : account -> Z }.
(** open_orders_authority! and open_orders_init_authority!, middleware.rs:476-537; the dex's id is part of the seeds and fixed *)
Inductive seed := SOpen (mkt authority bump : Z) | SInit (mkt bump : Z).
Definition seed_key (px : pxenv) (sd : seed) : option Z := match sd with SOpen k w b => px_open px k w b | SInit k b => px_init px k b end.
Fixpoint seed_keys (px : pxenv) (l : list seed) : option (list Z) :=
  match l with [] => Some [] | x :: r => match seed_key px x, seed_keys px r with Some k, Some ks => Some (k :: ks) | _, _ => None end end.

(** ** Calls between programs (external: the runtime's invoke_signed) *)
Definition signed_in (ms : list meta) (k : Z) : bool := existsb (fun a => (mk a =? k) && mk_signer a) ms.
(** A signer of the called instruction must have signed the caller's instruction or be derived from the caller's seeds. *)
Definition may_sign (callers : list meta) (pdas : list Z) (a : meta) : bool :=
  negb (mk_signer a) || signed_in callers (mk a) || existsb (Z.eqb (mk a)) pdas.
(** An account listed twice is a signer in both places if it is in one. *)
Definition merge (ms : list meta) : list meta := map (fun a => mkMeta (mk a) (signed_in ms (mk a))) ms.
Definition call_dex (e : env) (px : pxenv) (c : clock) (s : store) (callers accts : list meta) (seeds : list seed) (i : instr) : res store :=
  pdas <- ok_or (seed_keys px seeds) EOther ;;
  _ <- check (forallb (may_sign callers pdas) accts) EOther ;;
  process_bytes e c s (pack i) (merge accts).

(** ** The token program: process_approve, process_revoke (external) *)
Definition set_delegate (t : token) (d : option Z) (amt : Z) : token :=
  mkToken (t_mint t) (t_owner t) (t_amount t) d amt (t_state t) (t_close t).
Inductive tok_ix := TApprove (src delegate owner amt : Z) | TRevoke (src owner : Z).
Definition tok_set (s : store) (callers : list meta) (src owner : Z) (d : option Z) (amt : Z) : res store :=
  t <- ok_or (token_at s src) EOther ;;
  _ <- check (t_state t =? 1) EOther ;;
  _ <- check (t_owner t =? owner) EOther ;;
  _ <- check (signed_in callers owner) EOther ;;
  Ok (put_data s src (DToken (set_delegate t d amt))).
Definition call_token (s : store) (callers : list meta) (ix : tok_ix) : res store :=
  match ix with
  | TApprove src delegate owner amt => tok_set s callers src owner (Some delegate) amt
  | TRevoke src owner => tok_set s callers src owner None 0
  end.
Fixpoint call_tokens (s : store) (callers : list meta) (l : list tok_ix) : res store :=
  match l with [] => Ok s | x :: r => s1 <- call_token s callers x ;; call_tokens s1 callers r end.

(** ** Context, middleware.rs:13-52; callbacks are never pushed by the shipped middlewares *)
Record ctx := mkCtx { x_store : store; x_accts : list meta; x_seeds : list seed; x_pre : list tok_ix; x_post : list tok_ix }.
Definition set_nth {A} (i : nat) (x : A) (l : list A) : list A := firstn i l ++ match skipn i l with [] => [] | _ :: r => x :: r end.
(** [accounts[i]], which panics out of range *)
Definition at_ (l : list meta) (i : nat) : res meta := unwrap (nth_error l i).

(** ** Creating the account: InitAccount, middleware.rs:562-584, as Anchor expands it.  The payer must be able to pay. *)
Definition create_oo (e : env) (px : pxenv) (s : store) (callers accts : list meta) (bump bump_init : Z) : res store :=
  match accts with
  | dexp :: sys :: oo :: user :: mkt :: _rent :: auth :: _ =>
      _ <- check (mk dexp =? e_prog e) EOther ;;
      _ <- check (mk sys =? 0) EOther ;;
      _ <- check (match px_open px (mk mkt) (mk user) bump with Some k => k =? mk oo | None => false end) EOther ;;
      _ <- check (mk_signer user) EOther ;;
      _ <- check (signed_in callers (mk user)) EOther ;;
      let a := sget s (mk oo) in
      _ <- check ((a_prog a =? 0) && (a_len a =? 0)) EOther ;;
      let need := Z.max 0 (Z.max 1 (px_rent px) - a_lamports a) in
      _ <- check ((a_prog (sget s (mk user)) =? 0) && (need <=? a_lamports (sget s (mk user)))) EOther ;;
      _ <- check (match px_init px (mk mkt) bump_init with Some k => k =? mk auth | None => false end) EOther ;;
      let s1 := put_lamports s (mk user) (a_lamports (sget s (mk user)) - need) in
      Ok (sput s1 (mk oo) (mkAccount (e_prog e) (a_lamports a + need) OO_LEN DZero))
  | _ => Err EOther
  end.

(** ** Middlewares *)
Inductive mw := MPda (bump bump_init : Z) | MLogger | MReferral (r : Z).
(** [instruction], middleware.rs:139-152 and the trait's default *)
Definition mw_instruction (m : mw) (data : bytes) : res (mw * bytes) :=
  match m with
  | MPda b bi =>
      match data with
      | [] => Panic
      | disc :: r =>
          if disc =? 0 then match r with b' :: bi' :: r' => Ok (MPda b' bi', r') | _ => Panic end
          else Ok (m, r)
      end
  | _ => Ok (m, data)
  end.
Fixpoint instruct (mws : list mw) (data : bytes) : res (list mw * bytes) :=
  match mws with
  | [] => Ok ([], data)
  | m :: r => '(m', d1) <- mw_instruction m data ;; '(r', d2) <- instruct r d1 ;; Ok (m' :: r', d2)
  end.
(** token::accessor::authority reads bytes 32..64 of whatever account it is given *)
Definition authority_of (px : pxenv) (a : account) : Z := match a_data a with DToken t => t_owner t | _ => px_word px a end.
(** bytes 349..357; for a market this is coin_lot_size (C43_market_offsets) *)
Definition lot_of (px : pxenv) (a : account) : Z := match a_data a with DMarket m => m_coin_lot m | _ => px_lot px a end.

Section Handlers.
Variable e : env.
Variable px : pxenv.
Variable callers : list meta.
(** init_open_orders, middleware.rs:165-198 *)
Definition pda_init (b bi : Z) (x : ctx) : res ctx :=
  mkt <- at_ (x_accts x) 4 ;;
  user <- at_ (x_accts x) 3 ;;
  s <- create_oo e px (x_store x) callers (x_accts x) b bi ;;
  let l := skipn 2 (x_accts x) in
  oo <- at_ l 0 ;;
  _ <- at_ l 1 ;;
  a4 <- at_ l 4 ;;
  Ok (mkCtx s (set_nth 4 (mkMeta (mk a4) true) (set_nth 1 (mkMeta (mk oo) true) l))
        (x_seeds x ++ [SOpen (mk mkt) (mk user) b; SInit (mk mkt) bi]) (x_pre x) (x_post x)).
(** new_order_v3, middleware.rs:208-272 *)
Definition pda_order (ix : order_ix) (x : ctx) : res ctx :=
  user <- at_ (x_accts x) 7 ;;
  _ <- check (mk_signer user) ENotSigner ;;
  mkt <- at_ (x_accts x) 0 ;;
  oo <- at_ (x_accts x) 1 ;;
  payer <- at_ (x_accts x) 6 ;;
  amt <- (match oi_side ix with
          | Bid => Ok (oi_pc ix)
          | Ask => cmul (oi_qty ix) (lot_of px (sget (x_store x) (mk mkt)))
          end) ;;
  Ok (mkCtx (x_store x) (set_nth 7 (mkMeta (mk oo) true) (x_accts x))
        (x_seeds x ++ [SOpen (mk mkt) (mk user) (px_bump px (mk mkt) (mk user))])
        (x_pre x ++ [TApprove (mk payer) (mk oo) (mk user) amt]) (x_post x ++ [TRevoke (mk payer) (mk user)])).
(** cancel_order_v2, cancel_order_by_client_id_v2, settle_funds, close_open_orders, middleware.rs:282-392:
    the places of the market, the user and the open-orders account *)
Definition pda_sign (mi ui oi : nat) (x : ctx) : res ctx :=
  mkt <- at_ (x_accts x) mi ;;
  user <- at_ (x_accts x) ui ;;
  _ <- check (mk_signer user) ENotSigner ;;
  oo <- at_ (x_accts x) oi ;;
  Ok (mkCtx (x_store x) (set_nth ui (mkMeta (mk oo) true) (x_accts x))
        (x_seeds x ++ [SOpen (mk mkt) (mk user) (px_bump px (mk mkt) (mk user))]) (x_pre x) (x_post x)).
(** prune, middleware.rs:402-406 *)
Definition pda_prune (x : ctx) : res ctx :=
  a4 <- at_ (x_accts x) 4 ;;
  _ <- at_ (x_accts x) 5 ;;
  Ok (mkCtx (x_store x) (set_nth 5 a4 (x_accts x)) (x_seeds x) (x_pre x) (x_post x)).
(** ReferralFees::settle_funds, middleware.rs:467-471 *)
Definition ref_settle (r : Z) (x : ctx) : res ctx :=
  a <- at_ (x_accts x) 9 ;;
  _ <- check (authority_of px (sget (x_store x) (mk a)) =? r) EOther ;;
  Ok x.
Definition handle (i : instr) (m : mw) (x : ctx) : res ctx :=
  match m, i with
  | MPda b bi, IInitOO => pda_init b bi x
  | MPda _ _, INewOrderV3 ix => pda_order ix x
  | MPda _ _, ICancelV2 _ _ => pda_sign 0 4 3 x
  | MPda _ _, ICancelByCid _ => pda_sign 0 4 3 x
  | MPda _ _, ISettleFunds => pda_sign 0 2 1 x
  | MPda _ _, ICloseOO => pda_sign 3 1 0 x
  | MPda _ _, IPrune _ => pda_prune x
  | MReferral r, ISettleFunds => ref_settle r x
  | _, _ => Ok x
  end.
Fixpoint handle_all (i : instr) (mws : list mw) (x : ctx) : res ctx :=
  match mws with [] => Ok x | m :: r => x1 <- handle i m x ;; handle_all i r x1 end.
End Handlers.

(** How many accounts each relayed instruction needs; anything else is not relayed, proxy.rs:64-126 *)
Definition relayed (i : instr) : option nat :=
  match i with
  | IInitOO => Some 4%nat | INewOrderV3 _ => Some 12%nat | ICancelV2 _ _ => Some 6%nat | ICancelByCid _ => Some 6%nat | ISettleFunds => Some 10%nat
  | ICloseOO => Some 4%nat | IConsumeEvents _ => Some 4%nat | IConsumePermissioned _ => Some 3%nat | IPrune _ => Some 7%nat
  | _ => None
  end.
(** MarketProxy::run, proxy.rs:36-196 *)
Definition run (e : env) (px : pxenv) (c : clock) (mws : list mw) (s : store) (ms : list meta) (data : bytes) : res store :=
  match ms with
  | [] => Panic
  | dexp :: acc =>
      _ <- check (mk dexp =? e_prog e) EOther ;;
      '(mws1, d) <- instruct mws data ;;
      match unpack d with
      | None => Ok s
      | Some i =>
          match relayed i with
          | None => Ok s
          | Some n =>
              _ <- check (n <=? length acc)%nat EOther ;;
              x <- handle_all e px ms i mws1 (mkCtx s acc [] [] []) ;;
              s1 <- call_tokens (x_store x) ms (x_pre x) ;;
              s2 <- call_dex e px c s1 ms (x_accts x) (x_seeds x) i ;;
              call_tokens s2 ms (x_post x)
          end
      end
  end.
