(** Model of the pool program library: pool/src/lib.rs, context.rs, pool.rs and pool/schema/src/schema.rs.
    Every failure of a check is an [Err]; its code is not distinguished exactly. *)
From Verif Require Import Base Fees Core Instr Store Borsh PoolStore.

(** ** State and requests *)
(** AssetInfo, [schema.rs:113-118] *)
Record asset := mkAsset { as_mint : Z; as_vault : Z }.
(** PoolState, [schema.rs:78-111]; an account parameter is its address and its writable flag, [schema.rs:120-124] *)
Record pstate := mkPstate {
  ps_mint : Z; ps_assets : list asset; ps_signer : Z; ps_nonce : Z; ps_params : list (Z * bool); ps_name : bytes;
  ps_lqd : Z; ps_init : Z; ps_rate : Z; ps_admin : option Z; ps_custom : bytes }.
(** [schema.rs:126-128, 76, 130, 71-74] *)
Definition MIN_FEE_RATE : Z := 150.
Definition FEE_RATE_DENOMINATOR : Z := 1000000.
Definition POOL_STATE_TAG : Z := 1632422152574742555.
Definition POOL_REQUEST_TAG : Z := 2452892509502489807.
Definition lqd_fee_owner : Z := 24060689092431429117808794291767869974211311631889262740122434240547398352678.
Definition rent_id : Z := 36800195018552188505640875450300565088976979333758767909624563640727942847459.
(** PoolAction, InitializePoolRequest, PoolRequestInner, [schema.rs:137-215] *)
Inductive action := Create (n : Z) | Redeem (n : Z) | Swap (l : list Z).
Record init_req := mkInitReq { iq_nonce : Z; iq_assets : Z; iq_name : bytes; iq_rate : Z; iq_custom : bytes }.
Inductive request := RInit (r : init_req) | RGetBasket (a : action) | RExecute (a : action).

(** The program's surroundings: its id; create_program_address of (pool account, nonce); the rent rule; UTF-8
    validity; and what a return-buffer program writes when invoked. *)
Record penv := mkPenv {
  pe_prog : Z; pe_pda : Z -> Z -> option Z; pe_exempt : Z -> Z -> bool; pe_utf8 : bytes -> bool;
  pe_retbuf : Z -> pdata -> bytes -> res pdata }.

Section Codec.
Variable e : penv.
Definition get_string : parser bytes := b <~ get_bytes ;; if pe_utf8 e b then pret b else pfail.
Definition get_asset : parser asset := m <~ get_key ;; v <~ get_key ;; pret (mkAsset m v).
Definition get_param : parser (Z * bool) := a <~ get_key ;; w <~ get_bool ;; pret (a, w).
(** derive(BorshDeserialize) of PoolState *)
Definition get_state : parser pstate :=
  _ <~ get_tag POOL_STATE_TAG ;; mint <~ get_key ;; assets <~ get_vec get_asset ;; signer <~ get_key ;; nonce <~ get_num 1 ;;
  params <~ get_vec get_param ;; name <~ get_string ;; lqd <~ get_key ;; ini <~ get_key ;; rate <~ get_num 4 ;;
  admin <~ get_option get_key ;; custom <~ get_bytes ;;
  pret (mkPstate mint assets signer nonce params name lqd ini rate admin custom).
Definition get_action : parser action :=
  t <~ get_num 1 ;;
  if t =? 0 then (n <~ get_num 8 ;; pret (Create n)) else if t =? 1 then (n <~ get_num 8 ;; pret (Redeem n))
  else if t =? 2 then (l <~ get_vec (get_num 8) ;; pret (Swap l)) else pfail.
Definition get_init : parser init_req :=
  n <~ get_num 1 ;; a <~ get_num 1 ;; name <~ get_string ;; rate <~ get_num 4 ;; custom <~ get_bytes ;; pret (mkInitReq n a name rate custom).
Definition get_request : parser request :=
  _ <~ get_tag POOL_REQUEST_TAG ;; t <~ get_num 1 ;;
  if t =? 0 then (r <~ get_init ;; pret (RInit r)) else if t =? 1 then (a <~ get_action ;; pret (RGetBasket a))
  else if t =? 2 then (a <~ get_action ;; pret (RExecute a)) else pfail.
End Codec.
(** derive(BorshSerialize) *)
Definition put_asset (a : asset) : bytes := key_le (as_mint a) ++ key_le (as_vault a).
Definition put_param (p : Z * bool) : bytes := key_le (fst p) ++ put_bool (snd p).
Definition put_state (p : pstate) : bytes :=
  le 8 POOL_STATE_TAG ++ key_le (ps_mint p) ++ put_vec put_asset (ps_assets p) ++ key_le (ps_signer p) ++ le 1 (ps_nonce p) ++
  put_vec put_param (ps_params p) ++ put_bytes (ps_name p) ++ key_le (ps_lqd p) ++ key_le (ps_init p) ++ le 4 (ps_rate p) ++
  put_option key_le (ps_admin p) ++ put_bytes (ps_custom p).
Definition put_basket (l : list Z) : bytes := put_vec (fun z => le 8 (z mod B64)) l.

(** ** Fees, [context.rs:261-322] *)
Record fees := mkFees { fe_lqd : Z; fe_init : Z; fe_ref : Z }.
Definition total_fee (f : fees) : Z := wadd (wadd (fe_lqd f) (fe_init f)) (fe_ref f).
Definition fees_of (rate tokens : Z) : res fees :=
  if (rate <? MIN_FEE_RATE) || (FEE_RATE_DENOMINATOR <=? rate) then Err EInvalidArgument
  else if tokens =? 0 then Ok (mkFees 0 0 0)
  else
    let total := w64 ((tokens * rate - 1) / FEE_RATE_DENOMINATOR + 1) in
    _ <- passert (total <=? tokens) ;;
    twice <- cmul total 2 ;;
    let lqd := Z.max (twice / 5) (wadd (wsub tokens 1 / 10000) 1) in
    _ <- passert (lqd <=? total) ;;
    let ref := Z.min (lqd / 2) (wsub total lqd) in
    a <- cadd lqd ref ;;
    _ <- passert (a <=? total) ;;
    b <- csub total lqd ;;
    ini <- csub b ref ;;
    c <- cadd a ini ;;
    _ <- passert (c <=? tokens) ;;
    Ok (mkFees lqd ini ref).

(** ** The context, [context.rs:18-253] *)
Record ctx := mkCtx {
  cx_pool : Z; cx_mint : Z; cx_vaults : list Z; cx_auth : meta;
  cx_retbuf : option (Z * Z);                     (* account, program *)
  cx_user : option (Z * list Z * meta);           (* pool token account, asset accounts, authority *)
  cx_fees : option (Z * Z * Z);                   (* lqd, initializer, referrer *)
  cx_custom : list meta }.
(** next_account_info, next_account_infos, [lib.rs:247-261] *)
Definition next (ms : list meta) : res (meta * list meta) := match ms with a :: r => Ok (a, r) | [] => Err EAssert end.
Definition nexts (ms : list meta) (n : nat) : res (list meta * list meta) :=
  if (n <=? length ms)%nat then Ok (firstn n ms, skipn n ms) else Err EAssert.

Section Context.
Variable e : penv.
(** TokenAccount::unpack: data of a token account that is initialised; Mint::unpack *)
Definition unpack_token (s : pstore) (k : Z) : res token :=
  match pa_data (pget s k) with PToken t => _ <- check (negb (t_state t =? 0)) EInvalidArgument ;; Ok t | _ => Err EInvalidArgument end.
Definition unpack_mint (s : pstore) (k : Z) : res mint :=
  match pa_data (pget s k) with PMint m => Ok m | _ => Err EInvalidArgument end.
(** [context.rs:642-689] *)
Definition check_address (k addr : Z) : res unit := check (k =? addr) EInvalidArgument.
Definition check_minter (s : pstore) (k auth : Z) : res unit :=
  _ <- check (pa_prog (pget s k) =? spl_id) EInvalidArgument ;;
  m <- unpack_mint s k ;;
  check (opt_eqb (mi_auth m) (Some auth)) EInvalidArgument.
Definition check_token (s : pstore) (k mint : Z) (auth : option Z) : res unit :=
  _ <- check (pa_prog (pget s k) =? spl_id) EInvalidArgument ;;
  t <- unpack_token s k ;;
  _ <- check (t_mint t =? mint) EInvalidArgument ;;
  check (match auth with Some a => (t_owner t =? a) || opt_eqb (t_delegate t) (Some a) | None => true end) EInvalidArgument.
Fixpoint check_all {X Y} (f : X -> Y -> res unit) (l : list X) (l' : list Y) : res unit :=
  match l, l' with x :: r, y :: r' => _ <- f x y ;; check_all f r r' | _, _ => Ok tt end.

(** UserAccounts::new, FeeAccounts::new, [context.rs:184-230] *)
Definition check_user (s : pstore) (st : pstate) (pt : Z) (assets : list Z) : res unit :=
  _ <- check_token s pt (ps_mint st) None ;;
  check_all (fun a k => check_token s k (as_mint a) None) (ps_assets st) assets.
Definition check_fees (s : pstore) (st : pstate) (lqd ini ref : Z) : res unit :=
  _ <- check_address lqd (ps_lqd st) ;; _ <- check_address ini (ps_init st) ;;
  _ <- check_token s lqd (ps_mint st) (Some lqd_fee_owner) ;;
  _ <- check_token s ini (ps_mint st) None ;;
  check_token s ref (ps_mint st) None.

(** PoolContext::new, [context.rs:69-182] *)
Definition context_new (s : pstore) (ms : list meta) (st : pstate) (rq : request) : res ctx :=
  '(pool, r) <- next ms ;; '(mint, r) <- next r ;; '(vaults, r) <- nexts r (length (ps_assets st)) ;; '(auth, r) <- next r ;;
  _ <- check_address (mk mint) (ps_mint st) ;; _ <- check_minter s (mk mint) (ps_signer st) ;;
  _ <- check_all (fun a v => _ <- check_address (mk v) (as_vault a) ;; check_token s (mk v) (as_mint a) (Some (ps_signer st))) (ps_assets st) vaults ;;
  _ <- check_address (mk auth) (ps_signer st) ;;
  let cx := mkCtx (mk pool) (mk mint) (map mk vaults) auth in
  let params ps r := check_all (fun (p : Z * bool) a => check_address (mk a) (fst p)) (ps_params st) ps in
  match rq with
  | RGetBasket _ =>
      '(ra, r) <- next r ;; '(rp, r) <- next r ;;
      _ <- check (pa_prog (pget s (mk ra)) =? mk rp) EInvalidArgument ;;
      '(ps, r) <- nexts r (length (ps_params st)) ;;
      _ <- params ps r ;;
      Ok (cx (Some (mk ra, mk rp)) None None r)
  | RExecute _ =>
      '(pt, r) <- next r ;; '(ua, r) <- nexts r (length (ps_assets st)) ;; '(who, r) <- next r ;;
      '(lqd, r) <- next r ;; '(ini, r) <- next r ;; '(ref, r) <- next r ;;
      _ <- check_user s st (mk pt) (map mk ua) ;;
      _ <- check_fees s st (mk lqd) (mk ini) (mk ref) ;;
      '(spl, r) <- next r ;; '(ps, r) <- nexts r (length (ps_params st)) ;;
      _ <- check_address (mk spl) spl_id ;;
      _ <- params ps r ;;
      Ok (cx None (Some (mk pt, map mk ua, who)) (Some (mk lqd, mk ini, mk ref)) r)
  | RInit _ =>
      '(lqd, r) <- next r ;; '(ini, r) <- next r ;; '(rent, r) <- next r ;;
      _ <- check_fees s st (mk lqd) (mk ini) (mk lqd) ;;
      _ <- check_address (mk rent) rent_id ;;
      Ok (cx None None (Some (mk lqd, mk ini, mk lqd)) r)
  end.

(** ** Baskets, [context.rs:352-396] *)
Definition simple_basket (s : pstore) (cx : ctx) (n : Z) (round_up : bool) : res (list Z) :=
  m <- unpack_mint s (cx_mint cx) ;;
  let supply := mi_supply m in
  _ <- check (negb (supply =? 0)) EInvalidArgument ;;
  (fix each (vs : list Z) : res (list Z) :=
     match vs with
     | [] => Ok []
     | v :: r =>
         t <- unpack_token s v ;;
         let x := t_amount t * n in
         _ <- check (x <? B128) EInvalidArgument ;;
         let y := x + (if round_up then supply - 1 else 0) in
         _ <- check (y <? B128) EInvalidArgument ;;
         let q := y / supply in
         _ <- check (q <=? I64_MAX) EInvalidArgument ;;
         qs <- each r ;; Ok (q :: qs)
     end) (cx_vaults cx).

(** get_fees, [context.rs:399-419] *)
Definition get_fees (cx : ctx) (st : pstate) (n : Z) : res fees :=
  f <- fees_of (ps_rate st) n ;;
  match cx_user cx, cx_fees cx with
  | Some (pt, _, _), Some (lqd, ini, ref) =>
      let f := if lqd =? pt then mkFees 0 0 0 else f in
      let f := if ini =? pt then mkFees (fe_lqd f) 0 (fe_ref f) else f in
      Ok (if ref =? pt then mkFees (fe_lqd f) (fe_init f) 0 else f)
  | _, _ => Ok f
  end.

(** The signature the program adds for its own address, [context.rs:503-507, 631-635]: invoke_signed with the seeds
    (pool account, nonce). *)
Definition own_signature (pool nonce : Z) (auth : meta) : bool := mk_signer auth || opt_eqb (pe_pda e pool nonce) (Some (mk auth)).
(** A signed invocation fails as a whole if the seeds give no address. *)
Definition seeds_ok (pool nonce : Z) : res unit := _ <- ok_or (pe_pda e pool nonce) EOther ;; Ok tt.

(** transfer_basket_from_user, transfer_basket_to_user, [context.rs:421-466, 590-639] *)
Fixpoint basket_in (s : pstore) (qs ua vs : list Z) (who : meta) : res pstore :=
  match qs, ua, vs with
  | q :: qs', u :: ua', v :: vs' =>
      _ <- check (0 <=? q) EInvalidArgument ;;
      s1 <- p_transfer s u v (mk who) (mk_signer who) q ;; basket_in s1 qs' ua' vs' who
  | _, _, _ => Ok s
  end.
Fixpoint basket_out (s : pstore) (qs ua vs : list Z) (pool nonce : Z) (auth : meta) : res pstore :=
  match qs, ua, vs with
  | q :: qs', u :: ua', v :: vs' =>
      _ <- check (0 <=? q) EInvalidArgument ;; _ <- seeds_ok pool nonce ;;
      s1 <- p_transfer s v u (mk auth) (own_signature pool nonce auth) q ;; basket_out s1 qs' ua' vs' pool nonce auth
  | _, _, _ => Ok s
  end.
(** mint_tokens, [context.rs:472-512] *)
Fixpoint mint_each (s : pstore) (l : list (Z * Z)) (cx : ctx) (nonce : Z) : res pstore :=
  match l with
  | [] => Ok s
  | (k, q) :: r =>
      if 0 <? q then
        _ <- seeds_ok (cx_pool cx) nonce ;;
        s1 <- p_mint_to s (cx_mint cx) k (mk (cx_auth cx)) (own_signature (cx_pool cx) nonce (cx_auth cx)) q ;; mint_each s1 r cx nonce
      else mint_each s r cx nonce
  end.
Definition mint_tokens (s : pstore) (cx : ctx) (st : pstate) (n : Z) : res pstore :=
  f <- get_fees cx st n ;;
  match cx_user cx, cx_fees cx with
  | Some (pt, _, _), Some (lqd, ini, ref) =>
      mint_each s [(lqd, fe_lqd f); (ini, fe_init f); (ref, fe_ref f); (pt, wsub n (total_fee f))] cx (ps_nonce st)
  | _, _ => Err EInvalidArgument
  end.
(** burn_tokens_and_collect_fees, [context.rs:515-587] *)
Fixpoint fee_each (s : pstore) (pt : Z) (l : list (Z * Z)) (who : meta) : res pstore :=
  match l with
  | [] => Ok s
  | (k, q) :: r => if 0 <? q then s1 <- p_transfer s pt k (mk who) (mk_signer who) q ;; fee_each s1 pt r who else fee_each s pt r who
  end.
Definition burn_and_fees (s : pstore) (cx : ctx) (n : Z) (f : fees) : res pstore :=
  match cx_user cx, cx_fees cx with
  | Some (pt, _, who), Some (lqd, ini, ref) =>
      s1 <- fee_each s pt [(lqd, fe_lqd f); (ini, fe_init f); (ref, fe_ref f)] who ;;
      p_burn s1 pt (cx_mint cx) (mk who) (mk_signer who) n
  | _, _ => Err EInvalidArgument
  end.

(** ** The trait Pool, [pool.rs:11-85]: what an implementation supplies.  Swaps are always refused. *)
Record impl := mkImpl {
  im_init : ctx -> pstate -> res pstate;
  im_create : pstore -> ctx -> pstate -> Z -> res (list Z);
  im_redeem : pstore -> ctx -> pstate -> Z -> res (list Z);
  im_foreign : pstore -> list meta -> bytes -> res pstore }.
(** The provided methods. *)
Definition default_impl : impl :=
  mkImpl (fun _ st => Ok st) (fun s cx _ n => simple_basket s cx n true) (fun s cx _ n => simple_basket s cx n false) (fun _ _ _ => Err EOther).
Variable P : impl.

(** [pool.rs:43-53] *)
Definition process_creation (s : pstore) (cx : ctx) (st : pstate) (n : Z) : res pstore :=
  b <- im_create P s cx st n ;;
  match cx_user cx with
  | Some (_, ua, who) => s1 <- basket_in s b ua (cx_vaults cx) who ;; mint_tokens s1 cx st n
  | None => Err EInvalidArgument
  end.
(** [pool.rs:55-67] *)
Definition process_redemption (s : pstore) (cx : ctx) (st : pstate) (n : Z) : res pstore :=
  f <- get_fees cx st n ;;
  let n := wsub n (total_fee f) in
  b <- im_redeem P s cx st n ;;
  s1 <- burn_and_fees s cx n f ;;
  match cx_user cx with
  | Some (_, ua, _) => basket_out s1 b ua (cx_vaults cx) (cx_pool cx) (ps_nonce st) (cx_auth cx)
  | None => Err EInvalidArgument
  end.

(** ** The processor, [lib.rs:77-220] *)
(** get_state, [lib.rs:79-101]: [None] when the data is all zero *)
Definition load_state (s : pstore) (k : Z) : res (option pstate) :=
  _ <- check (pa_prog (pget s k) =? pe_prog e) EInvalidArgument ;;
  match pa_data (pget s k) with
  | PBytes b =>
      if forallb (fun x => x =? 0) b then Ok None
      else match get_state e b with Some (st, _) => Ok (Some st) | None => Err EInvalidArgument end
  | _ => Err EInvalidArgument
  end.
(** save_state, [lib.rs:103-111]: the encoding overwrites the beginning of the data, which must be long enough *)
Definition lengths_ok (st : pstate) : bool :=
  forallb (fun n => n <? 2 ^ 32) [zlen (ps_assets st); zlen (ps_params st); zlen (ps_name st); zlen (ps_custom st)].
Definition save_state (s : pstore) (k : Z) (st : pstate) : res pstore :=
  match pa_data (pget s k) with
  | PBytes b =>
      _ <- check (lengths_ok st && (zlen (put_state st) <=? zlen b)) EInvalidArgument ;;
      Ok (pset s k (PBytes (put_state st ++ skipn (length (put_state st)) b)))
  | _ => Err EInvalidArgument
  end.
(** check_rent_exemption, [context.rs:335-350] *)
Definition check_rent (s : pstore) (k : Z) : res unit := check (pe_exempt e (pa_lamports (pget s k)) (pdata_len (pa_data (pget s k)))) EInvalidArgument.
(** check_lqd_fee_account, [lib.rs:226-247] *)
Definition check_lqd (s : pstore) (st : pstate) (k : Z) : res unit :=
  t <- unpack_token s k ;;
  _ <- check (t_owner t =? lqd_fee_owner) EInvalidArgument ;;
  _ <- check (opt_eqb (t_delegate t) None) EInvalidArgument ;;
  check (opt_eqb (t_close t) None || opt_eqb (t_close t) (Some (ps_signer st))) EInvalidArgument.
Fixpoint vault_assets (s : pstore) (vs : list meta) : res (list asset) :=
  match vs with [] => Ok [] | v :: r => t <- unpack_token s (mk v) ;; l <- vault_assets s r ;; Ok (mkAsset (t_mint t) (mk v) :: l) end.
(** initialize_pool, [lib.rs:161-220] *)
Definition initialize_pool (s : pstore) (ms : list meta) (rq : init_req) : res pstore :=
  '(pool, r) <- next ms ;; '(mint, r) <- next r ;; '(vaults, r) <- nexts r (Z.to_nat (iq_assets rq)) ;;
  '(signer, r) <- next r ;; '(lqd, r) <- next r ;; '(ini, r) <- next r ;;
  assets <- vault_assets s vaults ;;
  let st := mkPstate (mk mint) assets (mk signer) (iq_nonce rq) [] (iq_name rq) (mk lqd) (mk ini) (iq_rate rq) None [] in
  cx <- context_new s ms st (RInit rq) ;;
  _ <- check_rent s (mk pool) ;; _ <- check_rent s (mk mint) ;; _ <- check_all (fun v _ => check_rent s v) (cx_vaults cx) (cx_vaults cx) ;;
  _ <- check_rent s (mk lqd) ;; _ <- check_lqd s st (mk lqd) ;; _ <- check_rent s (mk ini) ;;
  st' <- im_init P cx st ;;
  a <- ok_or (pe_pda e (mk pool) (ps_nonce st')) EOther ;;
  _ <- check (mk (cx_auth cx) =? a) EInvalidArgument ;;
  _ <- check (MIN_FEE_RATE <=? ps_rate st') EInvalidArgument ;;
  _ <- check (ps_rate st' <? FEE_RATE_DENOMINATOR) EInvalidArgument ;;
  save_state s (mk pool) st'.
(** The return buffer, [context.rs:233-258]: the invoked program may write the buffer account, which it owns.  The
    token program and the pool program itself refuse such an invocation. *)
Definition write_retbuf (s : pstore) (cx : ctx) (b : list Z) : res pstore :=
  match cx_retbuf cx with
  | Some (a, p) =>
      if (p =? spl_id) || (p =? pe_prog e) then Err EOther
      else d <- pe_retbuf e p (pa_data (pget s a)) (le 8 0 ++ put_basket b) ;; Ok (pset s a d)
  | None => Err EInvalidArgument
  end.
(** process_instruction, [lib.rs:113-159] *)
Definition process_request (s : pstore) (ms : list meta) (rq : request) : res pstore :=
  '(pool, _) <- next ms ;;
  st <- load_state s (mk pool) ;;
  match st, rq with
  | None, RInit r => initialize_pool s ms r
  | None, _ => Err EOther
  | Some _, RInit _ => Err EOther
  | Some st, RGetBasket a =>
      cx <- context_new s ms st rq ;;
      b <- match a with Create n => im_create P s cx st n | Redeem n => im_redeem P s cx st n | Swap _ => Err EInvalidArgument end ;;
      write_retbuf s cx b
  | Some st, RExecute a =>
      cx <- context_new s ms st rq ;;
      s1 <- match a with
            | Create n => process_creation s cx st n
            | Redeem n => process_redemption s cx st n
            | Swap _ => Err EInvalidArgument end ;;
      save_state s1 (mk pool) st
  end.
(** pool_entrypoint, [lib.rs:42-68] *)
Definition pool_entry (s : pstore) (ms : list meta) (b : bytes) : res pstore :=
  if (8 <=? length b)%nat && (num b 0 8 =? POOL_REQUEST_TAG) then
    rq <- ok_or (whole (get_request e) b) EOther ;; process_request s ms rq
  else im_foreign P s ms b.
End Context.
