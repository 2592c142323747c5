(** Model of pool/examples/admin-controlled/src/lib.rs: a pool whose administrator may pause it, lend out and change its
    assets, and set its fee. *)
From Verif Require Import Base Fees Instr Store Borsh PoolStore Pool.

(** AdminInstruction, [lib.rs:19-84] *)
Definition ADMIN_TAG : Z := 3595637370766063736.
Inductive admin_req := APause | AUnpause | AApprove (amount : Z) | AAddAsset | ARemoveAsset | AUpdateFee (rate : Z) | AUpdateAdmin.
Definition get_admin : parser admin_req :=
  _ <~ get_tag ADMIN_TAG ;; t <~ get_num 1 ;;
  if t =? 0 then pret APause else if t =? 1 then pret AUnpause else if t =? 2 then (n <~ get_num 8 ;; pret (AApprove n))
  else if t =? 3 then pret AAddAsset else if t =? 4 then pret ARemoveAsset else if t =? 5 then (n <~ get_num 4 ;; pret (AUpdateFee n))
  else if t =? 6 then pret AUpdateAdmin else pfail.
(** CustomPoolState: a tag and the paused flag, [lib.rs:86-111] *)
Definition CUSTOM_TAG : Z := 5348789780812659022.
Definition get_custom : parser bool := _ <~ get_tag CUSTOM_TAG ;; get_bool.
Definition read_paused (st : pstate) : res bool := ok_or (whole get_custom (ps_custom st)) EInvalidArgument.
Definition put_custom (paused : bool) : bytes := le 8 CUSTOM_TAG ++ put_bool paused.
Definition write_paused (st : pstate) (paused : bool) : pstate :=
  mkPstate (ps_mint st) (ps_assets st) (ps_signer st) (ps_nonce st) (ps_params st) (ps_name st) (ps_lqd st) (ps_init st) (ps_rate st) (ps_admin st) (put_custom paused).
Definition set_assets (st : pstate) (l : list asset) : pstate :=
  mkPstate (ps_mint st) l (ps_signer st) (ps_nonce st) (ps_params st) (ps_name st) (ps_lqd st) (ps_init st) (ps_rate st) (ps_admin st) (ps_custom st).
Definition set_rate (st : pstate) (x : Z) : pstate :=
  mkPstate (ps_mint st) (ps_assets st) (ps_signer st) (ps_nonce st) (ps_params st) (ps_name st) (ps_lqd st) (ps_init st) x (ps_admin st) (ps_custom st).
Definition set_admin (st : pstate) (x : option Z) : pstate :=
  mkPstate (ps_mint st) (ps_assets st) (ps_signer st) (ps_nonce st) (ps_params st) (ps_name st) (ps_lqd st) (ps_init st) (ps_rate st) x (ps_custom st).

Section Admin.
Variable e : penv.
(** initialize_pool, [lib.rs:116-124] *)
Definition admin_init (cx : ctx) (st : pstate) : res pstate :=
  match cx_custom cx with a :: _ => Ok (write_paused (set_admin st (Some (mk a))) false) | [] => Err EAssert end.
(** get_creation_basket, get_redemption_basket, [lib.rs:126-150] *)
Definition admin_basket (round_up : bool) (s : pstore) (cx : ctx) (st : pstate) (n : Z) : res (list Z) :=
  p <- read_paused st ;; _ <- check (negb p) EInvalidArgument ;; simple_basket s cx n round_up.
(** parse_token_account, [lib.rs:347-358] *)
Definition parse_token (s : pstore) (k : Z) : res token :=
  _ <- check (pa_prog (pget s k) =? spl_id) EInvalidArgument ;; unpack_token s k.
(** The loop of Unpause, [lib.rs:216-228] *)
Fixpoint no_delegates (s : pstore) (l : list asset) (r : list meta) : res unit :=
  match l with
  | [] => Ok tt
  | a :: l' =>
      '(v, r') <- next r ;;
      _ <- check_address (mk v) (as_vault a) ;;
      t <- parse_token s (mk v) ;;
      _ <- check (opt_eqb (t_delegate t) None || (t_delegated t <=? 0)) EInvalidArgument ;;
      no_delegates s l' r'
  end.
(** process_admin_request, [lib.rs:201-344]: the new token state, pool state and paused flag *)
Definition admin_request (s : pstore) (pool : Z) (r : list meta) (st : pstate) (q : admin_req) : res (pstore * pstate) :=
  paused <- read_paused st ;;
  match q with
  | APause => Ok (s, write_paused st true)
  | AUnpause => _ <- no_delegates s (ps_assets st) r ;; Ok (s, write_paused st false)
  | AApprove n =>
      '(v, r) <- next r ;; '(d, r) <- next r ;; '(vs, r) <- next r ;; '(spl, r) <- next r ;;
      _ <- check (existsb (fun a => as_vault a =? mk v) (ps_assets st)) EInvalidArgument ;;
      _ <- check_address (mk vs) (ps_signer st) ;; _ <- check_address (mk spl) spl_id ;;
      _ <- seeds_ok e pool (ps_nonce st) ;;
      s1 <- p_approve s (mk v) (mk d) (mk vs) (own_signature e pool (ps_nonce st) vs) n ;;
      Ok (s1, write_paused st true)
  | AAddAsset =>
      '(v, r) <- next r ;;
      t <- parse_token s (mk v) ;;
      _ <- check (negb (existsb (fun a => (as_vault a =? mk v) || (as_mint a =? t_mint t)) (ps_assets st))) EInvalidArgument ;;
      _ <- check (t_owner t =? ps_signer st) EInvalidArgument ;;
      Ok (s, write_paused (set_assets st (ps_assets st ++ [mkAsset (t_mint t) (mk v)])) paused)
  | ARemoveAsset =>
      '(v, r) <- next r ;;
      t <- parse_token s (mk v) ;;
      _ <- check (t_amount t <=? 0) EInvalidArgument ;;
      let l := filter (fun a => negb (as_vault a =? mk v)) (ps_assets st) in
      _ <- check (negb (length l =? length (ps_assets st))%nat) EInvalidArgument ;;
      Ok (s, write_paused (set_assets st l) paused)
  | AUpdateFee x =>
      _ <- check (MIN_FEE_RATE <=? x) EInvalidArgument ;; _ <- check (x <? FEE_RATE_DENOMINATOR) EInvalidArgument ;;
      Ok (s, write_paused (set_rate st x) paused)
  | AUpdateAdmin =>
      '(a, r) <- next r ;; _ <- check (mk_signer a) ENotSigner ;;
      Ok (s, write_paused (set_admin st (Some (mk a))) paused)
  end.
(** process_foreign_instruction, [lib.rs:152-197] *)
Definition admin_foreign (s : pstore) (ms : list meta) (b : bytes) : res pstore :=
  '(pool, r) <- next ms ;;
  _ <- check (pa_prog (pget s (mk pool)) =? pe_prog e) EInvalidArgument ;;
  match pa_data (pget s (mk pool)) with
  | PBytes d =>
      '(st, _) <- ok_or (get_state e d) EInvalidArgument ;;
      '(a, r) <- next r ;;
      _ <- check (opt_eqb (ps_admin st) (Some (mk a))) EInvalidArgument ;;
      _ <- check (mk_signer a) ENotSigner ;;
      q <- ok_or (whole get_admin b) EOther ;;
      '(s1, st') <- admin_request s (mk pool) r st q ;;
      save_state s1 (mk pool) st'
  | _ => Err EInvalidArgument
  end.
Definition admin_impl : impl := mkImpl admin_init (admin_basket true) (admin_basket false) admin_foreign.
End Admin.
