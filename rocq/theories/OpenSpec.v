(** Opening a market and the time limit of an order: the vocabulary of the properties.  Nothing here is part of the program. *)
From Verif Require Import Base Fees ListSum Queue Codec Critbit CritbitSlab Market Matching Slots MatchSteps Ledger MatchSpec Core Instr Store Process StoreProofs World WorldSpec.

(** The orders an instruction asks to place. *)
Definition orders_in (i : instr) : list order_ix :=
  match i with INewOrderV3 ix => [ix] | IReplaceOne ix => [ix] | IReplaceMany ixs => ixs | _ => [] end.
(** The order may still be placed at time [now]; the largest timestamp means no limit. *)
Definition in_time (now : Z) (ix : order_ix) : Prop := now <= oi_max_ts ix \/ oi_max_ts ix = I64_MAX.

(** Market record [m] says what instruction [ix] with the accounts [ms] asked for. *)
Record as_asked (ix : init_ix) (ms : list meta) (m : market) : Prop := mkAsked {
  aa_accounts : map (key_at ms) [0; 1; 2; 3; 4; 5; 6; 7; 8]%nat =
    map Some [m_own m; m_req_q m; m_event_q m; m_bids m; m_asks m; m_coin_vault m; m_pc_vault m; m_coin_mint m; m_pc_mint m];
  aa_coin_lot : m_coin_lot m = ii_coin_lot ix;
  aa_pc_lot : m_pc_lot m = ii_pc_lot ix;
  aa_fee : m_fee_rate m = ii_fee_rate ix;
  aa_dust : m_dust m = ii_dust ix;
  aa_nonce : m_nonce m = ii_nonce ix;
  aa_enabled : ~ disabled m;
  aa_perm : permissioned m <-> key_at ms 10 <> None;
  aa_crank : needs_crank_authority m <-> key_at ms 12 <> None;
  aa_auth : forall a, key_at ms 10 = Some a -> m_oo_auth m = a;
  aa_prune : forall a, key_at ms 11 = Some a -> m_prune_auth m = a;
  aa_no_prune : key_at ms 11 = None -> m_prune_auth m = 0;
  aa_crank_auth : forall a, key_at ms 12 = Some a -> m_crank_auth m = a;
  aa_len : (length ms <= 13)%nat }.
(** Nothing is deposited, owed or earned. *)
Definition nothing_yet (m : market) : Prop := m_coin_deposits m = 0 /\ m_pc_deposits m = 0 /\ m_pc_fees m = 0 /\ m_rebates m = 0.
(** Token account [v] of [mint] is held by the derived address of the market, and nobody else can take from it. *)
Definition vault_of (e : env) (s : store) (k : Z) (m : market) (v mint : Z) : Prop :=
  exists t, token_at s v = Some t /\ e_pda e (m_nonce m) k = Some (t_owner t) /\ t_mint t = mint /\ t_delegate t = None /\ t_close t = None.
Definition new_accounts (m : market) : list Z := [m_own m; m_req_q m; m_event_q m; m_bids m; m_asks m].
Record market_opened (e : env) (s s' : store) (ix : init_ix) (ms : list meta) (m : market) : Prop := mkOpened {
  op_asked : as_asked ix ms m;
  op_zero : nothing_yet m;
  op_blank : forall x, In x (new_accounts m) -> dexd e s x = Some DZero;
  op_market : dexd e s' (m_own m) = Some (DMarket m);
  op_req : dexd e s' (m_req_q m) = Some (DReqQ (0, 0));
  op_empty : m_bids m <> m_asks m -> seen e s' (m_own m) m (mkA [] [] []) [];
  op_coin : vault_of e s' (m_own m) m (m_coin_vault m) (m_coin_mint m);
  op_pc : vault_of e s' (m_own m) m (m_pc_vault m) (m_pc_mint m);
  op_only : only s s' (new_accounts m);
  op_sizes : forall x, a_len (sget s' x) = a_len (sget s x) /\ a_lamports (sget s' x) = a_lamports (sget s x) /\ a_prog (sget s' x) = a_prog (sget s x) }.

(** What InitializeMarket needs of the accounts: five different blank ones of the program, large enough for one request, 128
    events and 201 nodes in each book; rent paid; two mints and two vaults. *)
Definition blank_of (e : env) (s : store) (len x : Z) : Prop := dexd e s x = Some DZero /\ a_len (sget s x) mod 8 = 4 /\ len <= a_len (sget s x).
Definition usable_vault (s : store) (p v mint : Z) : Prop :=
  exists t, token_at s v = Some t /\ a_len (sget s v) = 165 /\ t_state t = 1 /\ t_owner t = p /\ t_mint t = mint /\ t_delegate t = None /\ t_close t = None.
Definition is_mint (s : store) (x : Z) : Prop := a_prog (sget s x) = spl_id /\ a_len (sget s x) = 82 /\ a_data (sget s x) = DMint.
