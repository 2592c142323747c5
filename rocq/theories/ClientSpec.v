(** What each client-side builder is for: the vocabulary of the client properties. *)
From Verif Require Import Base Codec Core Market Instr Store Process World WorldSpec Client.

(** The account list as the program receives it. *)
Definition as_given (ci : cinstr) : list meta := map (fun a => mkMeta (am_key a) (am_signer a)) (ci_accounts ci).
(** The accounts the runtime lets the program change. *)
Definition writable (ci : cinstr) : list Z := map am_key (filter am_writable (ci_accounts ci)).
(** The accounts that have to sign. *)
Definition signers (ci : cinstr) : list Z := map am_key (filter am_signer (ci_accounts ci)).

(** Every instruction the client library builds, the call it stands for, and who has to sign. *)
Inductive built : cinstr -> instr -> list Z -> Prop :=
| bt_initialize_market k p cm pm cv pv a pr cr b ak rq eq cl pl n d :
    built (b_initialize_market k p cm pm cv pv a pr cr b ak rq eq cl pl n d) (IInitMarket (mkInitIx cl pl 0 n d)) []
| bt_new_order k x rq eq b a payer w cv pv spl rent srm p sd price qty ot cid st limit pc ts :
    built (b_new_order k x rq eq b a payer w cv pv spl rent srm p sd price qty ot cid st limit pc ts) (INewOrderV3 (mkOrderIx sd price qty pc st ot cid limit ts)) [w]
| bt_match_orders p k rq b a eq cf pf n : built (b_match_orders p k rq b a eq cf pf n) (IMatchOrders n) []
| bt_consume p oos k eq cf pf n : built (b_consume_events p oos k eq cf pf n) (IConsumeEvents n) []
| bt_consume_perm p oos k eq auth n : built (b_consume_events_permissioned p oos k eq auth n) (IConsumePermissioned n) [auth]
| bt_cancel p k b a x w eq sd id : built (b_cancel_order p k b a x w eq sd id) (ICancelV2 sd id) [w]
| bt_settle p k spl x w cv cw pv pw ref vs : built (b_settle_funds p k spl x w cv cw pv pw ref vs) ISettleFunds [w]
| bt_cancel_cid p k b a x w eq cid : built (b_cancel_by_client_id p k b a x w eq cid) (ICancelByCid cid) [w]
| bt_cancel_cids p k b a x w eq cids : built (b_cancel_by_client_ids p k b a x w eq cids) (ICancelByCids cids) [w]
| bt_disable p k auth : built (b_disable_market p k auth) IDisableMarket [auth]
| bt_sweep p k pv auth dst vs spl : built (b_sweep_fees p k pv auth dst vs spl) ISweepFees [auth]
| bt_send_take k rq eq b a cw pw w cv pv spl vs srm p sd price qty pc mc mp limit :
    built (b_send_take k rq eq b a cw pw w cv pv spl vs srm p sd price qty pc mc mp limit) (ISendTake (mkTakeIx sd price qty pc mc mp limit)) [w]
| bt_close p x w dest k : built (b_close_open_orders p x w dest k) ICloseOO [w]
| bt_init_oo p x w k auth : built (b_init_open_orders p x w k auth) IInitOO (w :: match auth with Some a => [a] | None => [] end)
| bt_prune p k b a auth x w eq n : built (b_prune p k b a auth x w eq n) (IPrune n) [auth].
(** The instruction as built goes through. *)
Definition works (e : env) (c : clock) (s : store) (ci : cinstr) : Prop := exists s', process_bytes e c s (ci_data ci) (as_given ci) = Ok s'.
(** A market opened with the arguments of the builder: the authorities are a chain, each only counts if the ones before it are given. *)
Record as_called (mkt coin_mint pc_mint coin_vault pc_vault : Z) (auth prune_auth crank_auth : option Z)
    (bids asks req_q event_q coin_lot pc_lot nonce dust : Z) (m : market) : Prop := mkCalled {
  ac_keys : [m_own m; m_req_q m; m_event_q m; m_bids m; m_asks m; m_coin_vault m; m_pc_vault m; m_coin_mint m; m_pc_mint m] =
    [mkt; req_q; event_q; bids; asks; coin_vault; pc_vault; coin_mint; pc_mint];
  ac_numbers : [m_coin_lot m; m_pc_lot m; m_nonce m; m_dust m; m_fee_rate m] = [coin_lot; pc_lot; nonce; dust; 0];
  ac_perm : permissioned m <-> auth <> None;
  ac_crank : needs_crank_authority m <-> auth <> None /\ prune_auth <> None /\ crank_auth <> None;
  ac_auth : forall a, auth = Some a -> m_oo_auth m = a;
  ac_prune : forall a p, auth = Some a -> prune_auth = Some p -> m_prune_auth m = p;
  ac_no_prune : auth = None \/ prune_auth = None -> m_prune_auth m = 0;
  ac_crank_auth : forall a p x, auth = Some a -> prune_auth = Some p -> crank_auth = Some x -> m_crank_auth m = x }.
