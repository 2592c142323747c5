(** A market with a backlog of unprocessed events: the vocabulary of the property.  Nothing here is part of the program. *)
From Verif Require Import Base Fees ListSum Queue Codec Critbit CritbitSlab Market Matching Slots MatchSteps Ledger MatchSpec Core CoreNew Instr Store Process StoreProofs World WorldSpec OpenSpec PlaceSpec TakeSpec ExitSpec.

(** The backlog is gone: the books are as they were, the queue is empty, every account has been given what its own
    events say, and besides these accounts only the queue has changed; no token has moved. *)
Record cleared (e : env) (s s1 : store) (k : Z) (m : market) (A : astate) (L L1 : list (Z * open_orders)) : Prop := mkCleared {
  cl_seen : seen e s1 k m (mkA (a_bids A) (a_asks A) []) L1;
  cl_same : forall x, In x (map fst L1) <-> In x (map fst L);
  cl_booked : forall x oo, In (x, oo) L -> exists oo', In (x, oo') L1 /\ booked (own_events x (a_evs A)) oo oo';
  cl_only : only s s1 (m_event_q m :: map ev_owner (a_evs A));
  cl_tokens : forall v, token_at s1 v = token_at s v }.

(** [w] is ready to place order [ix] from account [x] as far as the state with the backlog shows.  Nothing is asked of
    the event queue; instead of a free slot it is asked that fewer than 128 orders of the account rest. *)
Record ready (e : env) (s : store) (c : clock) (k : Z) (m : market) (A : astate) (L : list (Z * open_orders)) (ix : order_ix) (x w : Z) (oo : open_orders) (payer : Z) (disc : list Z) : Prop := mkReady {
  rd_acct : account_for e s c k m L x w oo;
  rd_few : (own_count x A < 128)%nat;
  rd_ix : order_ix_ok ix; rd_time : in_time (c_now c) ix; rd_limit : oi_limit ix <= 31;
  rd_pay : can_pay s payer w (pays_in m (oi_side ix)) (to_pay ix (m_coin_lot m) oo);
  rd_disc : discount_ok s w disc;
  rd_payer : payer <> pays_into m (oi_side ix);
  rd_who : ~ In w [k; m_req_q m; m_event_q m; m_bids m; m_asks m];
  rd_room : forall t, token_at s (pays_into m (oi_side ix)) = Some t -> t_amount t + to_pay ix (m_coin_lot m) oo < B64;
  rd_locks : locks ix (m_coin_lot m) < B64;
  rd_coin : coin_due x oo A + m_coin_deposits m + (match oi_side ix with Ask => to_pay ix (m_coin_lot m) oo | Bid => 0 end) < B64;
  rd_pc : pc_due x oo A + m_pc_deposits m + (match oi_side ix with Bid => to_pay ix (m_coin_lot m) oo | Ask => 0 end) < B64;
  rd_own : oi_st ix = AbortTransaction -> oi_ot ix <> PostOnly ->
    ~ meets_own (book_of A (other (oi_side ix))) (oi_side ix) (oi_price ix) x (oi_qty ix) (oi_pc ix) (m_pc_lot m) (oi_limit ix) }.
(** The same for a SendTake of [w] with wallets [cw] and [pw]; no minimum is set. *)
Record ready_take (e : env) (s : store) (k : Z) (m : market) (sd : side) (price qty pc limit cw pw w p : Z) (disc : list Z) : Prop := mkReadyTake {
  rt_price : 0 < price < B64; rt_qty : 0 < qty < B64; rt_pc : 0 < pc < B64; rt_limit : 0 <= limit <= 31;
  rt_dep : may_spend sd qty pc (m_coin_lot m) < B64;
  rt_pay : can_pay s (spends_from sd cw pw) w (pays_in m sd) (may_spend sd qty pc (m_coin_lot m));
  rt_wallet : wallet s (receives_in sd cw pw) (pays_out m sd) (held m sd);
  rt_disc : discount_ok s w disc;
  rt_vaults : forall v, In v [cw; pw] -> v <> m_coin_vault m /\ v <> m_pc_vault m;
  rt_who : ~ In w [k; m_req_q m; m_event_q m; m_bids m; m_asks m];
  rt_pda : e_pda e (m_nonce m) k = Some p;
  rt_room : forall t, token_at s (pays_into m sd) = Some t -> t_amount t + may_spend sd qty pc (m_coin_lot m) < B64 }.

(** The transactions. *)
Definition order_accounts (m : market) (k x w payer rent : Z) (disc : list Z) : list meta :=
  mkMeta k false :: mkMeta x false :: mkMeta (m_req_q m) false :: mkMeta (m_event_q m) false :: mkMeta (m_bids m) false :: mkMeta (m_asks m) false ::
  mkMeta payer false :: mkMeta w true :: map (fun y => mkMeta y false) ([m_coin_vault m; m_pc_vault m; spl_id; rent] ++ disc).
Definition take_accounts (m : market) (k cw pw w p : Z) (disc : list Z) : list meta :=
  mkMeta k false :: mkMeta (m_req_q m) false :: mkMeta (m_event_q m) false :: mkMeta (m_bids m) false :: mkMeta (m_asks m) false ::
  mkMeta cw false :: mkMeta pw false :: mkMeta w true :: map (fun y => mkMeta y false) ([m_coin_vault m; m_pc_vault m; spl_id; p] ++ disc).
Definition cancel_accounts (m : market) (k x w : Z) : list meta :=
  [mkMeta k false; mkMeta (m_bids m) false; mkMeta (m_asks m) false; mkMeta x false; mkMeta w true; mkMeta (m_event_q m) false].
Definition carried_out (e : env) (c : clock) (s : store) (i : instr) (ms : list meta) : Prop := exists s', process e c s i ms = Ok s'.

(** The market is open for business again. *)
Record at_work (e : env) (c : clock) (s s1 : store) (k : Z) (m : market) (A : astate) (L : list (Z * open_orders)) : Prop := mkAtWork {
  aw_cancels : forall sd l x oo, In (x, oo) L -> In l (book_of A sd) -> l_owner l = x -> carried_out e c s1 (ICancelV2 sd (l_key l)) (cancel_accounts m k x (oo_owner oo));
  aw_orders : ~ disabled m -> thawed s (m_coin_vault m) -> thawed s (m_pc_vault m) ->
    forall ix x w oo payer rent disc, ready e s c k m A L ix x w oo payer disc -> carried_out e c s1 (INewOrderV3 ix) (order_accounts m k x w payer rent disc);
  aw_takes : ~ disabled m -> thawed s (m_coin_vault m) -> thawed s (m_pc_vault m) ->
    forall sd price qty pc limit cw pw w p disc, ready_take e s k m sd price qty pc limit cw pw w p disc ->
    carried_out e c s1 (ISendTake (mkTakeIx sd price qty pc 0 0 limit)) (take_accounts m k cw pw w p disc) }.
