(** What the client library builds is what the program takes (C55).  [built], [works], [as_called] are defined in ClientSpec.v. *)
From Coq Require Import Sorted.
From Verif Require Import Base Fees ListSum Queue Codec Critbit CritbitSlab Market Slots Matching MatchSteps Ledger MatchSpec Core CoreNew Instr InstrProofs Store Process StoreProofs World WorldInv WorldMain WorldSpec PlaceSpec TakeSpec OpenSpec Client ClientSpec ClientProofs ClientWorks WorldExample ExampleAuth.

(** C55: the data of every instruction built decodes to the call it was built for, and asks for the signatures of the right accounts only. *)
Theorem C55_decoded : forall ci i sg, built ci i sg -> wf_instr i -> unpack (ci_data ci) = Some i /\ signers ci = sg.
Proof. exact (fun ci i sg B W => conj (built_decodes ci i sg B W) (built_signers ci i sg B)). Qed.
Print Assumptions C55_decoded.
(** The accounts marked writable are enough: the program changes no other. *)
Theorem C55_writable_suffices : forall e c s ci i sg s', built ci i sg -> wf_instr i -> process_bytes e c s (ci_data ci) (as_given ci) = Ok s' -> only s s' (writable ci).
Proof. exact built_writes. Qed.
Print Assumptions C55_writable_suffices.

(** With the market's own accounts, the instruction built goes through. *)
Theorem C55_cancel_works : forall e, env_ok e -> forall s k m A L, history e s -> seen e s k m A L -> usable m ->
  forall c p sd l x oo, In (x, oo) L -> In l (book_of A sd) -> l_owner l = x -> places e s m 1 ->
  works e c s (b_cancel_order p k (m_bids m) (m_asks m) x (oo_owner oo) (m_event_q m) sd (l_key l)).
Proof. exact (fun e EO s k m A L H => cancel_works e s k m A L (reachable_inv e EO s H)). Qed.
Print Assumptions C55_cancel_works.
Theorem C55_cancel_by_client_ids_works : forall e, env_ok e -> forall s k m A L, history e s -> seen e s k m A L -> usable m ->
  forall c p x oo cids, In (x, oo) L -> length cids = 8%nat -> Forall u64 cids -> places e s m (zlen (with_cid x cids (a_bids A)) + zlen (with_cid x cids (a_asks A))) ->
  works e c s (b_cancel_by_client_ids p k (m_bids m) (m_asks m) x (oo_owner oo) (m_event_q m) cids).
Proof. exact (fun e EO s k m A L H => cancel_cids_works e s k m A L (reachable_inv e EO s H)). Qed.
Print Assumptions C55_cancel_by_client_ids_works.
Theorem C55_cancel_by_client_id_works : forall e, env_ok e -> forall s k m A L, history e s -> seen e s k m A L -> usable m ->
  forall c p x oo sd l, In (x, oo) L -> In l (book_of A sd) -> l_owner l = x -> l_cid l <> 0 -> u64 (l_cid l) ->
  (forall j, 0 <= j < 128 -> is_free oo j = false -> cid_at oo j = l_cid l -> j = l_slot l) -> places e s m 1 ->
  works e c s (b_cancel_by_client_id p k (m_bids m) (m_asks m) x (oo_owner oo) (m_event_q m) (l_cid l)).
Proof. exact (fun e EO s k m A L H => cancel_cid_works e s k m A L (reachable_inv e EO s H)). Qed.
Print Assumptions C55_cancel_by_client_id_works.
Theorem C55_settle_works : forall e, env_ok e -> forall s k m A L, history e s -> seen e s k m A L -> usable m ->
  forall c p x oo cw pw vs ref, In (x, oo) L -> e_pda e (m_nonce m) k = Some vs ->
  (let due := oo_coin_free oo + oo_pc_free oo + oo_rebates oo in
   wallet s cw (m_coin_mint m) due /\ wallet s pw (m_pc_mint m) due /\ (forall r, ref = Some r -> wallet s r (m_pc_mint m) due)) ->
  thawed s (m_coin_vault m) -> thawed s (m_pc_vault m) ->
  works e c s (b_settle_funds p k spl_id x (oo_owner oo) (m_coin_vault m) cw (m_pc_vault m) pw ref vs).
Proof. exact (fun e EO s k m A L H => settle_works e EO s k m A L (reachable_inv e EO s H)). Qed.
Print Assumptions C55_settle_works.
Theorem C55_close_works : forall e, env_ok e -> forall s k m A L, history e s -> seen e s k m A L -> usable m ->
  forall c p x oo dest, In (x, oo) L -> oo_coin_total oo = 0 -> oo_pc_total oo = 0 -> (forall j, 0 <= j < 128 -> is_free oo j = true) ->
  dest <> x -> a_lamports (sget s dest) + a_lamports (sget s x) < B64 -> works e c s (b_close_open_orders p x (oo_owner oo) dest k).
Proof. exact (fun e EO s k m A L H => close_works e s k m A L (reachable_inv e EO s H)). Qed.
Print Assumptions C55_close_works.
Theorem C55_prune_works : forall e, env_ok e -> forall s k m A L, history e s -> seen e s k m A L -> usable m ->
  forall c p n x oo, has_flag (m_flags m) AF_Permissioned = true -> ~ disabled m -> In (x, oo) L -> 0 <= n < 65536 ->
  places e s m (Z.min n (zlen (own_orders x (a_bids A)) + zlen (own_orders x (a_asks A)))) ->
  works e c s (b_prune p k (m_bids m) (m_asks m) (m_prune_auth m) x (oo_owner oo) (m_event_q m) n).
Proof. exact (fun e EO s k m A L H => prune_works e s k m A L (reachable_inv e EO s H)). Qed.
Print Assumptions C55_prune_works.
(** The accounts to serve have to be in increasing order. *)
Theorem C55_consume_works : forall e, env_ok e -> forall s k m A L, history e s -> seen e s k m A L -> usable m ->
  forall c p oos cf pf n, no_overflow e s -> ~ needs_crank_authority m -> oos <> [] -> StronglySorted Z.lt oos -> 0 <= n < 65536 ->
  let ci := b_consume_events p oos k (m_event_q m) cf pf n in
  exists s', process_bytes e c s (ci_data ci) (as_given ci) = Ok s' /\ consumes e s s' k m A L (served (Z.to_nat n) oos (a_evs A)).
Proof. exact (fun e EO s k m A L H => consume_works e EO s k m A L (reachable_inv e EO s H)). Qed.
Print Assumptions C55_consume_works.
Theorem C55_permissioned_consume_works : forall e, env_ok e -> forall s k m A L, history e s -> seen e s k m A L -> usable m ->
  forall c p oos n, no_overflow e s -> needs_crank_authority m -> oos <> [] -> StronglySorted Z.lt oos -> 0 <= n < 65536 ->
  let ci := b_consume_events_permissioned p oos k (m_event_q m) (m_crank_auth m) n in
  exists s', process_bytes e c s (ci_data ci) (as_given ci) = Ok s' /\ consumes e s s' k m A L (served (Z.to_nat n) oos (a_evs A)).
Proof. exact (fun e EO s k m A L H => consume_perm_works e EO s k m A L (reachable_inv e EO s H)). Qed.
Print Assumptions C55_permissioned_consume_works.
(** As in C53. *)
Theorem C55_new_order_works : forall e, env_ok e -> forall s k m A L, history e s -> seen e s k m A L -> usable m ->
  forall c p ix x w oo payer rent srm q, account_for e s c k m L x w oo -> ~ disabled m -> order_ix_ok ix -> in_time (c_now c) ix ->
  (exists j, 0 <= j < 128 /\ is_free oo j = true) ->
  let dep := to_pay ix (m_coin_lot m) oo in let vault := pays_into m (oi_side ix) in
  can_pay s payer w (pays_in m (oi_side ix)) dep -> discount_ok s w (match srm with Some d => [d] | None => [] end) -> payer <> vault -> ~ In w [k; m_req_q m; m_event_q m; m_bids m; m_asks m] ->
  thawed s (m_coin_vault m) -> thawed s (m_pc_vault m) -> (forall t, token_at s vault = Some t -> t_amount t + dep < B64) ->
  locks ix (m_coin_lot m) < B64 ->
  oo_coin_total oo + m_coin_deposits m + (match oi_side ix with Ask => dep | Bid => 0 end) < B64 ->
  oo_pc_total oo + m_pc_deposits m + (match oi_side ix with Bid => dep | Ask => 0 end) < B64 ->
  let opp := book_of A (other (oi_side ix)) in
  (oi_st ix = AbortTransaction -> oi_ot ix <> PostOnly -> ~ meets_own opp (oi_side ix) (oi_price ix) x (oi_qty ix) (oi_pc ix) (m_pc_lot m) (oi_limit ix)) ->
  dexd e s (m_event_q m) = Some (DEventQ q) ->
  zlen (a_evs A) + events_needed opp (oi_side ix) (oi_price ix) x (oi_st ix) (oi_limit ix) <= zlen (q_buf q) ->
  works e c s (b_new_order k x (m_req_q m) (m_event_q m) (m_bids m) (m_asks m) payer w (m_coin_vault m) (m_pc_vault m) spl_id rent srm p
    (oi_side ix) (oi_price ix) (oi_qty ix) (oi_ot ix) (oi_cid ix) (oi_st ix) (oi_limit ix) (oi_pc ix) (oi_max_ts ix)).
Proof. exact (fun e EO s k m A L H => new_order_works e EO s k m A L (reachable_inv e EO s H)). Qed.
Print Assumptions C55_new_order_works.
(** As in C31. *)
Theorem C55_send_take_works : forall e, env_ok e -> forall s k m A L, history e s -> seen e s k m A L -> usable m ->
  forall c p sd price qty pc limit cw pw w vs srm q, ~ disabled m ->
  0 < price < B64 -> 0 < qty < B64 -> 0 < pc < B64 -> 0 <= limit < 65536 ->
  let dep := may_spend sd qty pc (m_coin_lot m) in let src := spends_from sd cw pw in let dst := receives_in sd cw pw in
  dep < B64 -> can_pay s src w (pays_in m sd) dep -> wallet s dst (pays_out m sd) (held m sd) -> discount_ok s w (match srm with Some d => [d] | None => [] end) ->
  (forall v, In v [cw; pw] -> v <> m_coin_vault m /\ v <> m_pc_vault m) -> ~ In w [k; m_req_q m; m_event_q m; m_bids m; m_asks m] ->
  e_pda e (m_nonce m) k = Some vs -> thawed s (m_coin_vault m) -> thawed s (m_pc_vault m) ->
  (forall t, token_at s (pays_into m sd) = Some t -> t_amount t + dep < B64) ->
  dexd e s (m_event_q m) = Some (DEventQ q) ->
  zlen (a_evs A) + events_needed (book_of A (other sd)) sd price 0 AbortTransaction limit <= zlen (q_buf q) ->
  exists s' gain, forall mc mp, u64 mc -> u64 mp ->
    let ci := b_send_take k (m_req_q m) (m_event_q m) (m_bids m) (m_asks m) cw pw w (m_coin_vault m) (m_pc_vault m) spl_id vs srm p sd price qty pc mc mp limit in
    process_bytes e c s (ci_data ci) (as_given ci) = if minimum sd mc mp <=? gain then Ok s' else Err EMinAmountNotMet.
Proof. exact (fun e EO s k m A L H => take_works e EO s k m A L (reachable_inv e EO s H)). Qed.
Print Assumptions C55_send_take_works.
(** The fee sweeper can always sweep an enabled market, and the disabling authority can always disable it. *)
Theorem C55_sweep_works : forall e, env_ok e -> forall s k m A L, history e s -> seen e s k m A L -> usable m ->
  forall c p pw vs, ~ disabled m -> wallet s pw (m_pc_mint m) (m_pc_fees m) -> thawed s (m_pc_vault m) -> e_pda e (m_nonce m) k = Some vs ->
  works e c s (b_sweep_fees p k (m_pc_vault m) fee_sweeper pw vs spl_id).
Proof. exact (fun e EO s k m A L H => sweep_works e EO s k m A L (reachable_inv e EO s H)). Qed.
Print Assumptions C55_sweep_works.
Theorem C55_disable_works : forall e, env_ok e -> forall s k m A L, history e s -> seen e s k m A L ->
  forall c p, ~ disabled m -> works e c s (b_disable_market p k disable_authority).
Proof. exact (fun e EO s k m A L H => disable_works e s k m A L (reachable_inv e EO s H)). Qed.
Print Assumptions C55_disable_works.
(** On a permissioned market the market's authority has to be named, and only there. *)
Theorem C55_init_open_orders_works : forall e, env_ok e -> forall s k m A L, history e s -> seen e s k m A L ->
  forall c p x w auth, ~ disabled m -> dexd e s x = Some DZero -> a_len (sget s x) = 3228 -> c_exempt c (a_lamports (sget s x)) 3228 = true ->
  auth = (if has_flag (m_flags m) AF_Permissioned then Some (m_oo_auth m) else None) -> works e c s (b_init_open_orders p x w k auth).
Proof. exact (fun e EO s k m A L H => init_oo_works e s k m A L (reachable_inv e EO s H)). Qed.
Print Assumptions C55_init_open_orders_works.
(** Matching orders by request is a leftover: it does nothing, whatever the accounts. *)
Theorem C55_match_orders_is_empty : forall e c s p k rq b a eq cf pf n, u16 n ->
  let ci := b_match_orders p k rq b a eq cf pf n in process_bytes e c s (ci_data ci) (as_given ci) = Ok s.
Proof. exact (fun e c s p k rq b a eq cf pf n U => built_runs e c s _ _ _ (bt_match_orders p k rq b a eq cf pf n) U). Qed.
Print Assumptions C55_match_orders_is_empty.
(** As in C52, and the market is the one described by the arguments. *)
Theorem C55_initialize_works : forall e c s p k cm pm cv pv auth prune_auth crank_auth b a rq eq cl pl n d vs, env_ok e -> history e s ->
  wf_init (mkInitIx cl pl 0 n d) -> NoDup [k; rq; eq; b; a] -> blank_of e s 388 k -> a_len (sget s k) = match auth with None => 388 | Some _ => 1476 end ->
  blank_of e s 124 rq -> blank_of e s 11308 eq -> blank_of e s 14524 b -> blank_of e s 14524 a ->
  e_pda e n k = Some vs -> usable_vault s vs cv cm -> usable_vault s vs pv pm -> is_mint s cm -> is_mint s pm ->
  (forall x, In x [rq; eq; b; a; cv; pv; cm; pm] -> c_exempt c (a_lamports (sget s x)) (a_len (sget s x)) = true) ->
  let ci := b_initialize_market k p cm pm cv pv auth prune_auth crank_auth b a rq eq cl pl n d in
  exists s' m, process_bytes e c s (ci_data ci) (as_given ci) = Ok s' /\ dexd e s' k = Some (DMarket m) /\ as_called k cm pm cv pv auth prune_auth crank_auth b a rq eq cl pl n d m.
Proof. exact initialize_works. Qed.
Print Assumptions C55_initialize_works.

(** Refuted: that it is enough to name the owner of every event, in any order.  The program looks accounts up by bisection. *)
Theorem C55_consume_in_any_order_refuted : exists e s k m A L c p oos cf pf n s', env_ok e /\ history e s /\ no_overflow e s /\ seen e s k m A L /\ usable m /\ ~ needs_crank_authority m /\
  NoDup oos /\ (forall v, In v (a_evs A) -> In (ev_owner v) oos) /\ a_evs A <> [] /\ 0 < n /\
  (let ci := b_consume_events p oos k (m_event_q m) cf pf n in process_bytes e c s (ci_data ci) (as_given ci) = Ok s') /\ seen e s' k m A L.
Proof.
  exists ex_env, w4, 10, w4_m, w4_A, w4_L, ex_clock, 7, [111; 131; 101], 0, 0, 10.
  destruct (succeeds_ok (process_bytes ex_env ex_clock w4 (pack (IConsumeEvents 10)) (map k_ [111; 131; 101; 10; 12; 0; 0]))) as (s' & E); [vm_compute; reflexivity|].
  exists s'. split; [exact ex_env_ok|]. split; [exact w4_h|]. split; [apply guard_ok; vm_compute; reflexivity|]. split; [exact w4_seen|]. split; [exact w4_usable|].
  split; [intros [C _]; vm_compute in C; discriminate|]. split; [repeat constructor; cbn; intuition discriminate|].
  split; [cbv [w4_A a_evs]; intros v I; repeat (destruct I as [<-|I]; [vm_compute; auto|]); contradiction|].
  split; [discriminate|]. split; [lia|]. split; [exact E|].
  assert (X : s' = match process_bytes ex_env ex_clock w4 (pack (IConsumeEvents 10)) (map k_ [111; 131; 101; 10; 12; 0; 0]) with Ok t => t | _ => [] end) by (rewrite E; reflexivity).
  rewrite X. apply look_seen; vm_compute; reflexivity.
Qed.
Print Assumptions C55_consume_in_any_order_refuted.
(** Refuted: that a crank authority given to the builder becomes the market's.  Without a prune authority it is left out, and anyone may crank. *)
Theorem C55_authority_is_kept_refuted : exists e s c k p cm pm cv pv auth cr b a rq eq cl pl n d s' m, env_ok e /\ history e s /\
  (let ci := b_initialize_market k p cm pm cv pv (Some auth) None (Some cr) b a rq eq cl pl n d in process_bytes e c s (ci_data ci) (as_given ci) = Ok s') /\
  dexd e s' k = Some (DMarket m) /\ cr <> 0 /\ m_crank_auth m <> cr /\ ~ needs_crank_authority m.
Proof.
  exists ex_env, w7, ex_clock, 30, 7, 17, 18, 35, 36, 300, 302, 33, 34, 31, 32, 10, 1000, 3, 100.
  destruct (initialize_works ex_env ex_clock w7 7 30 17 18 35 36 (Some 300) None (Some 302) 33 34 31 32 10 1000 3 100 901 ex_env_ok w7_h) as (s' & m & R & M & AC);
    [vm_compute; repeat split; congruence|repeat constructor; cbn; intuition discriminate| |vm_compute; reflexivity| | | | |reflexivity| | | | | |].
  1-5: (split; [vm_compute; reflexivity|split; [vm_compute; reflexivity|vm_compute; discriminate]]).
  1, 2: (eexists; split; [vm_compute; reflexivity|]; repeat (split; [vm_compute; reflexivity|]); vm_compute; reflexivity).
  1, 2: split; [vm_compute; reflexivity|split; vm_compute; reflexivity].
  { intros x _. reflexivity. }
  exists s', m. split; [exact ex_env_ok|]. split; [exact w7_h|]. split; [exact R|]. split; [exact M|]. split; [lia|].
  assert (NC : ~ needs_crank_authority m) by (intros C; apply (ac_crank _ _ _ _ _ _ _ _ _ _ _ _ _ _ _ _ _ AC) in C; destruct C as (_ & C & _); apply C; reflexivity).
  split; [|exact NC].
  assert (X : s' = match process_bytes ex_env ex_clock w7 (pack ix8) (map k_ [30; 31; 32; 33; 34; 35; 36; 17; 18; rent_id; 300]) with Ok t => t | _ => [] end) by (change (process_bytes ex_env ex_clock w7 (pack ix8) (map k_ [30; 31; 32; 33; 34; 35; 36; 17; 18; rent_id; 300]) = Ok s') in R; rewrite R; reflexivity).
  rewrite X in M. vm_compute in M. intros C. assert (Y : match Some (DMarket m) with Some (DMarket m') => m_crank_auth m' | _ => 0 end = 302) by exact C. rewrite <- M in Y. discriminate Y.
Qed.
Print Assumptions C55_authority_is_kept_refuted.

(** ** The hypotheses are met *)
(** Every builder, on a store reached by the history in WorldExample.v or ExampleAuth.v: each is [built] from a well-formed call and goes through. *)
Definition client_cases : list (store * (cinstr * instr * list Z)) := [
  (w0, (b_initialize_market 10 7 17 18 15 16 None None None 13 14 11 12 10 1000 3 100, IInitMarket (mkInitIx 10 1000 0 3 100), []));
  (w7, (b_initialize_market 30 7 17 18 35 36 (Some 300) (Some 301) (Some 302) 33 34 31 32 10 1000 3 100, IInitMarket (mkInitIx 10 1000 0 3 100), []));
  (w3, (b_new_order 10 111 11 12 13 14 113 110 15 16 spl_id 0 None 7 Bid 55 5 Limit 23 DecrementTake 65535 1000000 I64_MAX, INewOrderV3 (mkOrderIx Bid 55 5 1000000 DecrementTake Limit 23 65535 I64_MAX), [110]));
  (w4, (b_match_orders 7 10 11 13 14 12 0 0 5, IMatchOrders 5, []));
  (w4, (b_consume_events 7 [101; 111] 10 12 0 0 10, IConsumeEvents 10, []));
  (w12, (b_consume_events_permissioned 7 [131] 30 32 302 5, IConsumePermissioned 5, [302]));
  (w4, (b_cancel_order 7 10 13 14 101 100 12 Ask 1106804644422573096961, ICancelV2 Ask 1106804644422573096961, [100]));
  (w5, (b_settle_funds 7 10 spl_id 111 110 15 112 16 113 (Some 150) 900, ISettleFunds, [110]));
  (w4, (b_cancel_by_client_id 7 10 13 14 101 100 12 22, ICancelByCid 22, [100]));
  (w4, (b_cancel_by_client_ids 7 10 13 14 101 100 12 [22; 9; 0; 0; 0; 0; 0; 0], ICancelByCids [22; 9; 0; 0; 0; 0; 0; 0], [100]));
  (w4, (b_disable_market 7 10 disable_authority, IDisableMarket, [disable_authority]));
  (w7, (b_sweep_fees 7 10 16 fee_sweeper 150 900 spl_id, ISweepFees, [fee_sweeper]));
  (w3, (b_send_take 10 11 12 13 14 112 113 110 15 16 spl_id 900 None 7 Bid 60 5 1000000 1 0 10, ISendTake (mkTakeIx Bid 60 5 1000000 1 0 10), [110]));
  (d4, (b_close_open_orders 7 111 110 100 10, ICloseOO, [110]));
  (w8, (b_init_open_orders 7 131 140 30 (Some 300), IInitOO, [140; 300]));
  (w11, (b_prune 7 30 33 34 301 131 140 32 4, IPrune 4, [301])) ].
Example C55_case : Forall (fun p => let '(s, (ci, i, sg)) := p in history ex_env s /\ built ci i sg /\ wf_instr i /\ works ex_env ex_clock s ci) client_cases.
Proof.
  unfold client_cases. repeat apply Forall_cons; [..|apply Forall_nil];
    (split; [first [exact w0_h|exact w3_h|exact w4_h|exact w5_h|exact w7_h|exact w8_h|exact w11_h|exact w12_h|exact d4_h]|]);
    (split; [constructor|]); (split; [|apply succeeds_ok; vm_compute; reflexivity]);
    cbn; unfold wf_init, wf_v3, wf_take, nz64, u16, u64, u128, I64_MAX; cbn; repeat split; try lia; repeat constructor; lia.
Qed.
