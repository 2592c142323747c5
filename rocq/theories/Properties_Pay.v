(** What leaves and enters the vaults when a trader settles, takes directly or places an order (C30, C31, C46), in every
    state of every history.  [settles], [takes] and [orders] (WorldSpec.v) give every token movement, every
    balance and counter, the book and the queue, and say that no other account changes. *)
From Verif Require Import Base Fees ListSum Codec Critbit CritbitSlab Market Slots Matching MatchSteps Ledger MatchSpec Core CoreNew Instr Store Process StoreProofs World WorldInv WorldSpec WorldFacts WorldMain WorldPay WorldTrade WorldExample.

(** C30 *)
Theorem C30_settle_pays_exactly_the_free_amounts : forall e, env_ok e -> forall s k m A L, history e s -> seen e s k m A L -> usable m ->
  forall c ms s', process e c s ISettleFunds ms = Ok s' -> key_at ms 0 = Some k ->
  exists x oo cw pw, key_at ms 1 = Some x /\ In (x, oo) L /\ signs ms 2 (oo_owner oo) /\ key_at ms 5 = Some cw /\ key_at ms 6 = Some pw /\
    settles e s s' k m A L x oo cw pw (key_at ms 9).
Proof. exact (fun e EO s k m A L H => settle_effect e EO s k m A L (reachable_inv e EO s H)). Qed.
Print Assumptions C30_settle_pays_exactly_the_free_amounts.
(** The vault's freeze authority apart, nothing can stop it; the wallets must exist and have room. *)
Theorem C30_settle_is_always_possible : forall e, env_ok e -> forall s k m A L, history e s -> seen e s k m A L -> usable m ->
  forall c x oo cw pw p refs, In (x, oo) L -> e_pda e (m_nonce m) k = Some p ->
  (let due := oo_coin_free oo + oo_pc_free oo + oo_rebates oo in
   wallet s cw (m_coin_mint m) due /\ wallet s pw (m_pc_mint m) due /\ (refs = [] \/ exists r, refs = [r] /\ wallet s r (m_pc_mint m) due)) ->
  thawed s (m_coin_vault m) -> thawed s (m_pc_vault m) ->
  exists s', process e c s ISettleFunds
    (mkMeta k false :: mkMeta x false :: mkMeta (oo_owner oo) true ::
     map (fun y => mkMeta y false) ([m_coin_vault m; m_pc_vault m; cw; pw; p; spl_id] ++ refs)) = Ok s'.
Proof. exact (fun e EO s k m A L H => settle_succeeds e EO s k m A L (reachable_inv e EO s H)). Qed.
Print Assumptions C30_settle_is_always_possible.

(** C31 *)
Theorem C31_send_take : forall e, env_ok e -> forall s k m A L, history e s -> no_overflow e s -> seen e s k m A L -> usable m ->
  forall c ix ms s', process e c s (ISendTake ix) ms = Ok s' -> key_at ms 0 = Some k -> take_ix_ok ix ->
  exists w t cw pw, signs ms 7 w /\ key_at ms 5 = Some cw /\ key_at ms 6 = Some pw /\ tier_for s k w (key_at ms 12) t /\
    takes e s s' k m A L ix t cw pw.
Proof. exact (fun e EO s k m A L H G SN P => take_effect e EO s k m A L (reachable_inv e EO s H) SN P (guard_room e s 1 G ltac:(lia))). Qed.
Print Assumptions C31_send_take.

(** C46 *)
Theorem C46_new_order_charges_exactly : forall e, env_ok e -> forall s k m A L, history e s -> no_overflow e s -> seen e s k m A L -> usable m ->
  forall c ix ms s', process e c s (INewOrderV3 ix) ms = Ok s' -> key_at ms 0 = Some k -> order_ix_ok ix ->
  exists x w t payer oo, key_at ms 1 = Some x /\ signs ms 7 w /\ key_at ms 6 = Some payer /\ oo_owner oo = w /\ tier_for s k w (key_at ms 12) t /\
    (In (x, oo) L \/ (dexd e s x = Some DZero /\ has_flag (m_flags m) AF_Permissioned = false /\ blank_for k w oo)) /\
    orders e s s' k m A L ix t x payer oo.
Proof. exact (fun e EO s k m A L H G SN P => order_effect e EO s k m A L (reachable_inv e EO s H) SN P (guard_room e s 1 G ltac:(lia))). Qed.
Print Assumptions C46_new_order_charges_exactly.

(** ** The hypotheses are met *)
(** Bob bought 4 lots and has change; a referrer's share of 16 is due. *)
Example C30_case : exists e s k m A L x oo p, env_ok e /\ history e s /\ seen e s k m A L /\ usable m /\ In (x, oo) L /\ e_pda e (m_nonce m) k = Some p /\
  oo_coin_free oo = 40 /\ 0 < oo_pc_free oo < oo_pc_total oo /\ oo_rebates oo = 16 /\
  (let due := oo_coin_free oo + oo_pc_free oo + oo_rebates oo in wallet s 112 (m_coin_mint m) due /\ wallet s 113 (m_pc_mint m) due /\ wallet s 150 (m_pc_mint m) due) /\
  thawed s (m_coin_vault m) /\ thawed s (m_pc_vault m) /\
  exists s', process e ex_clock s ISettleFunds (ms_settle 111 110 112 113 [150]) = Ok s' /\ key_at (ms_settle 111 110 112 113 [150]) 0 = Some k.
Proof.
  exists ex_env, w5, 10, w5_m, w5_A, w5_L, 111, (snd (nth 1 w5_L (0, oo_zero))), 900.
  split; [exact ex_env_ok|]. split; [exact w5_h|]. split; [exact w5_seen|]. split; [exact w5_usable|]. split; [vm_compute; auto|]. split; [reflexivity|].
  split; [vm_compute; reflexivity|]. split; [vm_compute; repeat split; reflexivity|]. split; [vm_compute; reflexivity|].
  split. { cbv zeta. repeat split; (eexists; split; [vm_compute; reflexivity|vm_compute; repeat split; reflexivity]). }
  split; [eexists; split; vm_compute; reflexivity|]. split; [eexists; split; vm_compute; reflexivity|].
  destruct (succeeds_ok (process ex_env ex_clock w5 ISettleFunds (ms_settle 111 110 112 113 [150]))) as (s' & E); [vm_compute; reflexivity|].
  exists s'. split; [exact E|reflexivity].
Qed.
(** Bob takes 5 lots, 4 at 50 and 1 at 60, or sells one lot into the bid at 55. *)
Definition ms_take := map k_ [10; 11; 12; 13; 14; 112; 113] ++ [s_ 110] ++ map k_ [15; 16; spl_id; 900].
Definition ix_take := mkTakeIx Bid 60 5 1000000 5 0 65535.
Definition ix_sell := mkTakeIx Ask 50 1 1 0 1000 65535.
Example C31_case : exists e s k m A L, env_ok e /\ history e s /\ no_overflow e s /\ seen e s k m A L /\ usable m /\ take_ix_ok ix_take /\
  map l_price (a_asks A) = [50; 60] /\ key_at ms_take 0 = Some k /\
  exists s', process e ex_clock s (ISendTake ix_take) ms_take = Ok s'.
Proof.
  exists ex_env, w3, 10, w3_m, w3_A, w3_L.
  split; [exact ex_env_ok|]. split; [exact w3_h|]. split; [apply guard_ok; vm_compute; reflexivity|]. split; [exact w3_seen|]. split; [exact w3_usable|].
  split; [constructor; cbn; unfold u64; lia|]. split; [vm_compute; reflexivity|]. split; [vm_compute; reflexivity|]. apply succeeds_ok. vm_compute. reflexivity.
Qed.
Example C31_sell_case : exists e s k m A L, env_ok e /\ history e s /\ no_overflow e s /\ seen e s k m A L /\ usable m /\ take_ix_ok ix_sell /\
  map l_price (a_bids A) = [55] /\ key_at ms_take 0 = Some k /\
  exists s', process e ex_clock s (ISendTake ix_sell) ms_take = Ok s'.
Proof.
  exists ex_env, w4, 10, w4_m, w4_A, w4_L.
  split; [exact ex_env_ok|]. split; [exact w4_h|]. split; [apply guard_ok; vm_compute; reflexivity|]. split; [exact w4_seen|]. split; [exact w4_usable|].
  split; [constructor; cbn; unfold u64; lia|]. split; [vm_compute; reflexivity|]. split; [vm_compute; reflexivity|]. apply succeeds_ok. vm_compute. reflexivity.
Qed.
(** Bob's first order opens their account, trades 4 lots and rests 1; after the crank the free quote currency pays for the next. *)
Definition ix_more := mkOrderIx Bid 40 5 900000 DecrementTake Limit 24 65535 I64_MAX.
Example C46_case : (exists e s k m A L ix, env_ok e /\ history e s /\ no_overflow e s /\ seen e s k m A L /\ usable m /\ ix4 = INewOrderV3 ix /\ order_ix_ok ix /\
    dexd e s 111 = Some DZero /\ key_at (ms_order 111 113 110) 0 = Some k /\ exists s', process e ex_clock s ix4 (ms_order 111 113 110) = Ok s') /\
  (exists e s k m A L oo, env_ok e /\ history e s /\ no_overflow e s /\ seen e s k m A L /\ usable m /\ order_ix_ok ix_more /\ In (111, oo) L /\
    0 < oo_pc_free oo < oi_pc ix_more /\ key_at (ms_order 111 113 110) 0 = Some k /\ exists s', process e ex_clock s (INewOrderV3 ix_more) (ms_order 111 113 110) = Ok s').
Proof.
  split.
  - exists ex_env, w3, 10, w3_m, w3_A, w3_L. eexists.
    split; [exact ex_env_ok|]. split; [exact w3_h|]. split; [apply guard_ok; vm_compute; reflexivity|]. split; [exact w3_seen|]. split; [exact w3_usable|].
    split; [reflexivity|]. split; [constructor; cbn; unfold u64, I64_MAX; lia|]. split; [vm_compute; reflexivity|]. split; [vm_compute; reflexivity|]. apply succeeds_ok. vm_compute. reflexivity.
  - exists ex_env, w5, 10, w5_m, w5_A, w5_L, (snd (nth 1 w5_L (0, oo_zero))).
    split; [exact ex_env_ok|]. split; [exact w5_h|]. split; [apply guard_ok; vm_compute; reflexivity|]. split; [exact w5_seen|]. split; [exact w5_usable|].
    split; [constructor; cbn; unfold u64, I64_MAX; lia|]. split; [vm_compute; auto|]. split; [vm_compute; split; reflexivity|]. split; [vm_compute; reflexivity|]. apply succeeds_ok. vm_compute. reflexivity.
Qed.
