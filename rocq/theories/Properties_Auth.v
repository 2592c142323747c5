(** Who may do what (C32, C33, C34, C35, C37, C47, C48).  [anytime e s]: [s] is a state of any history
    whatever, of any transactions of any bytes, accounts and signers and anything other programs may do; no
    guard.  [history] is as in the other world properties.  The vocabulary is that of WorldSpec.v. *)
From Verif Require Import Base Fees ListSum Codec Critbit CritbitSlab Market Slots Matching MatchSteps Ledger MatchSpec Core CoreNew Instr Store Process StoreProofs World WorldInv WorldSpec WorldFacts WorldMain WorldAuth WorldRights WorldExample ExampleAuth.

(** C32.  Whatever instruction changes an open-orders account names it and is signed by its owner, unless it
    is the market's prune authority pruning or somebody consuming events. *)
Theorem C32_owner_signature : forall e, env_ok e -> forall s c i ms s' x oo, anytime e s -> process e c s i ms = Ok s' ->
  dexd e s x = Some (DOO oo) -> dexd e s' x <> dexd e s x ->
  In x (map mk ms) /\
  (signed_by ms (oo_owner oo) \/
   (exists n m, i = IPrune n /\ dexd e s (oo_market oo) = Some (DMarket m) /\ permissioned m /\ signed_by ms (m_prune_auth m)) \/
   consuming i).
Proof. exact owner_only. Qed.
Print Assumptions C32_owner_signature.
(** Also when nothing changes: placing, cancelling, replacing, settling and closing fail unsigned. *)
Theorem C32_owner_must_sign : forall e, env_ok e -> forall s c i ms s' x, anytime e s -> process e c s i ms = Ok s' -> acts_for i ms = Some x ->
  exists oo', dexd e s' x = Some (DOO oo') /\ signed_by ms (oo_owner oo') /\
    forall oo, dexd e s x = Some (DOO oo) -> oo_owner oo = oo_owner oo' /\ oo_market oo = oo_market oo'.
Proof. exact owner_signs. Qed.
Print Assumptions C32_owner_must_sign.
Theorem C32_one_account : forall e, env_ok e -> forall s c i ms s' x y ox oy, anytime e s -> process e c s i ms = Ok s' -> ~ consuming i ->
  dexd e s x = Some (DOO ox) -> dexd e s' x <> dexd e s x -> dexd e s y = Some (DOO oy) -> dexd e s' y <> dexd e s y -> x = y.
Proof. exact one_account. Qed.
Print Assumptions C32_one_account.
(** Pruning and consuming move no tokens. *)
Theorem C32_prune_and_crank_move_no_tokens : forall e, env_ok e -> forall s c i ms s', anytime e s -> process e c s i ms = Ok s' ->
  consuming i \/ (exists n, i = IPrune n) -> forall v, token_at s' v = token_at s v.
Proof.
  exact (fun e EO s c i ms s' AT H D v => match D with
    | or_introl CI => let '(ex_intro _ k (ex_intro _ m (conj _ (conj _ (conj _ T))))) := consume_signed e EO s c i ms s' AT H CI in T v
    | or_intror (ex_intro _ n E) => let '(ex_intro _ k (ex_intro _ m (conj _ (conj _ (conj _ (conj _ (conj _ T))))))) :=
        prune_signed e EO s c n ms s' AT (eq_ind i (fun j => process e c s j ms = Ok s') H (IPrune n) E) in T v
    end).
Qed.
Print Assumptions C32_prune_and_crank_move_no_tokens.

(** C33 *)
Theorem C33_disable : forall e, env_ok e -> forall s c ms s', anytime e s -> process e c s IDisableMarket ms = Ok s' ->
  exists k m, key_at ms 0 = Some k /\ signs ms 1 disable_authority /\ dexd e s k = Some (DMarket m) /\ ~ disabled m /\
    dexd e s' k = Some (DMarket (set_flags m (Z.lor (m_flags m) 128))) /\ only s s' [k].
Proof. exact disable_signed. Qed.
Print Assumptions C33_disable.
Theorem C33_sweep : forall e, env_ok e -> forall s c ms s', anytime e s -> process e c s ISweepFees ms = Ok s' ->
  exists k m dst p spl, map mk ms = [k; m_pc_vault m; fee_sweeper; dst; p; spl] /\ signs ms 2 fee_sweeper /\ dexd e s k = Some (DMarket m) /\ ~ disabled m /\ e_pda e (m_nonce m) k = Some p /\
    dexd e s' k = Some (DMarket (set_counters m (m_coin_deposits m) (m_pc_deposits m) 0 (m_rebates m))) /\
    moves s s' [(m_pc_vault m, dst, m_pc_fees m)] /\ only s s' [k; m_pc_vault m; dst].
Proof. exact sweep_signed. Qed.
Print Assumptions C33_sweep.
Theorem C33_fees_leave_only_by_sweeping : forall e, env_ok e -> forall s c i ms s' k m, history e s -> no_overflow e s -> legal e ms -> wf_instr i ->
  process e c s i ms = Ok s' -> i <> ISweepFees -> dexd e s k = Some (DMarket m) -> usable m ->
  exists m', dexd e s' k = Some (DMarket m') /\ m_pc_fees m <= m_pc_fees m'.
Proof. exact fees_kept. Qed.
Print Assumptions C33_fees_leave_only_by_sweeping.
Theorem C33_prune : forall e, env_ok e -> forall s c n ms s', anytime e s -> process e c s (IPrune n) ms = Ok s' ->
  exists k m, key_at ms 0 = Some k /\ dexd e s k = Some (DMarket m) /\ permissioned m /\ ~ disabled m /\ signs ms 3 (m_prune_auth m) /\ forall v, token_at s' v = token_at s v.
Proof. exact prune_signed. Qed.
Print Assumptions C33_prune.
Theorem C33_consume : forall e, env_ok e -> forall s c i ms s', anytime e s -> process e c s i ms = Ok s' -> consuming i ->
  exists k m, In k (map mk ms) /\ dexd e s k = Some (DMarket m) /\ (needs_crank_authority m -> signed_by ms (m_crank_auth m)) /\ forall v, token_at s' v = token_at s v.
Proof. exact consume_signed. Qed.
Print Assumptions C33_consume.
Theorem C33_opening : forall e, env_ok e -> forall s c i ms s' x oo, anytime e s -> process e c s i ms = Ok s' -> dexd e s' x = Some (DOO oo) -> (forall o, dexd e s x <> Some (DOO o)) ->
  dexd e s x = Some DZero /\ In x (map mk ms) /\ signed_by ms (oo_owner oo) /\ oo_flags oo = OO_FLAGS /\
  exists m, dexd e s (oo_market oo) = Some (DMarket m) /\ ~ disabled m /\ (permissioned m -> i = IInitOO /\ signed_by ms (m_oo_auth m)).
Proof. exact opening. Qed.
Print Assumptions C33_opening.

(** C34 *)
Theorem C34_disabled_means_no_trading : forall e, env_ok e -> forall s c i ms k m s', anytime e s -> dexd e s k = Some (DMarket m) -> disabled m ->
  opens_position i ms k -> process e c s i ms <> Ok s'.
Proof. exact no_trading. Qed.
Print Assumptions C34_disabled_means_no_trading.
Theorem C34_disabled_forever : forall e, env_ok e -> forall s k m s', anytime e s -> dexd e s k = Some (DMarket m) -> disabled m -> later e s s' ->
  exists m', dexd e s' k = Some (DMarket m') /\ disabled m'.
Proof. exact stays_disabled. Qed.
Print Assumptions C34_disabled_forever.
(** C29_owner_can_always_cancel, C26_head_can_be_consumed and C30_settle_is_always_possible do not ask whether the
    market is disabled; nor does closing. *)
Theorem C34_close_possible : forall e, env_ok e -> forall s k m A L, history e s -> seen e s k m A L -> usable m ->
  forall c x oo dest, In (x, oo) L -> oo_coin_total oo = 0 -> oo_pc_total oo = 0 -> (forall j, 0 <= j < 128 -> is_free oo j = true) ->
  dest <> x -> a_lamports (sget s dest) + a_lamports (sget s x) < B64 ->
  exists s', process e c s ICloseOO [mkMeta x false; mkMeta (oo_owner oo) true; mkMeta dest false; mkMeta k false] = Ok s'.
Proof. exact (fun e EO s k m A L H => close_succeeds e s k m A L (reachable_inv e EO s H)). Qed.
Print Assumptions C34_close_possible.

(** C35 *)
Theorem C35_close_only_when_empty : forall e, env_ok e -> forall s c ms s', anytime e s -> process e c s ICloseOO ms = Ok s' ->
  exists x oo dest k m, map mk ms = [x; oo_owner oo; dest; k] /\ signs ms 1 (oo_owner oo) /\ dexd e s k = Some (DMarket m) /\
    dexd e s x = Some (DOO oo) /\ oo_flags oo = OO_FLAGS /\ oo_market oo = k /\ oo_coin_total oo = 0 /\ oo_pc_total oo = 0 /\ (forall j, 0 <= j < 128 -> is_free oo j = true) /\
    dexd e s' x = Some (DOO (set_oo_flags oo AF_Closed)) /\ a_lamports (sget s' x) = 0 /\ (dest <> x -> a_lamports (sget s' dest) = a_lamports (sget s dest) + a_lamports (sget s x)) /\
    only s s' [x; dest].
Proof. exact close_done. Qed.
Print Assumptions C35_close_only_when_empty.
Theorem C35_nothing_refers_to_it : forall e, env_ok e -> forall s k m A L, history e s -> seen e s k m A L -> usable m ->
  forall c ms s' x, process e c s ICloseOO ms = Ok s' -> key_at ms 0 = Some x -> key_at ms 3 = Some k ->
  (forall sd l, In l (book_of A sd) -> l_owner l <> x) /\ (forall v, In v (a_evs A) -> ev_owner v <> x).
Proof. exact (fun e EO s k m A L H => close_clean e EO s k m A L (reachable_inv e EO s H)). Qed.
Print Assumptions C35_nothing_refers_to_it.
(** A closed account is never changed again by the program (the runtime removes it, having no lamports). *)
Theorem C35_closed_is_dead : forall e, env_ok e -> forall s c i ms s' x oo, anytime e s -> process e c s i ms = Ok s' ->
  dexd e s x = Some (DOO oo) -> oo_flags oo = AF_Closed -> dexd e s' x = dexd e s x.
Proof. exact closed_dead. Qed.
Print Assumptions C35_closed_is_dead.
(** What closing does not look at: the referrer's share.  Here what settling would have paid is lost: no account and
    no event of the market has a claim on it, yet it is in the vault and not among the fees. *)
Theorem C35_rebates_can_be_lost : exists e s k m A L x oo, env_ok e /\ history e s /\ seen e s k m A L /\ usable m /\ In (x, oo) L /\ 0 < oo_rebates oo /\
  exists ms s' m' A' L', process e ex_clock s ICloseOO ms = Ok s' /\ key_at ms 0 = Some x /\ seen e s' k m' A' L' /\ m_rebates m' = oo_rebates oo /\ a_evs A' = [] /\ total oo_rebates L' = 0.
Proof.
  exists ex_env, r3, 10, (fst (fst (of_look r3 10))), (snd (fst (of_look r3 10))), (snd (of_look r3 10)), 111, (snd (nth 1 (snd (of_look r3 10)) (0, oo_zero))).
  split; [exact ex_env_ok|]. split; [exact r3_h|]. split; [apply look_seen; vm_compute; reflexivity|]. split; [unfold usable; vm_compute; repeat split; discriminate|].
  split; [vm_compute; auto|]. split; [vm_compute; reflexivity|]. exists ms_close.
  exists (transact ex_env ex_clock r3 (pack ICloseOO) ms_close). set (s' := transact ex_env ex_clock r3 (pack ICloseOO) ms_close).
  exists (fst (fst (of_look s' 10))), (snd (fst (of_look s' 10))), (snd (of_look s' 10)).
  split; [vm_compute; reflexivity|]. split; [reflexivity|]. split; [apply look_seen; vm_compute; reflexivity|]. split; [vm_compute; reflexivity|]. split; vm_compute; reflexivity.
Qed.
Print Assumptions C35_rebates_can_be_lost.

(** C37.  The orders with the listed client ids are cancelled, then the new orders are placed one after
    another, each with the effect C46 describes.  If any step fails the transaction has no effect. *)
Theorem C37_replace_many : forall e, env_ok e -> forall s k m A L, history e s -> no_overflow e s -> seen e s k m A L -> usable m ->
  forall c ixs ms s', legal e ms -> Forall order_ix_ok ixs -> (length ixs <= 8)%nat -> process e c s (IReplaceMany ixs) ms = Ok s' -> key_at ms 0 = Some k ->
  exists x oo payer s1, key_at ms 1 = Some x /\ In (x, oo) L /\ signs ms 7 (oo_owner oo) /\ key_at ms 6 = Some payer /\
    cancels e s s1 k m A L x oo (with_cid x (map oi_cid ixs) (a_bids A)) (with_cid x (map oi_cid ixs) (a_asks A)) /\
    placing e k x payer (oo_owner oo) (key_at ms 12) s1 ixs s'.
Proof. exact (fun e EO s k m A L H => replace_effect e EO s k m A L (reachable_inv e EO s H)). Qed.
Print Assumptions C37_replace_many.
Theorem C37_replace_one : forall e, env_ok e -> forall s k m A L, history e s -> no_overflow e s -> seen e s k m A L -> usable m ->
  forall c ix ms s', legal e ms -> order_ix_ok ix -> process e c s (IReplaceOne ix) ms = Ok s' -> key_at ms 0 = Some k ->
  exists x oo payer s1, key_at ms 1 = Some x /\ In (x, oo) L /\ signs ms 7 (oo_owner oo) /\ key_at ms 6 = Some payer /\
    cancels e s s1 k m A L x oo (with_cid x [oi_cid ix] (a_bids A)) (with_cid x [oi_cid ix] (a_asks A)) /\
    placing e k x payer (oo_owner oo) (key_at ms 12) s1 [ix] s'.
Proof. exact (fun e EO s k m A L H => replace_one_effect e EO s k m A L (reachable_inv e EO s H)). Qed.
Print Assumptions C37_replace_one.

(** C47 *)
Theorem C47_tokens_move_only_when_signed : forall e, env_ok e -> forall s c i ms s' v t, anytime e s -> process e c s i ms = Ok s' -> token_at s v = Some t ->
  exists t', token_at s' v = Some t' /\ t_mint t' = t_mint t /\ t_owner t' = t_owner t /\ (t_delegate t' = t_delegate t \/ t_delegate t' = None) /\
    (t_amount t' < t_amount t -> signed_by ms (t_owner t) \/ (exists d, t_delegate t = Some d /\ signed_by ms d) \/
       (pays_from_vault i /\ exists k m, key_at ms 0 = Some k /\ dexd e s k = Some (DMarket m) /\ (v = m_coin_vault m \/ v = m_pc_vault m))).
Proof. exact tokens_safe. Qed.
Print Assumptions C47_tokens_move_only_when_signed.

(** C48 *)
Theorem C48_market_configuration_is_forever : forall e, env_ok e -> forall s k m s', anytime e s -> dexd e s k = Some (DMarket m) -> later e s s' ->
  exists m', dexd e s' k = Some (DMarket m') /\ same_config m m' /\ (m_flags m' = m_flags m \/ (~ disabled m /\ m_flags m' = Z.lor (m_flags m) 128)).
Proof. exact market_forever. Qed.
Print Assumptions C48_market_configuration_is_forever.
Theorem C48_account_owner_is_forever : forall e, env_ok e -> forall s c i ms s' x oo, anytime e s -> process e c s i ms = Ok s' -> dexd e s x = Some (DOO oo) ->
  exists oo', dexd e s' x = Some (DOO oo') /\ oo_owner oo' = oo_owner oo /\ oo_market oo' = oo_market oo /\
    (oo_flags oo' = oo_flags oo \/ (i = ICloseOO /\ signed_by ms (oo_owner oo) /\ close_core oo = Ok oo')).
Proof. exact account_kept. Qed.
Print Assumptions C48_account_owner_is_forever.

(** ** The hypotheses are met *)
(** Alice's second ask changes their account; a stranger's signature does not do. *)
Example C32_case : exists e s s' x oo, env_ok e /\ anytime e s /\ process e ex_clock s ix3 (ms_order 101 102 100) = Ok s' /\ acts_for ix3 (ms_order 101 102 100) = Some x /\
  dexd e s x = Some (DOO oo) /\ dexd e s' x <> dexd e s x /\ signed_by (ms_order 101 102 100) (oo_owner oo) /\ succeeds (process e ex_clock s ix3 (ms_order 101 102 110)) = false.
Proof.
  exists ex_env, w2, w3, 101, (snd (nth 0 (snd (of_look w2 10)) (0, oo_zero))).
  split; [exact ex_env_ok|]. split; [exact (history_anytime _ _ w2_h)|]. split; [vm_compute; reflexivity|]. split; [reflexivity|]. split; [vm_compute; reflexivity|].
  split; [vm_compute; discriminate|]. split; [exists (s_ 100); vm_compute; auto 10|vm_compute; reflexivity].
Qed.
(** The prune authority changes an account without its owner's signature; so does the crank. *)
Example C32_prune_case : exists e s s' x oo, env_ok e /\ anytime e s /\ process e ex_clock s (IPrune 4) ms12 = Ok s' /\ dexd e s x = Some (DOO oo) /\ dexd e s' x <> dexd e s x /\ ~ signed_by ms12 (oo_owner oo).
Proof.
  exists ex_env, w11, w12, 131, (snd (nth 0 w11_L (0, oo_zero))).
  split; [exact ex_env_ok|]. split; [exact (history_anytime _ _ w11_h)|]. split; [vm_compute; reflexivity|]. split; [vm_compute; reflexivity|]. split; [vm_compute; discriminate|].
  intros (a & I & E & S). vm_compute in I, E. repeat (destruct I as [<-|I]; [vm_compute in E, S; congruence|]). destruct I.
Qed.
(** Sweeping after two trades, disabling, opening on a permissioned market, and consuming there. *)
Definition ms_sweep : list meta := [k_ 10; k_ 16; s_ fee_sweeper; k_ 150; k_ 900; k_ spl_id].
Example C33_cases : anytime ex_env w7 /\ anytime ex_env w8 /\ anytime ex_env w12 /\
  (exists s' m, process ex_env ex_clock w7 ISweepFees ms_sweep = Ok s' /\ dexd ex_env w7 10 = Some (DMarket m) /\ 0 < m_pc_fees m) /\
  (exists s', process ex_env ex_clock w4 IDisableMarket ms_disable = Ok s') /\
  (exists s' m, process ex_env ex_clock w8 IInitOO ms9 = Ok s' /\ dexd ex_env w8 30 = Some (DMarket m) /\ permissioned m /\ needs_crank_authority m) /\
  (exists s', process ex_env ex_clock w12 (IConsumePermissioned 5) ms13 = Ok s') /\
  succeeds (process ex_env ex_clock w12 (IConsumeEvents 5) (map k_ [131; 30; 32; 0; 0])) = false /\
  succeeds (process ex_env ex_clock w8 IInitOO [k_ 131; s_ 140; k_ 30; k_ 0]) = false.
Proof.
  split; [exact (history_anytime _ _ w7_h)|]. split; [exact (history_anytime _ _ w8_h)|]. split; [exact (history_anytime _ _ w12_h)|].
  split. { eexists. eexists. split; [vm_compute; reflexivity|]. split; [vm_compute; reflexivity|vm_compute; reflexivity]. }
  split; [eexists; vm_compute; reflexivity|]. split. { eexists. eexists. split; [vm_compute; reflexivity|]. split; [vm_compute; reflexivity|]. split; [vm_compute; reflexivity|split; vm_compute; reflexivity]. }
  split; [eexists; vm_compute; reflexivity|]. split; vm_compute; reflexivity.
Qed.
(** The hypotheses of C33_fees_leave_only_by_sweeping: a trade that earns fees. *)
Example C33_fee_case : exists e s s' k m m', env_ok e /\ history e s /\ no_overflow e s /\ legal e (ms_order 111 113 110) /\ wf_instr ix4 /\
  process e ex_clock s ix4 (ms_order 111 113 110) = Ok s' /\ dexd e s k = Some (DMarket m) /\ usable m /\ dexd e s' k = Some (DMarket m') /\ m_pc_fees m < m_pc_fees m'.
Proof.
  exists ex_env, w3, w4, 10, w3_m, w4_m. split; [exact ex_env_ok|]. split; [exact w3_h|]. split; [apply guard_ok; vm_compute; reflexivity|]. split; [apply legal_ok; vm_compute; reflexivity|].
  split; [cbn; unfold wf_v3, nz64, u64, u16, I64_MAX; cbn; lia|]. split; [vm_compute; reflexivity|]. split; [vm_compute; reflexivity|]. split; [exact w3_usable|]. split; [vm_compute; reflexivity|vm_compute; reflexivity].
Qed.
(** On the disabled market an order, a take, a replace and an opening fail; cancel, crank, settle and close work. *)
Example C34_case : exists m, anytime ex_env d1 /\ dexd ex_env d1 10 = Some (DMarket m) /\ disabled m /\ opens_position ix4 (ms_order 111 113 110) 10 /\
  (exists l, In l (a_bids d1_A)) /\ (exists v r, a_evs d1_A = v :: r) /\
  (exists s', process ex_env ex_clock d1 (ICancelV2 Bid (l_key d1_bid)) ms_cancel = Ok s') /\ (exists s', process ex_env ex_clock d1 ix5 ms_consume = Ok s') /\
  (exists s', process ex_env ex_clock d3 ISettleFunds (ms_settle 111 110 112 113 [150]) = Ok s') /\ later ex_env d1 d5.
Proof.
  exists d1_m. split; [exact (history_anytime _ _ d1_h)|]. split; [vm_compute; reflexivity|]. split; [vm_compute; reflexivity|]. split; [vm_compute; reflexivity|].
  split; [exists d1_bid; vm_compute; auto|]. split; [eexists; eexists; vm_compute; reflexivity|]. split; [eexists; vm_compute; reflexivity|]. split; [eexists; vm_compute; reflexivity|]. split; [eexists; vm_compute; reflexivity|].
  change d5 with (transact ex_env ex_clock d4 (pack ICloseOO) ms_close). 
  replace (transact ex_env ex_clock d4 (pack ICloseOO) ms_close) with (transact ex_env ex_clock (transact ex_env ex_clock (transact ex_env ex_clock (transact ex_env ex_clock d1 (pack (ICancelV2 Bid (l_key d1_bid))) ms_cancel) (pack ix5) ms_consume) (pack ISettleFunds) (ms_settle 111 110 112 113 [150])) (pack ICloseOO) ms_close) by (vm_compute; reflexivity).
  repeat apply later_tx. apply later_now.
Qed.
Example C34_C35_case : exists oo, history ex_env d4 /\ seen ex_env d4 10 d4_m d4_A d4_L /\ usable d4_m /\ disabled d4_m /\ In (111, oo) d4_L /\ oo_coin_total oo = 0 /\ oo_pc_total oo = 0 /\ oo_free_bits oo = U128_MAX /\
  a_lamports (sget d4 100) + a_lamports (sget d4 111) < B64 /\ process ex_env ex_clock d4 ICloseOO ms_close = Ok d5 /\ exists oo', dexd ex_env d5 111 = Some (DOO oo') /\ oo_flags oo' = AF_Closed.
Proof.
  exists (snd (nth 1 d4_L (0, oo_zero))). split; [exact d4_h|]. split; [exact d4_seen|]. split; [exact d4_usable|]. split; [vm_compute; reflexivity|]. split; [vm_compute; auto|].
  split; [vm_compute; reflexivity|]. split; [vm_compute; reflexivity|]. split; [vm_compute; reflexivity|]. split; [vm_compute; reflexivity|]. split; [vm_compute; reflexivity|]. eexists. split; vm_compute; reflexivity.
Qed.
(** One ask goes, two come. *)
Example C37_case : exists e s k m A L s', env_ok e /\ history e s /\ no_overflow e s /\ seen e s k m A L /\ usable m /\ legal e ms_replace /\ Forall order_ix_ok x_ixs /\
  process e ex_clock s (IReplaceMany x_ixs) ms_replace = Ok s' /\ key_at ms_replace 0 = Some k /\
  map l_price (a_asks A) = [50; 60] /\ map l_cid (with_cid 101 (map oi_cid x_ixs) (a_asks A)) = [22] /\ map l_price (a_asks (snd (fst (of_look s' 10)))) = [50; 65; 66].
Proof.
  exists ex_env, w3, 10, w3_m, w3_A, w3_L, (transact ex_env ex_clock w3 (pack (IReplaceMany x_ixs)) ms_replace).
  split; [exact ex_env_ok|]. split; [exact w3_h|]. split; [apply guard_ok; vm_compute; reflexivity|]. split; [exact w3_seen|]. split; [exact w3_usable|]. split; [apply legal_ok; vm_compute; reflexivity|].
  split; [repeat constructor; cbn; unfold u64, I64_MAX; lia|]. split; [vm_compute; reflexivity|]. split; [vm_compute; reflexivity|]. split; [vm_compute; reflexivity|]. split; vm_compute; reflexivity.
Qed.
(** Bob pays for the order from a wallet of theirs; settling pays out of the vaults. *)
Example C47_case : exists t t' v v', anytime ex_env w3 /\ process ex_env ex_clock w3 ix4 (ms_order 111 113 110) = Ok w4 /\ token_at w3 113 = Some t /\ token_at w4 113 = Some t' /\ t_amount t' < t_amount t /\
  anytime ex_env w5 /\ process ex_env ex_clock w5 ISettleFunds (ms_settle 101 100 102 103 []) = Ok w6 /\ token_at w5 16 = Some v /\ token_at w6 16 = Some v' /\ t_amount v' < t_amount v.
Proof.
  eexists. eexists. eexists. eexists. split; [exact (history_anytime _ _ w3_h)|]. split; [vm_compute; reflexivity|]. split; [vm_compute; reflexivity|]. split; [vm_compute; reflexivity|]. split; [vm_compute; reflexivity|].
  split; [exact (history_anytime _ _ w5_h)|]. split; [vm_compute; reflexivity|]. split; [vm_compute; reflexivity|]. split; [vm_compute; reflexivity|]. vm_compute. reflexivity.
Qed.
(** C48: market 10 from the first trade to its last, disabled on the way. *)
Example C48_case : exists m, anytime ex_env w4 /\ dexd ex_env w4 10 = Some (DMarket m) /\ ~ disabled m /\ later ex_env w4 d1 /\ exists m', dexd ex_env d1 10 = Some (DMarket m') /\ disabled m'.
Proof.
  exists w4_m. split; [exact (history_anytime _ _ w4_h)|]. split; [vm_compute; reflexivity|]. split; [vm_compute; discriminate|].
  split. { replace d1 with (transact ex_env ex_clock w4 (pack IDisableMarket) ms_disable) by (vm_compute; reflexivity). apply later_tx, later_now. }
  exists d1_m. split; vm_compute; reflexivity.
Qed.
