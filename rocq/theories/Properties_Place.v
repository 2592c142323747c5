(** C53: a funded order is accepted. *)
From Verif Require Import Base Fees ListSum Queue Codec Critbit Market Matching Slots Core CoreNew MatchSteps Ledger Instr Store Process StoreProofs World WorldInv WorldSpec WorldMain WorldExample OpenSpec PlaceSpec WorldPlace.

Theorem C53_a_funded_order_is_accepted : forall e, env_ok e -> forall s k m A L, history e s -> seen e s k m A L -> usable m ->
  forall c ix x w oo payer rent disc q, account_for e s c k m L x w oo -> ~ disabled m -> order_ix_ok ix -> in_time (c_now c) ix ->
  (exists j, 0 <= j < 128 /\ is_free oo j = true) ->
  let dep := to_pay ix (m_coin_lot m) oo in let vault := pays_into m (oi_side ix) in
  can_pay s payer w (pays_in m (oi_side ix)) dep -> discount_ok s w disc -> payer <> vault -> ~ In w [k; m_req_q m; m_event_q m; m_bids m; m_asks m] ->
  thawed s (m_coin_vault m) -> thawed s (m_pc_vault m) -> (forall t, token_at s vault = Some t -> t_amount t + dep < B64) ->
  locks ix (m_coin_lot m) < B64 ->
  oo_coin_total oo + m_coin_deposits m + (match oi_side ix with Ask => dep | Bid => 0 end) < B64 ->
  oo_pc_total oo + m_pc_deposits m + (match oi_side ix with Bid => dep | Ask => 0 end) < B64 ->
  let opp := book_of A (other (oi_side ix)) in
  (oi_st ix = AbortTransaction -> oi_ot ix <> PostOnly -> ~ meets_own opp (oi_side ix) (oi_price ix) x (oi_qty ix) (oi_pc ix) (m_pc_lot m) (oi_limit ix)) ->
  dexd e s (m_event_q m) = Some (DEventQ q) ->
  zlen (a_evs A) + events_needed opp (oi_side ix) (oi_price ix) x (oi_st ix) (oi_limit ix) <= zlen (q_buf q) ->
  exists s', process e c s (INewOrderV3 ix)
    (mkMeta k false :: mkMeta x false :: mkMeta (m_req_q m) false :: mkMeta (m_event_q m) false :: mkMeta (m_bids m) false :: mkMeta (m_asks m) false ::
     mkMeta payer false :: mkMeta w true :: map (fun y => mkMeta y false) ([m_coin_vault m; m_pc_vault m; spl_id; rent] ++ disc)) = Ok s'.
Proof. exact (fun e EO s k m A L H => order_succeeds e EO s k m A L (reachable_inv e EO s H)). Qed.
Print Assumptions C53_a_funded_order_is_accepted.

(** Bob's first order meets Alice's asks, on a new account; later Bob orders more on the same account, partly from free tokens. *)
Definition cover (e : env) (s : store) (k : Z) (m : market) (A : astate) (L : list (Z * open_orders)) (c : clock) (ix : order_ix) (x w : Z) (oo : open_orders) (payer : Z) (q : queue event) : Prop :=
  account_for e s c k m L x w oo /\ ~ disabled m /\ order_ix_ok ix /\ in_time (c_now c) ix /\ is_free oo 7 = true /\
  let dep := to_pay ix (m_coin_lot m) oo in let vault := pays_into m (oi_side ix) in
  can_pay s payer w (pays_in m (oi_side ix)) dep /\ 0 < dep /\ payer <> vault /\ ~ In w [k; m_req_q m; m_event_q m; m_bids m; m_asks m] /\
  thawed s (m_coin_vault m) /\ thawed s (m_pc_vault m) /\ (exists t, token_at s vault = Some t /\ t_amount t + dep < B64) /\
  locks ix (m_coin_lot m) < B64 /\
  oo_coin_total oo + m_coin_deposits m + (match oi_side ix with Ask => dep | Bid => 0 end) < B64 /\
  oo_pc_total oo + m_pc_deposits m + (match oi_side ix with Bid => dep | Ask => 0 end) < B64 /\
  let opp := book_of A (other (oi_side ix)) in opp <> [] /\ ~ meets_own opp (oi_side ix) (oi_price ix) x (oi_qty ix) (oi_pc ix) (m_pc_lot m) (oi_limit ix) /\
  dexd e s (m_event_q m) = Some (DEventQ q) /\
  zlen (a_evs A) + events_needed opp (oi_side ix) (oi_price ix) x (oi_st ix) (oi_limit ix) <= zlen (q_buf q).
Definition ix_first : order_ix := mkOrderIx Bid 55 5 1000000 DecrementTake Limit 23 65535 I64_MAX.
Definition ix_again : order_ix := mkOrderIx Bid 61 3 1000000 AbortTransaction Limit 24 7 I64_MAX.
Example C53_case :
  (exists oo q, history ex_env w3 /\ seen ex_env w3 10 w3_m w3_A w3_L /\ usable w3_m /\ dexd ex_env w3 111 = Some DZero /\
     cover ex_env w3 10 w3_m w3_A w3_L ex_clock ix_first 111 110 oo 113 q) /\
  (exists oo q, history ex_env w5 /\ seen ex_env w5 10 w5_m w5_A w5_L /\ usable w5_m /\ 0 < oo_pc_free oo /\
     cover ex_env w5 10 w5_m w5_A w5_L ex_clock ix_again 111 110 oo 113 q).
Proof.
  split.
  - exists (mkOO OO_FLAGS 10 110 0 0 0 0 U128_MAX 0 [] [] 0). eexists. split; [exact w3_h|]. split; [exact w3_seen|]. split; [exact w3_usable|]. split; [vm_compute; reflexivity|].
    split. { right. split; [vm_compute; reflexivity|]. split; [vm_compute; reflexivity|]. split; [vm_compute; reflexivity|]. split; [vm_compute; reflexivity|].
      unfold blank_for. cbn [oo_flags oo_market oo_owner oo_coin_free oo_coin_total oo_pc_free oo_pc_total oo_rebates]. repeat (split; [reflexivity|]). intros i Hi. unfold is_free. cbn [oo_free_bits]. change U128_MAX with (Z.ones 128). apply Z.ones_spec_low. assumption. }
    split; [vm_compute; discriminate|]. split; [constructor; cbn; unfold u64, I64_MAX; lia|]. split; [right; reflexivity|]. split; [vm_compute; reflexivity|]. cbv zeta.
    split. { eexists. split; [vm_compute; reflexivity|]. split; [vm_compute; reflexivity|]. split; [vm_compute; reflexivity|]. split; [vm_compute; reflexivity|]. split; [vm_compute; discriminate|]. right. split; [vm_compute; discriminate|vm_compute; reflexivity]. }
    split; [vm_compute; reflexivity|]. split; [vm_compute; discriminate|]. split; [intros X; vm_compute in X; repeat (destruct X as [X|X]; [discriminate|]); exact X|]. split; [eexists; vm_compute; split; reflexivity|]. split; [eexists; vm_compute; split; reflexivity|].
    split; [eexists; split; [vm_compute; reflexivity|vm_compute; reflexivity]|]. split; [vm_compute; reflexivity|]. split; [vm_compute; reflexivity|]. split; [vm_compute; reflexivity|]. split; [vm_compute; discriminate|]. split; [intros (l & X & E & _); vm_compute in X; repeat (destruct X as [X|X]; [rewrite <- X in E; discriminate|]); exact X|].
    split; [vm_compute; reflexivity|]. vm_compute. discriminate.
  - exists (snd (nth 1 w5_L (0, oo_zero))). eexists. split; [exact w5_h|]. split; [exact w5_seen|]. split; [exact w5_usable|]. split; [vm_compute; reflexivity|].
    split. { left. split; [vm_compute; auto|vm_compute; reflexivity]. }
    split; [vm_compute; discriminate|]. split; [constructor; cbn; unfold u64, I64_MAX; lia|]. split; [right; reflexivity|]. split; [vm_compute; reflexivity|]. cbv zeta.
    split. { eexists. split; [vm_compute; reflexivity|]. split; [vm_compute; reflexivity|]. split; [vm_compute; reflexivity|]. split; [vm_compute; reflexivity|]. split; [vm_compute; discriminate|]. right. split; [vm_compute; discriminate|vm_compute; reflexivity]. }
    split; [vm_compute; reflexivity|]. split; [vm_compute; discriminate|]. split; [intros X; vm_compute in X; repeat (destruct X as [X|X]; [discriminate|]); exact X|]. split; [eexists; vm_compute; split; reflexivity|]. split; [eexists; vm_compute; split; reflexivity|].
    split; [eexists; split; [vm_compute; reflexivity|vm_compute; reflexivity]|]. split; [vm_compute; reflexivity|]. split; [vm_compute; reflexivity|]. split; [vm_compute; reflexivity|]. split; [vm_compute; discriminate|]. split; [intros (l & X & E & _); vm_compute in X; repeat (destruct X as [X|X]; [rewrite <- X in E; discriminate|]); exact X|].
    split; [vm_compute; reflexivity|]. vm_compute. discriminate.
Qed.
