(** The permissioned proxy (C42).  [run]: the proxy program, here with one OpenOrdersPda and any of the other shipped
    middlewares.  [lived e px s]: [s] is a state of any history of direct calls, calls through the proxy and anything
    other programs may do, in which nobody but the two programs signs for the addresses they derive.  The vocabulary is
    that of ProxySpec.v and WorldSpec.v. *)
From Verif Require Import Base Fees ListSum Codec Critbit CritbitSlab Market Slots Matching MatchSteps Ledger MatchSpec Core CoreNew Instr InstrProofs Store Process StoreProofs World WorldInv WorldSpec WorldFacts WorldMain WorldAuth WorldRights WorldExample Proxy ProxySpec ProxyMain ProxyMore ExampleProxy.

(** ** Markets whose accounts the proxy opens *)
(** Every account in use on such a market is at an address derived from one user, and owns itself. *)
Theorem C42_accounts_belong_to_users : forall e, env_ok e -> forall px, px_ok e px -> forall s, lived e px s -> forall k m x oo,
  dexd e s k = Some (DMarket m) -> gated px k m -> in_use e s k x oo -> oo_owner oo = x /\ exists u, address_of px k u x.
Proof. exact gated_accounts. Qed.
Print Assumptions C42_accounts_belong_to_users.
(** Sent to the dex itself, only pruning and consuming change it. *)
Theorem C42_not_around_the_proxy : forall e, env_ok e -> forall px, px_ok e px -> forall s c i ms s' k m x oo, lived e px s ->
  dexd e s k = Some (DMarket m) -> gated px k m -> in_use e s k x oo -> sealed px ms -> process e c s i ms = Ok s' ->
  dexd e s' x <> dexd e s x -> ((exists n, i = IPrune n) /\ signed_by ms (m_prune_auth m)) \/ consuming i.
Proof. exact gated_direct. Qed.
Print Assumptions C42_not_around_the_proxy.
(** Through the proxy, only a call signed by the user it is derived from does, with the bump the proxy itself finds. *)
Theorem C42_only_the_user : forall e, env_ok e -> forall px, px_ok e px -> forall s c mws ms data s' k m x oo u, lived e px s ->
  dexd e s k = Some (DMarket m) -> gated px k m -> in_use e s k x oo -> guarded mws -> legal e ms -> sealed px ms -> is_bytes data ->
  run e px c mws s ms data = Ok s' -> dexd e s' x <> dexd e s x -> address_of px k u x ->
  (signed_by ms u /\ px_open px k u (px_bump px k u) = Some x) \/ ((exists n, asks data (IPrune n)) /\ signed_by ms (m_prune_auth m)) \/ exists i, asks data i /\ consuming i.
Proof. exact gated_proxy. Qed.
Print Assumptions C42_only_the_user.
Example C42_gated_case : lived ex_env ex_px p3 /\ dexd ex_env p3 30 = Some (DMarket p3_m) /\ gated ex_px 30 p3_m /\ in_use ex_env p3 30 p_oo p3_oo /\ address_of ex_px 30 140 p_oo /\
  p_run p3 ms_p4 data_p4 = Ok p4 /\ dexd ex_env p4 p_oo <> dexd ex_env p3 p_oo /\ legal ex_env ms_p4 /\ sealed ex_px ms_p4 /\ guarded p_mws /\ is_bytes data_p4 /\
  (forall s', process ex_env ex_clock p3 (ICancelV2 Ask (l_key p3_ask)) [k_ 30; k_ 33; k_ 34; k_ p_oo; s_ 140; k_ 32] <> Ok s') /\
  run ex_env ex_px ex_clock p_mws p3 (map k_ [7; 30; 33; 34; p_oo] ++ [s_ 100; k_ 32]) data_p4 = Err EOther.
Proof.
  split; [exact p3_l|]. destruct p3_gated as (G1 & G2 & G3 & G4). split; [exact G1|]. split; [exact G2|]. split; [exact G3|]. split; [exact G4|]. split; [vm_compute; reflexivity|]. split; [vm_compute; discriminate|].
  split; [apply legal_ok; reflexivity|]. split; [apply sealed_ok; reflexivity|]. split; [exact p_guarded|]. split; [apply bytes_ok; vm_compute; reflexivity|]. split; [intros s'; vm_compute; discriminate|vm_compute; reflexivity].
Qed.

(** ** On any market *)
Theorem C42_owner_agrees : forall e, env_ok e -> forall px, px_ok e px -> forall c mws s ms data s' x oo, guarded mws -> legal e ms -> sealed px ms -> is_bytes data -> anytime e s ->
  run e px c mws s ms data = Ok s' -> dexd e s x = Some (DOO oo) -> dexd e s' x <> dexd e s x ->
  In x (map mk ms) /\
  (agreed px ms (oo_owner oo) \/
   (exists n m, asks data (IPrune n) /\ dexd e s (oo_market oo) = Some (DMarket m) /\ permissioned m /\ signed_by ms (m_prune_auth m)) \/
   exists i, asks data i /\ consuming i).
Proof. exact run_owner. Qed.
Print Assumptions C42_owner_agrees.
(** Tokens leave an account only if its owner or its delegate agreed, or to settle a market whose vault it is. *)
Theorem C42_tokens : forall e, env_ok e -> forall px, px_ok e px -> forall c mws s ms data s' v t, guarded mws -> legal e ms -> sealed px ms -> is_bytes data -> anytime e s ->
  run e px c mws s ms data = Ok s' -> token_at s v = Some t ->
  exists t', token_at s' v = Some t' /\ t_mint t' = t_mint t /\ t_owner t' = t_owner t /\
    (t_amount t' < t_amount t -> agreed px ms (t_owner t) \/ (exists d, t_delegate t = Some d /\ agreed px ms d) \/
       (asks data ISettleFunds /\ exists k m, key_at ms 1 = Some k /\ dexd e s k = Some (DMarket m) /\ (v = m_coin_vault m \/ v = m_pc_vault m))).
Proof. exact run_tokens. Qed.
Print Assumptions C42_tokens.
(** An order: the wallet is the signing user's; what leaves it is at most what the order declares, and goes to the market's vault;
    afterwards nobody has an allowance on the wallet, not even one given before. *)
Theorem C42_order : forall e, env_ok e -> forall px, px_ok e px -> forall c mws s ms data s' ix, guarded mws -> legal e ms -> is_bytes data -> anytime e s ->
  run e px c mws s ms data = Ok s' -> asks data (INewOrderV3 ix) ->
  exists k u x payer m t oo dep, key_at ms 1 = Some k /\ key_at ms 2 = Some x /\ key_at ms 7 = Some payer /\ signs ms 8 u /\ (signed_by ms x \/ px_open px k u (px_bump px k u) = Some x) /\
    dexd e s k = Some (DMarket m) /\ dexd e s' x = Some (DOO oo) /\ oo_owner oo = x /\ oo_market oo = k /\
    token_at s payer = Some t /\ t_owner t = u /\ t_mint t = match oi_side ix with Bid => m_pc_mint m | Ask => m_coin_mint m end /\
    0 <= dep <= match oi_side ix with Bid => oi_pc ix | Ask => Z.max 0 (oi_qty ix * m_coin_lot m) end /\
    token_at s' payer = Some (mkToken (t_mint t) u (t_amount t - dep) None 0 (t_state t) (t_close t)) /\
    forall v, v <> payer -> match token_at s v with
      | Some tv => token_at s' v = Some (if v =? match oi_side ix with Bid => m_pc_vault m | Ask => m_coin_vault m end then set_amount tv (t_amount tv + dep) else tv)
      | None => token_at s' v = None end.
Proof. exact run_order. Qed.
Print Assumptions C42_order.
(** That much it may spend: the proxy takes every order the dex would take from an address allowed the declared most. *)
Theorem C42_order_accepted : forall e, env_ok e -> forall px c mws s d acc ix k u x payer m t s2, guarded mws -> anytime e s -> legal e acc -> wf_instr (INewOrderV3 ix) -> (12 <= length acc)%nat ->
  key_at acc 0 = Some k -> key_at acc 1 = Some x -> key_at acc 6 = Some payer -> signs acc 7 u -> px_open px k u (px_bump px k u) = Some x ->
  dexd e s k = Some (DMarket m) -> token_at s payer = Some t -> t_owner t = u -> t_state t = 1 ->
  let most := match oi_side ix with Bid => oi_pc ix | Ask => oi_qty ix * m_coin_lot m end in
  most < B64 ->
  forall acc', replaced 7 (mkMeta x true) acc acc' ->
  process e c (put_data s payer (DToken (mkToken (t_mint t) u (t_amount t) (Some x) most 1 (t_close t)))) (INewOrderV3 ix) acc' = Ok s2 -> d <> 0 ->
  exists s', run e px c mws s (mkMeta (e_prog e) false :: acc) (d :: pack (INewOrderV3 ix)) = Ok s' /\ forall y, dexd e s' y = dexd e s2 y.
Proof. exact order_complete. Qed.
Print Assumptions C42_order_accepted.
Example C42_order_case : anytime ex_env p2 /\ p_run p2 ms_p3 data_p3 = Ok p3 /\ (exists ix, asks data_p3 (INewOrderV3 ix) /\ oi_side ix = Ask /\ oi_qty ix = 3) /\
  token_at p2 142 = Some (mkToken 17 140 1000 None 0 1 None) /\ token_at p3 142 = Some (mkToken 17 140 970 None 0 1 None) /\ token_at p3 35 = Some (mkToken 17 901 30 None 0 1 None) /\
  exists s2, process ex_env ex_clock (put_data p2 142 (DToken (mkToken 17 140 1000 (Some p_oo) 30 1 None))) ix10 (map k_ [30; p_oo; 31; 32; 33; 34; 142] ++ [s_ p_oo] ++ map k_ [35; 36; spl_id; 0]) = Ok s2.
Proof.
  split; [exact (lived_anytime _ ex_env_ok _ ex_px_ok _ p2_l)|]. split; [vm_compute; reflexivity|]. split.
  { exists (mkOrderIx Ask 70 3 1 AbortTransaction Limit 31 65535 I64_MAX). split; [split; [vm_compute; reflexivity|discriminate]|split; reflexivity]. }
  split; [vm_compute; reflexivity|]. split; [vm_compute; reflexivity|]. split; [vm_compute; reflexivity|]. eexists. vm_compute. reflexivity.
Qed.
(** Opening: the account is new, blank, at an address of the signing user with the bump the caller names, on an enabled
    market; nothing else on the dex changes and no tokens move. *)
Theorem C42_open : forall e, env_ok e -> forall px, px_ok e px -> forall c mws s ms data s', guarded mws -> legal e ms -> is_bytes data -> anytime e s ->
  run e px c mws s ms data = Ok s' -> asks data IInitOO ->
  exists k u m oo b bi a, key_at ms 3 = Some (oo_owner oo) /\ signs ms 4 u /\ key_at ms 5 = Some k /\ px_open px k u b = Some (oo_owner oo) /\
    dexd e s (oo_owner oo) = None /\ dexd e s' (oo_owner oo) = Some (DOO oo) /\ blank_for k (oo_owner oo) oo /\
    dexd e s k = Some (DMarket m) /\ ~ disabled m /\ px_init px k bi = Some a /\ (permissioned m -> m_oo_auth m = a) /\
    (forall y, y <> oo_owner oo -> dexd e s' y = dexd e s y) /\ same_tokens s s'.
Proof. exact run_open. Qed.
Print Assumptions C42_open.
Example C42_open_case : anytime ex_env p1 /\ p_run p1 (ms_open 140 p_oo) (data_open 255 254) = Ok p2 /\ asks (data_open 255 254) IInitOO /\ is_bytes (data_open 255 254) /\
  dexd ex_env p1 p_oo = None /\ (exists oo, dexd ex_env p2 p_oo = Some (DOO oo)).
Proof.
  split; [exact (lived_anytime _ ex_env_ok _ ex_px_ok _ p1_l)|]. split; [vm_compute; reflexivity|]. split; [split; [vm_compute; reflexivity|discriminate]|].
  split; [apply bytes_ok; vm_compute; reflexivity|]. split; [vm_compute; reflexivity|]. eexists. vm_compute. reflexivity.
Qed.

(** ** Cancelling, settling, closing *)
(** The dex is called with the user's place taken by the address, which then counts as having signed, and nothing else is done ... *)
Theorem C42_forwarded : forall e px c mws s ms data s' i mi ui oi, guarded mws -> is_bytes data -> run e px c mws s ms data = Ok s' -> asks data i -> spots i = Some (mi, ui, oi) ->
  exists k u x acc acc', key_at ms (S mi) = Some k /\ signs ms (S ui) u /\ key_at ms (S oi) = Some x /\ (signed_by ms x \/ px_open px k u (px_bump px k u) = Some x) /\
    replaced ui (mkMeta x true) (tl ms) acc /\ spread acc acc' /\ process e c s i acc' = Ok s'.
Proof. exact run_forwarded. Qed.
Print Assumptions C42_forwarded.
(** ... and whenever the dex would accept that, the proxy does: whatever the address could do, the user can. *)
Theorem C42_accepted : forall e px c mws s d acc n i mi ui oi k u x s', guarded mws -> wf_instr i -> spots i = Some (mi, ui, oi) -> relayed i = Some n -> (n <= length acc)%nat ->
  key_at acc mi = Some k -> signs acc ui u -> key_at acc oi = Some x -> px_open px k u (px_bump px k u) = Some x ->
  (i = ISettleFunds -> forall r, In (MReferral r) mws -> exists a t, key_at acc 9 = Some a /\ token_at s a = Some t /\ t_owner t = r) ->
  forall acc', replaced ui (mkMeta x true) acc acc' -> process e c s i acc' = Ok s' -> d <> 0 ->
  run e px c mws s (mkMeta (e_prog e) false :: acc) (d :: pack i) = Ok s'.
Proof. exact run_complete. Qed.
Print Assumptions C42_accepted.
(** With ReferralFees the referrer's account of a settlement belongs to the named referrer. *)
Theorem C42_referral : forall e px c mws s ms data s' r, guarded mws -> is_bytes data -> anytime e s ->
  run e px c mws s ms data = Ok s' -> asks data ISettleFunds -> In (MReferral r) mws ->
  exists a t, key_at ms 10 = Some a /\ token_at s a = Some t /\ t_owner t = r.
Proof. exact run_referral. Qed.
Print Assumptions C42_referral.
Example C42_forwarded_case : p_run p3 ms_p4 data_p4 = Ok p4 /\ p_run p4 ms_p5 data_p5 = Ok p5 /\ p_run p5 ms_p6 data_p6 = Ok p6 /\ p_run p6 ms_p7 data_p7 = Ok p7 /\
  asks data_p4 (ICancelV2 Ask (l_key p3_ask)) /\ asks data_p5 (IConsumePermissioned 5) /\ asks data_p6 ISettleFunds /\ asks data_p7 ICloseOO /\
  token_at p5 142 = Some (mkToken 17 140 970 None 0 1 None) /\ token_at p6 142 = Some (mkToken 17 140 1000 None 0 1 None) /\
  p_run p5 (map k_ [7; 30; p_oo] ++ [s_ 140] ++ map k_ [35; 36; 142; 143; 901; spl_id; 103]) data_p6 = Err EOther /\
  (exists oo, dexd ex_env p7 p_oo = Some (DOO oo) /\ oo_flags oo = AF_Closed) /\
  process ex_env ex_clock p3 (ICancelV2 Ask (l_key p3_ask)) [k_ 30; k_ 33; k_ 34; k_ p_oo; s_ p_oo; k_ 32] = Ok p4.
Proof.
  split; [vm_compute; reflexivity|]. split; [vm_compute; reflexivity|]. split; [vm_compute; reflexivity|]. split; [vm_compute; reflexivity|].
  split; [split; [vm_compute; reflexivity|discriminate]|]. split; [split; [vm_compute; reflexivity|discriminate]|]. split; [split; [vm_compute; reflexivity|discriminate]|]. split; [split; [vm_compute; reflexivity|discriminate]|].
  split; [vm_compute; reflexivity|]. split; [vm_compute; reflexivity|]. split; [vm_compute; reflexivity|]. split; [eexists; split; vm_compute; reflexivity|vm_compute; reflexivity].
Qed.

(** ** Pruning, consuming, everything else *)
Theorem C42_prune : forall e px c mws s ms data s' n, guarded mws -> is_bytes data -> run e px c mws s ms data = Ok s' -> asks data (IPrune n) ->
  exists a acc acc', nth_error ms 5 = Some a /\ replaced 5 a (tl ms) acc /\ spread acc acc' /\ process e c s (IPrune n) acc' = Ok s'.
Proof. exact run_pruned. Qed.
Print Assumptions C42_prune.
Theorem C42_consume : forall e px c mws s ms data s' i, guarded mws -> is_bytes data -> run e px c mws s ms data = Ok s' -> asks data i -> consuming i ->
  exists acc', spread (tl ms) acc' /\ process e c s i acc' = Ok s'.
Proof. exact run_passed. Qed.
Print Assumptions C42_consume.
Theorem C42_nothing_else : forall e px c mws s ms data s', guarded mws -> run e px c mws s ms data = Ok s' -> (forall i, ~ asks data i) -> s' = s.
Proof. exact run_other. Qed.
Print Assumptions C42_nothing_else.
(** So what the other properties say of all histories holds of histories with the proxy in them. *)
Theorem C42_histories : forall e, env_ok e -> forall px, px_ok e px -> forall s, lived e px s -> anytime e s.
Proof. exact lived_anytime. Qed.
Print Assumptions C42_histories.
Theorem C42_histories_guarded : forall e, env_ok e -> forall px, px_ok e px -> forall c mws s ms data s', guarded mws -> legal e ms -> is_bytes data -> run e px c mws s ms data = Ok s' ->
  history e s -> no_overflow e s -> sized s -> history e s'.
Proof. exact run_history. Qed.
Print Assumptions C42_histories_guarded.
Example C42_rest_case : p_run p3 ms_prune data_prune = Ok p4' /\ asks data_prune (IPrune 4) /\ dexd ex_env p4' p_oo <> dexd ex_env p3 p_oo /\ signed_by ms_prune 301 /\ m_prune_auth p3_m = 301 /\
  p_run p3 ms_p4 (1 :: pack (ICancelByCids [1; 2])) = Ok p3 /\ (forall i, ~ asks (1 :: pack (ICancelByCids [1; 2])) i) /\
  (exists s, history ex_env s /\ no_overflow ex_env s /\ sized s /\ s = p0 /\ p_run s ms_p4 (1 :: pack (ICancelByCids [1; 2])) = Ok s).
Proof.
  split; [vm_compute; reflexivity|]. split; [split; [vm_compute; reflexivity|discriminate]|]. split; [vm_compute; discriminate|]. split; [exists (s_ 301); split; [cbn; auto 10|split; reflexivity]|]. split; [reflexivity|].
  split; [vm_compute; reflexivity|]. split; [intros i (U & R); vm_compute in U; injection U as <-; apply R; reflexivity|].
  exists p0. split; [apply reach_start, genesis_ok; vm_compute; reflexivity|]. split; [apply guard_ok; vm_compute; reflexivity|]. split; [apply sized_ok; vm_compute; reflexivity|]. split; [reflexivity|vm_compute; reflexivity].
Qed.

(** ** What does not hold *)
(** A user can open an account with a bump other than the one the proxy later signs with.  That account is then of no use to
    anybody: no call, whoever signs it, changes it, except pruning and consuming. *)
Theorem C42_users_can_use_what_they_open_refuted : exists e px s0 s k m x oo u c mws ms data, env_ok e /\ px_ok e px /\ lived e px s0 /\ guarded mws /\ legal e ms /\ sealed px ms /\ is_bytes data /\
  run e px c mws s0 ms data = Ok s /\ asks data IInitOO /\ signed_by ms u /\ lived e px s /\ dexd e s k = Some (DMarket m) /\ gated px k m /\ in_use e s k x oo /\ address_of px k u x /\
  (forall s1 oo1 m1, lived e px s1 -> dexd e s1 k = Some (DMarket m1) -> gated px k m1 -> in_use e s1 k x oo1 -> forall c mws ms data s', guarded mws -> legal e ms -> sealed px ms -> is_bytes data ->
     run e px c mws s1 ms data = Ok s' -> dexd e s' x <> dexd e s1 x -> exists i, asks data i /\ (consuming i \/ exists n, i = IPrune n)).
Proof.
  exists ex_env, ex_px, p1, q2, 30, q2_m, q_oo, q2_oo, 140, ex_clock, p_mws, (ms_open 140 q_oo), (data_open 7 254).
  split; [exact ex_env_ok|]. split; [exact ex_px_ok|]. split; [exact p1_l|]. split; [exact p_guarded|]. split; [apply legal_ok; reflexivity|]. split; [apply sealed_ok; reflexivity|].
  split; [apply bytes_ok; vm_compute; reflexivity|]. split; [exact q2_run|]. split; [split; [vm_compute; reflexivity|discriminate]|]. split; [exists (s_ 140); split; [cbn; auto 10|split; reflexivity]|]. split; [exact q2_l|].
  split; [exact (proj1 q2_gated)|]. split; [exact (proj1 (proj2 q2_gated))|]. split; [exact (proj2 (proj2 q2_gated))|]. split; [exists 7; vm_compute; reflexivity|].
  intros s1 oo1 m1 L HM GA IU c mws ms data s' GM LG SE HB H NE.
  destruct (gated_proxy ex_env ex_env_ok ex_px ex_px_ok s1 c mws ms data s' 30 m1 q_oo oo1 140 L HM GA IU GM LG SE HB H NE) as [(_ & E)|[((n & A) & _)|(i & A & C)]].
  - exists 7. vm_compute. reflexivity.
  - exfalso. vm_compute in E. discriminate.
  - exists (IPrune n). eauto.
  - exists i. auto.
Qed.
Print Assumptions C42_users_can_use_what_they_open_refuted.
