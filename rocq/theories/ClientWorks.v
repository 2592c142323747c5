(** Given the market's own accounts, what the client library builds goes through. *)
From Coq Require Import Sorted.
From Verif Require Import Base BaseProofs Fees ListSum Queue QueueProofs Codec CodecProofs Critbit CritbitProofs CritbitSlab Market Matching MatchSteps MatchRefine MatchSpec Ledger Slots Core CoreInv CoreNew Instr InstrProofs Store Process StoreProofs World WorldInv WorldLoad WorldConsume WorldMain WorldSpec WorldFacts WorldFwd WorldCancel WorldPay WorldRights WorldCrank WorldCids PlaceSpec WorldPlace TakeSpec WorldTake OpenSpec WorldOpen Client ClientSpec ClientProofs.

Lemma works_as e c s ci i sg s' : built ci i sg -> wf_instr i -> process e c s i (as_given ci) = Ok s' -> process_bytes e c s (ci_data ci) (as_given ci) = Ok s'.
Proof. intros B W H. rewrite (built_runs _ _ _ _ _ _ B W). exact H. Qed.
Lemma order_wf ix : order_ix_ok ix -> wf_v3 ix.
Proof. intros []. unfold wf_v3, nz64, u16, u64, I64_MAX in *. lia. Qed.
Section Works.
Variable e : env.
Hypothesis EO : env_ok e.
Variables (s : store) (k : Z) (m : market) (A : astate) (L : list (Z * open_orders)).
Hypothesis (WI : winv e s) (SN : seen e s k m A L) (P : usable m).
Variable c : clock.
Lemma resting_u128 sd l : In l (book_of A sd) -> u128 (l_key l).
Proof.
  destruct (seen_state e s k m A L WI SN P) as (seq & o & MS). pose proof (ci_rep _ _ _ _ (ms_inv _ _ _ _ _ _ _ MS)) as R.
  destruct sd; cbn [book_of]; [rewrite <- (r_bids _ _ R)|rewrite <- (r_asks _ _ R)]; apply book_u128; apply R.
Qed.
Theorem cancel_works p sd l x oo : In (x, oo) L -> In l (book_of A sd) -> l_owner l = x -> places e s m 1 ->
  works e c s (b_cancel_order p k (m_bids m) (m_asks m) x (oo_owner oo) (m_event_q m) sd (l_key l)).
Proof.
  intros IN IL OL PL. destruct (cancel_succeeds e s k m A L WI SN P c sd l x oo [] IN IL OL PL) as (s' & H). exists s'. eapply works_as; [constructor|exact (resting_u128 sd l IL)|exact H].
Qed.
Theorem cancel_cids_works p x oo cids : In (x, oo) L -> length cids = 8%nat -> Forall u64 cids -> places e s m (zlen (with_cid x cids (a_bids A)) + zlen (with_cid x cids (a_asks A))) ->
  works e c s (b_cancel_by_client_ids p k (m_bids m) (m_asks m) x (oo_owner oo) (m_event_q m) cids).
Proof.
  intros IN L8 F PL. destruct (cancel_cids_succeeds e s k m A L WI SN P c x oo cids [] IN PL) as (s' & H). exists s'. eapply works_as; [constructor|split; assumption|exact H].
Qed.
Theorem cancel_cid_works p x oo sd l : In (x, oo) L -> In l (book_of A sd) -> l_owner l = x -> l_cid l <> 0 -> u64 (l_cid l) ->
  (forall j, 0 <= j < 128 -> is_free oo j = false -> cid_at oo j = l_cid l -> j = l_slot l) -> places e s m 1 ->
  works e c s (b_cancel_by_client_id p k (m_bids m) (m_asks m) x (oo_owner oo) (m_event_q m) (l_cid l)).
Proof.
  intros IN IL OL NZ U UQ PL. destruct (cancel_cid_succeeds e s k m A L WI SN P c x oo sd l [] IN IL OL NZ UQ PL) as (s' & H). exists s'. eapply works_as; [constructor|exact U|exact H].
Qed.
Theorem settle_works p x oo cw pw vs ref : In (x, oo) L -> e_pda e (m_nonce m) k = Some vs ->
  (let due := oo_coin_free oo + oo_pc_free oo + oo_rebates oo in
   wallet s cw (m_coin_mint m) due /\ wallet s pw (m_pc_mint m) due /\ (forall r, ref = Some r -> wallet s r (m_pc_mint m) due)) ->
  thawed s (m_coin_vault m) -> thawed s (m_pc_vault m) ->
  works e c s (b_settle_funds p k spl_id x (oo_owner oo) (m_coin_vault m) cw (m_pc_vault m) pw ref vs).
Proof.
  intros IN PD (W1 & W2 & W3) T1 T2.
  destruct (settle_succeeds e EO s k m A L WI SN P c x oo cw pw vs (match ref with Some r => [r] | None => [] end) IN PD) as (s' & H); [|exact T1|exact T2|].
  - split; [exact W1|]. split; [exact W2|]. destruct ref as [r|]; [right; exists r; split; [reflexivity|apply W3; reflexivity]|left; reflexivity].
  - exists s'. eapply works_as; [constructor|exact I|]. destruct ref; exact H.
Qed.
Theorem close_works p x oo dest : In (x, oo) L -> oo_coin_total oo = 0 -> oo_pc_total oo = 0 -> (forall j, 0 <= j < 128 -> is_free oo j = true) ->
  dest <> x -> a_lamports (sget s dest) + a_lamports (sget s x) < B64 -> works e c s (b_close_open_orders p x (oo_owner oo) dest k).
Proof.
  intros IN CT PT FR ND LM. destruct (close_succeeds e s k m A L WI SN P c x oo dest IN CT PT FR ND LM) as (s' & H). exists s'. eapply works_as; [constructor|exact I|exact H].
Qed.
Theorem prune_works p n x oo : has_flag (m_flags m) AF_Permissioned = true -> ~ disabled m -> In (x, oo) L -> 0 <= n < 65536 ->
  places e s m (Z.min n (zlen (own_orders x (a_bids A)) + zlen (own_orders x (a_asks A)))) ->
  works e c s (b_prune p k (m_bids m) (m_asks m) (m_prune_auth m) x (oo_owner oo) (m_event_q m) n).
Proof.
  intros PF ND IN HN PL. destruct (prune_succeeds e s k m A L WI SN P c n x oo PF ND IN ltac:(lia) PL) as (s' & H). exists s'. eapply works_as; [constructor|exact HN|exact H].
Qed.
Theorem consume_works p oos cf pf n : no_overflow e s -> ~ needs_crank_authority m -> oos <> [] -> StronglySorted Z.lt oos -> 0 <= n < 65536 ->
  let ci := b_consume_events p oos k (m_event_q m) cf pf n in
  exists s', process_bytes e c s (ci_data ci) (as_given ci) = Ok s' /\ consumes e s s' k m A L (served (Z.to_nat n) oos (a_evs A)).
Proof.
  intros G NC NE SO HN ci. assert (CK : crank (IConsumeEvents n) (as_given ci) k (m_event_q m) oos n).
  { split; [exact NE|]. split; [lia|]. left. split; [reflexivity|]. exists cf, pf. unfold as_given. cbn [ci ci_accounts b_consume_events]. rewrite map_map, map_app, map_map. cbn [map rw am_key mk]. rewrite map_id. reflexivity. }
  assert (AL : crank_allowed m (IConsumeEvents n) (as_given ci)).
  { cbn [crank_allowed]. unfold needs_crank_authority, permissioned in NC. pose proof (flags_any _ (ws_flags _ (wi_str _ _ WI) _ _ (sn_mkt _ _ _ _ _ _ SN))) as F. cbn [In] in F.
    destruct F as [F|[F|[F|[F|[F|[F|[]]]]]]]; rewrite <- F in *; try (left; reflexivity); try (right; reflexivity); exfalso; apply NC; split; reflexivity. }
  destruct (crank_succeeds e EO s k m A L WI G SN P c _ _ oos n CK AL) as (s' & H). exists s'. split; [eapply works_as; [constructor|exact HN|exact H]|].
  apply (crank_effect e EO s k m A L WI G SN P c _ _ _ oos n s' CK SO H).
Qed.
Theorem consume_perm_works p oos n : no_overflow e s -> needs_crank_authority m -> oos <> [] -> StronglySorted Z.lt oos -> 0 <= n < 65536 ->
  let ci := b_consume_events_permissioned p oos k (m_event_q m) (m_crank_auth m) n in
  exists s', process_bytes e c s (ci_data ci) (as_given ci) = Ok s' /\ consumes e s s' k m A L (served (Z.to_nat n) oos (a_evs A)).
Proof.
  intros G NC NE SO HN ci. assert (CK : crank (IConsumePermissioned n) (as_given ci) k (m_event_q m) oos n).
  { split; [exact NE|]. split; [lia|]. right. split; [reflexivity|]. exists (m_crank_auth m). unfold as_given. cbn [ci ci_accounts b_consume_events_permissioned]. rewrite map_map, map_app, map_map. cbn [map rw sg am_key mk]. rewrite map_id. reflexivity. }
  assert (AL : crank_allowed m (IConsumePermissioned n) (as_given ci)).
  { cbn [crank_allowed]. unfold needs_crank_authority, permissioned in NC. pose proof (flags_any _ (ws_flags _ (wi_str _ _ WI) _ _ (sn_mkt _ _ _ _ _ _ SN))) as F. cbn [In] in F. destruct NC as [N1 N2].
    assert (X : exists ms0, as_given ci = ms0 ++ [mkMeta (m_crank_auth m) true]).
    { exists (map (fun x => mkMeta x false) oos ++ [mkMeta k false; mkMeta (m_event_q m) false]). unfold as_given. cbn [ci ci_accounts b_consume_events_permissioned]. rewrite map_app, given_rw, <- app_assoc. reflexivity. }
    destruct F as [F|[F|[F|[F|[F|[F|[]]]]]]]; rewrite <- F in *; try discriminate N1; try discriminate N2; (split; [reflexivity|split; [reflexivity|exact X]]). }
  destruct (crank_succeeds e EO s k m A L WI G SN P c _ _ oos n CK AL) as (s' & H). exists s'. split; [eapply works_as; [constructor|exact HN|exact H]|].
  apply (crank_effect e EO s k m A L WI G SN P c _ _ _ oos n s' CK SO H).
Qed.
Theorem new_order_works p ix x w oo payer rent srm q : account_for e s c k m L x w oo -> ~ disabled m -> order_ix_ok ix -> in_time (c_now c) ix ->
  (exists j, 0 <= j < 128 /\ is_free oo j = true) ->
  let dep := to_pay ix (m_coin_lot m) oo in let vault := pays_into m (oi_side ix) in
  can_pay s payer w (pays_in m (oi_side ix)) dep -> discount_ok s w (match srm with Some d => [d] | None => [] end) -> payer <> vault -> ~ In w [k; m_req_q m; m_event_q m; m_bids m; m_asks m] ->
  thawed s (m_coin_vault m) -> thawed s (m_pc_vault m) -> (forall t, token_at s vault = Some t -> t_amount t + dep < B64) ->
  locks ix (m_coin_lot m) < B64 ->
  oo_coin_total oo + m_coin_deposits m + (match oi_side ix with Ask => dep | Bid => 0 end) < B64 ->
  oo_pc_total oo + m_pc_deposits m + (match oi_side ix with Bid => dep | Ask => 0 end) < B64 ->
  let opp := book_of A (other (oi_side ix)) in
  (oi_st ix = AbortTransaction -> oi_ot ix <> PostOnly -> ~ meets_own opp (oi_side ix) (oi_price ix) x (oi_qty ix) (oi_pc ix) (m_pc_lot m) (oi_limit ix)) ->
  dexd e s (m_event_q m) = Some (DEventQ q) ->
  zlen (a_evs A) + events_needed opp (oi_side ix) (oi_price ix) x (oi_st ix) (oi_limit ix) <= zlen (q_buf q) ->
  works e c s (b_new_order k x (m_req_q m) (m_event_q m) (m_bids m) (m_asks m) payer w (m_coin_vault m) (m_pc_vault m) spl_id rent srm p
    (oi_side ix) (oi_price ix) (oi_qty ix) (oi_ot ix) (oi_cid ix) (oi_st ix) (oi_limit ix) (oi_pc ix) (oi_max_ts ix)).
Proof.
  intros AF NDI OX IT FR dep vault CP DC NE NH T1 T2 RM LK C1 C2 opp AB HQ SP.
  destruct (order_succeeds e EO s k m A L WI SN P c ix x w oo payer rent _ q AF NDI OX IT FR CP DC NE NH T1 T2 RM LK C1 C2 AB HQ SP) as (s' & H). exists s'. eapply works_as; [constructor| |].
  - destruct ix as [f1 f2 f3 f4 f5 f6 f7 f8 f9]; cbn [oi_side oi_price oi_qty oi_ot oi_cid oi_st oi_limit oi_pc oi_max_ts]. exact (order_wf _ OX).
  - destruct ix as [f1 f2 f3 f4 f5 f6 f7 f8 f9]; cbn [oi_side oi_price oi_qty oi_ot oi_cid oi_st oi_limit oi_pc oi_max_ts]. destruct srm; exact H.
Qed.
Theorem take_works p sd price qty pc limit cw pw w vs srm q : ~ disabled m ->
  0 < price < B64 -> 0 < qty < B64 -> 0 < pc < B64 -> 0 <= limit < 65536 ->
  let dep := may_spend sd qty pc (m_coin_lot m) in let src := spends_from sd cw pw in let dst := receives_in sd cw pw in
  dep < B64 -> can_pay s src w (pays_in m sd) dep -> wallet s dst (pays_out m sd) (held m sd) -> discount_ok s w (match srm with Some d => [d] | None => [] end) ->
  (forall v, In v [cw; pw] -> v <> m_coin_vault m /\ v <> m_pc_vault m) -> ~ In w [k; m_req_q m; m_event_q m; m_bids m; m_asks m] ->
  e_pda e (m_nonce m) k = Some vs -> thawed s (m_coin_vault m) -> thawed s (m_pc_vault m) ->
  (forall t, token_at s (pays_into m sd) = Some t -> t_amount t + dep < B64) ->
  dexd e s (m_event_q m) = Some (DEventQ q) ->
  zlen (a_evs A) + events_needed (book_of A (other sd)) sd price 0 AbortTransaction limit <= zlen (q_buf q) ->
  exists s' gain, forall mc mp, u64 mc -> u64 mp ->
    let ci := b_send_take k (m_req_q m) (m_event_q m) (m_bids m) (m_asks m) cw pw w (m_coin_vault m) (m_pc_vault m) spl_id vs srm p sd price qty pc mc mp limit in
    process_bytes e c s (ci_data ci) (as_given ci) = if minimum sd mc mp <=? gain then Ok s' else Err EMinAmountNotMet.
Proof.
  intros ND H1 H2 H3 H4 dep src dst LB CP WD DO NV NH PD T1 T2 RM HQ RQ.
  destruct (take_succeeds e EO s k m A L WI SN P c sd price qty pc limit cw pw w vs _ q ND H1 H2 H3 H4 LB CP WD DO NV NH PD T1 T2 RM HQ RQ) as (s' & sp & gain & _ & _ & _ & H).
  exists s', gain. intros mc mp U1 U2 ci.
  rewrite (built_runs e c s ci _ _ (bt_send_take k (m_req_q m) (m_event_q m) (m_bids m) (m_asks m) cw pw w (m_coin_vault m) (m_pc_vault m) spl_id vs srm p sd price qty pc mc mp limit)).
  - destruct srm; apply H.
  - cbn [wf_instr]. unfold wf_take, nz64, u16, u64 in *. cbn [ti_side ti_price ti_qty ti_pc ti_min_coin ti_min_pc ti_limit]. repeat split; lia.
Qed.
Theorem sweep_works p pw vs : ~ disabled m -> wallet s pw (m_pc_mint m) (m_pc_fees m) -> thawed s (m_pc_vault m) -> e_pda e (m_nonce m) k = Some vs ->
  works e c s (b_sweep_fees p k (m_pc_vault m) fee_sweeper pw vs spl_id).
Proof. intros H1 H2 H3 H4. destruct (sweep_succeeds e EO s k m A L WI SN P c pw vs H1 H2 H3 H4) as (s' & H). exists s'. eapply works_as; [constructor|exact I|exact H]. Qed.
Theorem disable_works p : ~ disabled m -> works e c s (b_disable_market p k disable_authority).
Proof. intros H1. destruct (disable_succeeds e s k m A L WI SN c H1) as (s' & H). exists s'. eapply works_as; [constructor|exact I|exact H]. Qed.
Theorem init_oo_works p x w auth : ~ disabled m -> dexd e s x = Some DZero -> a_len (sget s x) = 3228 -> c_exempt c (a_lamports (sget s x)) 3228 = true ->
  auth = (if has_flag (m_flags m) AF_Permissioned then Some (m_oo_auth m) else None) -> works e c s (b_init_open_orders p x w k auth).
Proof.
  intros H1 H2 H3 H4 H5. destruct (init_oo_succeeds e s k m A L WI SN c x w rent_id auth H1 H2 H3 H4 H5) as (s' & H). exists s'. eapply works_as; [constructor|exact I|]. destruct auth; exact H.
Qed.
End Works.

(** Opening a market. *)
Theorem initialize_works e c s p k cm pm cv pv auth prune_auth crank_auth b a rq eq cl pl n d vs : env_ok e -> history e s ->
  wf_init (mkInitIx cl pl 0 n d) -> NoDup [k; rq; eq; b; a] -> blank_of e s 388 k -> a_len (sget s k) = match auth with None => 388 | Some _ => 1476 end ->
  blank_of e s 124 rq -> blank_of e s 11308 eq -> blank_of e s 14524 b -> blank_of e s 14524 a ->
  e_pda e n k = Some vs -> usable_vault s vs cv cm -> usable_vault s vs pv pm -> is_mint s cm -> is_mint s pm ->
  (forall x, In x [rq; eq; b; a; cv; pv; cm; pm] -> c_exempt c (a_lamports (sget s x)) (a_len (sget s x)) = true) ->
  let ci := b_initialize_market k p cm pm cv pv auth prune_auth crank_auth b a rq eq cl pl n d in
  exists s' m, process_bytes e c s (ci_data ci) (as_given ci) = Ok s' /\ dexd e s' k = Some (DMarket m) /\ as_called k cm pm cv pv auth prune_auth crank_auth b a rq eq cl pl n d m.
Proof.
  intros EO H WF ND BK LK BR BE BB BA PD VC VP MC MP EX ci.
  set (auths := if_some auth (fun x => x :: if_some prune_auth (fun y => y :: if_some crank_auth (fun z => [z])))).
  assert (KM : map mk (as_given ci) = k :: rq :: eq :: b :: a :: cv :: pv :: cm :: pm :: rent_id :: auths) by (destruct auth as [?|]; [destruct prune_auth as [?|]; [destruct crank_auth as [?|]|]|]; reflexivity).
  destruct (open_possible e c s (mkInitIx cl pl 0 n d) (as_given ci) k rq eq b a cv pv cm pm rent_id vs auths KM) as (s' & R); try assumption.
  - destruct auth as [?|]; [destruct prune_auth as [?|]; [destruct crank_auth as [?|]|]|]; cbn; lia.
  - destruct auth as [?|]; exact LK.
  - destruct (open_effect e EO c s _ _ s' H R) as (m & OP). exists s', m. split; [eapply works_as; [constructor|exact WF|exact R]|].
    destruct (op_asked _ _ _ _ _ _ OP) as [a1 a2 a3 a4 a5 a6 a7 a8 a9 a10 a11 a12 a13 a14].
    assert (KA : forall i, key_at (as_given ci) i = nth_error (k :: rq :: eq :: b :: a :: cv :: pv :: cm :: pm :: rent_id :: auths) i) by (intros i; apply key_at_map; exact KM).
    cbn [map] in a1. rewrite !KA in a1. cbn [nth_error] in a1. rewrite KA in a8, a9, a12. cbn [nth_error] in a8, a9, a12.
    assert (a10' : forall x, nth_error auths 0 = Some x -> m_oo_auth m = x) by (intros x X; apply a10; rewrite KA; exact X).
    assert (a11' : forall x, nth_error auths 1 = Some x -> m_prune_auth m = x) by (intros x X; apply a11; rewrite KA; exact X).
    assert (a13' : forall x, nth_error auths 2 = Some x -> m_crank_auth m = x) by (intros x X; apply a13; rewrite KA; exact X).
    injection a1 as b1 b2 b3 b4 b5 b6 b7 b8 b9. split; [rewrite b1; exact (op_market _ _ _ _ _ _ OP)|]. cbn [ii_coin_lot ii_pc_lot ii_nonce ii_dust ii_fee_rate] in *. unfold auths in *.
    constructor; [congruence|congruence| | | | | |].
    + rewrite a8. destruct auth; [split; discriminate|split; intros X; exfalso; apply X; reflexivity].
    + rewrite a9. destruct auth as [?|]; [destruct prune_auth as [?|]; [destruct crank_auth as [?|]|]|]; cbn; split; try discriminate; intros X; try (exfalso; tauto). repeat split; discriminate.
    + intros x ->. apply a10'. reflexivity.
    + intros x y -> ->. apply a11'. reflexivity.
    + intros X. apply a12. destruct auth as [?|]; [destruct prune_auth as [?|]|]; try reflexivity. destruct X; discriminate.
    + intros x y z -> -> ->. apply a13'. reflexivity.
Qed.
