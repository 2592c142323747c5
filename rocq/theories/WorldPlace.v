(** When a new order is accepted. *)
From Coq Require Import Permutation.
From Verif Require Import Base BaseProofs Fees ListSum Queue QueueProofs Codec CodecProofs Critbit CritbitProofs CritbitSlab Market Matching MatchSteps MatchRefine MatchAsk MatchBid MatchRun MatchSpec Ledger LedgerSteps LedgerRun MatchReport MatchOrder MatchFacts Slots Core CoreInv CoreNew CoreFrame Instr InstrProofs Store Process StoreProofs World WorldInv WorldLoad WorldRun WorldStep WorldStep2 WorldInit WorldMain WorldSpec WorldFacts WorldFwd WorldCancel WorldPay WorldTrade OpenSpec PlaceSpec CorePlace MatchBlame CoreBlame TakeSpec ErrorSpec.

Lemma enabled_ok f : check_market_flags f false = Ok tt -> flags_known f = true /\ has_flag f AF_Disabled = false.
Proof.
  unfold check_market_flags. intros H. apply rbind_ok in H. destruct H as (? & K & H). apply check_ok in K. apply check_ok in H. split; [assumption|].
  apply existsb_exists in H. destruct H as (y & Hy & E). apply Z.eqb_eq in E. subst y. destruct (has_flag f AF_Permissioned); cbn [In] in Hy; repeat destruct Hy as [<-|Hy]; try reflexivity; destruct Hy.
Qed.
Lemma load_token_fwd s v t : token_at s v = Some t -> a_len (sget s v) = 165 -> t_state t = 1 -> load_token s v = Ok t.
Proof. intros T Ln St. unfold load_token. destruct (token_at_inv _ _ _ T) as [Z1 Z2]. rewrite Z1, Z2, Ln, St, !Z.eqb_refl. reflexivity. Qed.
Lemma transfer_in_fwd s h v dst w amt tv td : ~ In w h -> token_at s v = Some tv -> token_at s dst = Some td -> t_state tv = 1 -> t_state td = 1 -> t_mint tv = t_mint td ->
  t_delegate tv = Some w /\ amt <= t_delegated tv \/ t_delegate tv <> Some w /\ t_owner tv = w ->
  0 <= amt <= t_amount tv -> v <> dst -> t_amount td + amt < B64 -> exists s', transfer_in s h v dst w amt = Ok s'.
Proof.
  intros NH T1 T2 S1 S2 M AU AM NE RM. unfold transfer_in. destruct (amt =? 0); [eauto|].
  destruct (token_at_inv _ _ _ T2) as [P2 D2]. unfold balance at 1. rewrite D2. cbn [rbind].
  replace (existsb (Z.eqb w) h) with false by (symmetry; apply Bool.not_true_is_false; intros X; apply existsb_exists in X; destruct X as (y & Y1 & Y2); apply Z.eqb_eq in Y2; subst y; contradiction).
  cbn [negb check rbind].
  unfold spl_transfer. rewrite T1, T2. replace (0 <=? amt) with true by lia. cbn [check ok_or rbind]. rewrite S1, S2, M. cbn [Z.eqb andb Pos.eqb check rbind].
  replace (amt <=? t_amount tv) with true by lia. rewrite Z.eqb_refl. cbn [check rbind].
  assert (A1 : is_delegate tv w || (t_owner tv =? w) = true).
  { destruct AU as [[E _]|[_ E]]; [unfold is_delegate; rewrite E, Z.eqb_refl; reflexivity|rewrite E, Z.eqb_refl; apply orb_true_r]. }
  assert (A2 : negb (is_delegate tv w) || (amt <=? t_delegated tv) = true).
  { destruct AU as [[_ E]|[N _]]; [replace (amt <=? t_delegated tv) with true by lia; apply orb_true_r|]. unfold is_delegate. destruct (t_delegate tv) as [d|]; [|reflexivity].
    destruct (Z.eqb_spec d w); [congruence|reflexivity]. }
  rewrite A1, A2. cbn [check rbind]. replace (v =? dst) with false by lia. replace (t_amount td + amt <? B64) with true by lia. cbn [check rbind].
  unfold balance. rewrite sget_put, Z.eqb_refl. cbn [set_data a_data rbind t_amount set_amount]. replace (t_amount td + amt - t_amount td =? amt) with true by lia. cbn [check rbind]. eauto.
Qed.

Lemma transfer_in_judged s h src v w amt ts tv : token_at s src = Some ts -> token_at s v = Some tv -> t_state ts = 1 -> t_state tv = 1 -> t_mint ts = t_mint tv -> 0 <= amt -> src <> v ->
  (exists s', transfer_in s h src v w amt = Ok s') \/
  (transfer_in s h src v w amt = Err EInsufficientFunds /\ (t_amount ts < amt \/ (t_delegate ts = Some w /\ t_delegated ts < amt))) \/
  (transfer_in s h src v w amt = Err ETransferFailed /\ 0 < amt /\ ((t_owner ts <> w /\ t_delegate ts <> Some w) \/ In w h \/ B64 <= t_amount tv + amt)).
Proof.
  intros T1 T2 S1 S2 MM AM NE. unfold transfer_in. destruct (Z.eqb_spec amt 0) as [|NZ]; [eauto|]. assert (AP : 0 < amt) by lia.
  destruct (token_at_inv _ _ _ T2) as [P2 D2]. assert (BV : balance s v = Ok (t_amount tv)) by (unfold balance; rewrite D2; reflexivity). rewrite BV. cbn [rbind].
  destruct (existsb (Z.eqb w) h) eqn:EH.
  { right. right. split; [reflexivity|]. split; [exact AP|]. right. left. apply existsb_exists in EH. destruct EH as (y & Hy & E). apply Z.eqb_eq in E. subst y. exact Hy. }
  cbn [negb check rbind]. unfold spl_transfer. rewrite T1, T2. replace (0 <=? amt) with true by lia. cbn [check ok_or rbind]. rewrite S1, S2, MM. cbn [Z.eqb andb Pos.eqb check rbind].
  destruct (Z.leb_spec amt (t_amount ts)) as [AL|AL]; cbn [check rbind]; [|right; left; auto]. rewrite Z.eqb_refl. cbn [check rbind].
  assert (DG : is_delegate ts w = true -> t_delegate ts = Some w).
  { unfold is_delegate. destruct (t_delegate ts); [|discriminate]. intros X. f_equal. lia. }
  assert (DF : is_delegate ts w = false -> t_delegate ts <> Some w).
  { unfold is_delegate. destruct (t_delegate ts); [|intros _ X; discriminate]. intros X Y. injection Y as ->. lia. }
  destruct (is_delegate ts w || (t_owner ts =? w)) eqn:A1; cbn [check rbind].
  2: { apply orb_false_iff in A1. destruct A1 as [A1 A2]. right. right. split; [reflexivity|]. split; [exact AP|]. left. split; [lia|auto]. }
  destruct (negb (is_delegate ts w) || (amt <=? t_delegated ts)) eqn:A2; cbn [check rbind].
  2: { apply orb_false_iff in A2. destruct A2 as [A2 A3]. apply negb_false_iff in A2. right. left. split; [reflexivity|]. right. split; [auto|lia]. }
  replace (src =? v) with false by lia. destruct (Z.ltb_spec (t_amount tv + amt) B64) as [OV|OV]; cbn [check rbind].
  2: { right. right. split; [reflexivity|]. auto. }
  left. unfold balance. rewrite sget_put, Z.eqb_refl. cbn [set_data a_data rbind t_amount set_amount]. replace (t_amount tv + amt - t_amount tv =? amt) with true by lia. cbn [check rbind]. eauto.
Qed.

Lemma load_discount_fwd s k w disc : discount_ok s w disc -> exists da t, load_discount s (map (fun y => mkMeta y false) disc) = Ok da /\ load_fee_tier k w da = Ok t.
Proof.
  intros [->|(d & t & -> & T & Ln & St & OW)]; cbn [map load_discount mk].
  - eexists. eexists. split; reflexivity.
  - rewrite (load_token_fwd _ _ _ T Ln St). cbn [rbind]. eexists. unfold load_fee_tier, discount_of. cbn [da_owner da_mint da_balance].
    destruct (t_mint t =? srm_mint) eqn:E1; [|destruct (t_mint t =? msrm_mint) eqn:E2]; eexists; (split; [reflexivity|]); cbn [da_owner da_mint da_balance]; rewrite OW, Z.eqb_refl; cbn [check rbind]; rewrite ?E1, ?E2; reflexivity.
Qed.

Lemma discount_tier s k w disc da t : load_discount s (map (fun y => mkMeta y false) disc) = Ok da -> load_fee_tier k w da = Ok t -> tier_for s k w (nth_error disc 0) t.
Proof.
  intros H1 H2. pose proof (load_discount_ok s (repeat (mkMeta 0 false) 12 ++ map (fun y => mkMeta y false) disc) k w da t H1 H2) as H.
  unfold key_at in H. cbn [repeat app nth_error] in H. destruct disc; exact H.
Qed.

Section Place.
Variable e : env.
Hypothesis EO : env_ok e.
Notation D := (dexd e).
Variables (s : store) (k : Z) (m : market) (A : astate) (L : list (Z * open_orders)).
Hypothesis (WI : winv e s) (SN : seen e s k m A L) (P : usable m).
Let HM := sn_mkt _ _ _ _ _ _ SN.

(** With the right accounts and amounts that fit, an order is accepted or one of six reasons holds. *)
Theorem order_judged c ix x w oo payer t rent disc : account_for e s c k m L x w oo -> ~ disabled m -> order_ix_ok ix ->
  token_at s payer = Some t -> a_len (sget s payer) = 165 -> t_state t = 1 -> t_mint t = pays_in m (oi_side ix) -> payer <> pays_into m (oi_side ix) ->
  discount_ok s w disc -> thawed s (m_coin_vault m) -> thawed s (m_pc_vault m) ->
  let most := Z.min (to_pay ix (m_coin_lot m) oo) (t_amount t) in
  oo_coin_total oo + m_coin_deposits m + (match oi_side ix with Ask => most | Bid => 0 end) < B64 ->
  oo_pc_total oo + m_pc_deposits m + (match oi_side ix with Bid => most | Ask => 0 end) < B64 ->
  let r := process e c s (INewOrderV3 ix)
    (mkMeta k false :: mkMeta x false :: mkMeta (m_req_q m) false :: mkMeta (m_event_q m) false :: mkMeta (m_bids m) false :: mkMeta (m_asks m) false ::
     mkMeta payer false :: mkMeta w true :: map (fun y => mkMeta y false) ([m_coin_vault m; m_pc_vault m; spl_id; rent] ++ disc)) in
  (exists s', r = Ok s') \/ (exists er, r = Err er /\ order_error e s k m A c ix x w oo t (nth_error disc 0) er).
Proof.
  intros AF NDI IX T1 T2 T3 T4 NE DO (tc1 & TC & SC) (tp1 & TP & SP) most B1 B2 r. set (dep := to_pay ix (m_coin_lot m) oo) in *. set (vault := pays_into m (oi_side ix)) in *. rename t into tp.
  pose proof (wi_str _ _ WI) as W. destruct (seen_state e s k m A L WI SN P) as (seq & o & MS).
  pose proof (ms_mkt _ _ _ _ _ _ _ MS) as EM. pose proof (ms_bids _ _ _ _ _ _ _ MS) as HB. pose proof (ms_asks _ _ _ _ _ _ _ MS) as HA. pose proof (ms_evq _ _ _ _ _ _ _ MS) as HE.
  pose proof (ms_req _ _ _ _ _ _ _ MS) as HR. pose proof (ms_lists _ _ _ _ _ _ _ MS) as LS.
  assert (FE : check_market_flags (m_flags m) false = Ok tt).
  { apply flags_enabled; [exact (ws_flags _ W _ _ HM)|]. unfold disabled in NDI. destruct (Z.testbit (m_flags m) 7); [congruence|reflexivity]. }
  destruct (enabled_ok _ FE) as [FK FD].
  (* the account *)
  assert (AC : exists oo0, load_orders e s m x (Some w) (Some c) None = Ok oo0 /\ (live (D s) k x oo0 \/ opened e s m x (Some w) (Some c) None oo0) /\
    oo_coin_free oo0 = oo_coin_free oo /\ oo_pc_free oo0 = oo_pc_free oo /\ oo_coin_total oo0 = oo_coin_total oo /\ oo_pc_total oo0 = oo_pc_total oo /\ (oo_free_bits oo0 = 0 -> forall j, 0 <= j < 128 -> is_free oo j = false)).
  { destruct AF as [[IN OW]|(DZ & LN & RE & PM & BL)].
    - assert (LV : live (D s) k x oo) by (apply (sn_oos _ _ _ _ _ _ SN); exact IN). exists oo. split; [apply (load_live_fwd e s k m W HM); [assumption|intros ? [= <-]; assumption]|].
      repeat (split; [auto; fail|]). intros E j _. unfold is_free. rewrite E. apply Z.bits_0.
    - destruct BL as (_ & _ & _ & b1 & b2 & b3 & b4 & _). exists (oo_fresh (m_own m) w).
      assert (OA : oo_authority m = None) by (unfold oo_authority; rewrite PM; reflexivity).
      assert (OP : opened e s m x (Some w) (Some c) None (oo_fresh (m_own m) w)).
      { split; [assumption|]. split; [congruence|]. split; [exact LN|]. exists w, c. rewrite LN. auto. }
      split.
      { unfold load_orders. apply dexd_owned in DZ. destruct DZ as [HP HD]. rewrite HP, HD, LN, Z.eqb_refl. change (3228 =? OO_LEN) with true. cbn [check rbind].
        change (oo_flags oo_zero =? 0) with true. cbv iota. rewrite OA. cbn [opt_eqb check rbind ok_or]. rewrite RE. cbn [check rbind].
        unfold oo_init. change (oo_flags oo_zero =? 0) with true. cbn [check rbind oo_zero oo_bid_bits oo_orders oo_cids oo_rebates]. change (mkOO OO_FLAGS (m_own m) w 0 0 0 0 U128_MAX 0 (repeat 0 128) (repeat 0 128) 0) with (oo_fresh (m_own m) w).
        unfold oo_check_flags, oo_fresh. cbn [oo_flags oo_market oo_owner]. change (flags_known OO_FLAGS) with true. change (OO_FLAGS =? OO_FLAGS) with true. rewrite !Z.eqb_refl. reflexivity. }
      split; [right; exact OP|]. cbn [oo_fresh oo_coin_free oo_pc_free oo_coin_total oo_pc_total oo_free_bits]. repeat (split; [congruence|]). discriminate. }
  destruct AC as (oo0 & LO & LV & F1 & F2 & F3 & F4 & F5).
  destruct (with_oo e s m k x w c None oo0 seq L A o W MS LV) as (rest & C & _ & _).
  assert (ED : to_pay ix (m_coin_lot m) oo0 = dep) by (unfold dep, to_pay; rewrite F1, F2; reflexivity).
  destruct (load_discount_fwd s k w disc DO) as (da & t & HD & HT).
  assert (EO2 : o = mkObs (ob_bids o) (ob_asks o) m (ob_eq o)) by (rewrite <- EM; destruct o; reflexivity).
  destruct (wi_vlt _ _ WI) as [VA VC VP]. destruct (VC k m HM) as (tc & [c1 c2 c3 (c4 & c4') c5 c6]). destruct (VP k m HM) as (tq & [p1 p2 p3 (p4 & p4') p5 p6]).
  assert (tc1 = tc) by congruence. assert (tp1 = tq) by congruence. subst tc1 tp1.
  assert (RUN : r = ('(o', rq', oo', deposit) <- new_order_core o (0, seq) oo0 x t ix (t_amount tp) (c_now c) ;;
      transfer_in (put_data (put_data (write_obs s k (m_bids m) (m_asks m) (m_event_q m) o') (m_req_q m) (DReqQ rq')) x (DOO oo')) [k; m_req_q m; m_event_q m; m_bids m; m_asks m] payer vault w deposit)).
  { unfold r. cbn [process map app]. unfold proc_new_order. cbn [mk mk_signer]. rewrite HD. cbn [rbind]. rewrite (load_market_fwd e s k m HM false FE). cbn [rbind]. unfold check_signer. cbn [mk_signer check rbind].
    rewrite (ws_own _ W _ _ HM), HT. cbn [rbind].
    assert (X1 : load_req_q s m (m_req_q m) = Ok (0, seq)) by (unfold load_req_q; apply dexd_owned in HR; destruct HR as [_ ->]; rewrite Z.eqb_refl; reflexivity). rewrite X1. cbn [rbind].
    rewrite (load_evq_fwd e s m _ HE). cbn [rbind]. rewrite (load_token_fwd _ _ _ T1 T2 T3). cbn [rbind].
    fold (pays_in m (oi_side ix)). rewrite T4, Z.eqb_refl. cbn [check rbind]. unfold load_coin_vault, load_pc_vault. rewrite (load_token_fwd _ _ _ c1 c2 SC), (load_token_fwd _ _ _ p1 p2 SP). cbn [rbind]. rewrite !Z.eqb_refl. cbn [check rbind].
    unfold check_enabled. rewrite FK, FD. cbn [passert negb check rbind]. unfold check_spl. rewrite Z.eqb_refl. cbn [check rbind].
    rewrite (load_slab_fwd e s Bid _ _ HB), (load_slab_fwd e s Ask _ _ HA). cbn [rbind]. rewrite LO. cbn [rbind]. rewrite <- EO2. reflexivity. }
  rewrite RUN. clear RUN r.
  destruct (new_order_judged o seq oo0 x rest A t ix (t_amount tp) (c_now c) C IX) as [(o' & oo' & HC)|(er & HC & WHY)]; [rewrite EM, ED, F3; exact B1|rewrite EM, ED, F4; exact B2| |].
  2: { right. exists er. rewrite HC. split; [reflexivity|]. destruct er; cbn [why_core order_error] in *; try contradiction; rewrite ?EM, ?ED in WHY; try tauto.
    - destruct WHY as [Y1 Y2]. exists (ob_eq o). split; [exact HE|]. split; [exact Y1|]. intros CAP. destruct (Y2 CAP) as [Y|Y]; [left; exact Y|right].
      exists seq, (orders_of o (oi_side ix)), t. split; [exact HR|]. split; [destruct (oi_side ix); assumption|]. split; [|exact Y]. exact (discount_tier s k w disc da t HD HT).
    - unfold in_time. lia. }
  rewrite EM, ED in HC.
  pose proof (oo_touch e s m k x _ _ _ oo0 W HM LV) as (T & _ & _).
  assert (NB : m_bids m <> m_asks m) by (apply P).
  pose proof (write_obs_D e s k m _ _ _ _ HM NB HB HA HE HR o') as V1. pose proof (write_obs_quiet e EO s k m _ _ _ _ HM NB HB HA HE HR o') as Q1.
  set (s1 := write_obs s k (m_bids m) (m_asks m) (m_event_q m) o') in *. set (rq' := (0, wadd seq 1)) in *.
  assert (V2 : forall y, D (put_data s1 (m_req_q m) (DReqQ rq')) y = overlay e s k m o' rq' None y) by (intros; eapply put_req_D; eauto).
  assert (R1 : exists d, D s1 (m_req_q m) = Some d).
  { rewrite V1. unfold overlay. repeat match goal with |- context [if ?b then _ else _] => destruct b end; eauto. }
  destruct R1 as (d1 & R1). pose proof (quiet_put e EO _ _ (DReqQ rq') _ R1) as Q2. set (s2 := put_data s1 (m_req_q m) (DReqQ rq')) in *.
  assert (R2 : exists d, D s2 x = Some d) by (rewrite (over_touch e s k m _ _ _ _ W HM NB HB HA HE HR s2 o' rq' x T V2); eapply touch_some; exact T).
  destruct R2 as (d2 & R2). pose proof (quiet_put e EO _ _ (DOO oo') _ R2) as Q3. set (s3 := put_data s2 x (DOO oo')) in *.
  pose proof (quiet_trans _ _ _ (quiet_trans _ _ _ Q1 Q2) Q3) as Q.
  assert (DN : 0 <= dep).
  { pose proof (ci_acct _ _ _ _ C x oo0 (or_introl eq_refl)) as AO. pose proof (ao_coin _ _ _ _ _ _ AO). pose proof (ao_pc _ _ _ _ _ _ AO). unfold dep, to_pay. destruct (oi_side ix); lia. }
  rewrite HC. cbn [rbind]. fold s1 s2 s3.
  assert (X : exists v, token_at s vault = Some v /\ t_state v = 1 /\ t_mint tp = t_mint v) by (unfold vault, pays_in, pays_into in *; destruct (oi_side ix); eexists; (split; [eassumption|]); split; [assumption|congruence|assumption|congruence]).
  destruct X as (v & v1 & v2 & v3).
  destruct (transfer_in_judged s3 [k; m_req_q m; m_event_q m; m_bids m; m_asks m] payer vault w dep tp v) as [X|[[X Y]|(X & Y1 & Y2)]]; try (rewrite (qu_tok _ _ Q)); try assumption; [left; exact X|right; exists EInsufficientFunds|right; exists ETransferFailed]; (split; [exact X|]); cbn [order_error]; fold dep vault.
  - tauto.
  - split; [exact Y1|]. destruct Y2 as [Y2|[Y2|Y2]]; [tauto|tauto|]. right. right. exists v. auto.
Qed.
Theorem order_succeeds c ix x w oo payer rent disc q : account_for e s c k m L x w oo -> ~ disabled m -> order_ix_ok ix -> in_time (c_now c) ix ->
  (exists j, 0 <= j < 128 /\ is_free oo j = true) ->
  let dep := to_pay ix (m_coin_lot m) oo in let vault := pays_into m (oi_side ix) in
  can_pay s payer w (pays_in m (oi_side ix)) dep -> discount_ok s w disc -> payer <> vault -> ~ In w [k; m_req_q m; m_event_q m; m_bids m; m_asks m] ->
  thawed s (m_coin_vault m) -> thawed s (m_pc_vault m) -> (forall t, token_at s vault = Some t -> t_amount t + dep < B64) ->
  locks ix (m_coin_lot m) < B64 ->
  oo_coin_total oo + m_coin_deposits m + (match oi_side ix with Ask => dep | Bid => 0 end) < B64 ->
  oo_pc_total oo + m_pc_deposits m + (match oi_side ix with Bid => dep | Ask => 0 end) < B64 ->
  let opp := book_of A (other (oi_side ix)) in
  (oi_st ix = AbortTransaction -> oi_ot ix <> PostOnly -> ~ meets_own opp (oi_side ix) (oi_price ix) x (oi_qty ix) (oi_pc ix) (m_pc_lot m) (oi_limit ix)) ->
  D s (m_event_q m) = Some (DEventQ q) ->
  zlen (a_evs A) + events_needed opp (oi_side ix) (oi_price ix) x (oi_st ix) (oi_limit ix) <= zlen (q_buf q) ->
  exists s', process e c s (INewOrderV3 ix)
    (mkMeta k false :: mkMeta x false :: mkMeta (m_req_q m) false :: mkMeta (m_event_q m) false :: mkMeta (m_bids m) false :: mkMeta (m_asks m) false ::
     mkMeta payer false :: mkMeta w true :: map (fun y => mkMeta y false) ([m_coin_vault m; m_pc_vault m; spl_id; rent] ++ disc)) = Ok s'.
Proof.
  intros AF NDI IX TS (j & J1 & J2) dep vault (tp & T1 & T2 & T3 & T4 & T5 & T6) DO NE NH TC TP RM LB B1 B2 opp NO HQ RQ.
  destruct (order_judged c ix x w oo payer tp rent disc AF NDI IX T1 T2 T3 T4 NE DO TC TP) as [X|(er & X & Y)]; [rewrite Z.min_l by (fold dep; lia); exact B1|rewrite Z.min_l by (fold dep; lia); exact B2|exact X|exfalso].
  destruct er; cbn [order_error] in Y; try contradiction; fold opp in Y; fold dep in Y; fold vault in Y.
  - destruct Y as (q' & E & Y). assert (q' = q) by congruence. subst q'. lia.
  - destruct Y as (Y1 & Y2 & Y3). exact (NO Y1 Y2 Y3).
  - rewrite (Y j J1) in J2. discriminate.
  - destruct Y as [Y|[Y|[Y1 Y2]]]; [lia|lia|]. destruct T6 as [[T6 T7]|[T6 T7]]; [lia|contradiction].
  - destruct Y as (Y0 & [[Y1 Y2]|[Y|(v & Y1 & Y2)]]); [|contradiction|specialize (RM v Y1); lia]. destruct T6 as [[T6 T7]|[T6 T7]]; contradiction.
Qed.
End Place.
