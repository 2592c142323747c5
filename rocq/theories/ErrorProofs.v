(** Errors have causes. *)
From Coq Require Import Permutation.
From Verif Require Import Base BaseProofs Fees ListSum Queue QueueProofs Codec CodecProofs Critbit CritbitProofs CritbitSlab Market Matching MatchSteps MatchRefine MatchAsk MatchBid MatchRun MatchSpec Ledger LedgerSteps LedgerRun MatchReport MatchOrder MatchFacts Slots Core CoreInv CoreNew CoreCancel CoreFrame Instr InstrProofs Store Process StoreProofs World WorldInv WorldLoad WorldRun WorldStep WorldStep2 WorldInit WorldMain WorldSpec WorldFacts WorldFwd WorldCancel WorldCids WorldPay OpenSpec PlaceSpec CorePlace MatchBlame CoreBlame WorldTrade WorldPlace TakeSpec ErrorSpec.

Notation acct_errs := [EAssert; EInvalidMarketFlags; EWrongOrdersAccount; EOrdersNotRentExempt; EInvalidOpenOrdersAuthority; ERentNotProvided;
         EWrongCoinVault; EWrongPcVault; EWrongCoinMint; EWrongPcMint; EWrongReqQ; EWrongEventQ; ENotSigner; EOther].
(** ** Loading the accounts *)
Lemma market_errs e s k b : errs acct_errs (load_market e s k b).
Proof. unfold load_market, check_market_flags. destruct (a_data (sget s k)); errs_all. Qed.
Lemma token_errs s k : errs acct_errs (load_token s k).
Proof. unfold load_token. apply errs_bind; [errs_all|intros _]. apply errs_bind; [errs_all|intros _]. destruct (a_data (sget s k)); errs_all. Qed.
Lemma discount_errs s l : errs acct_errs (load_discount s l).
Proof. unfold load_discount. destruct l as [|d [|]]; errs_all; apply token_errs. Qed.
Lemma signer_errs a : errs acct_errs (check_signer a).
Proof. unfold check_signer. errs_all. Qed.
Lemma tier_errs k w da : errs acct_errs (load_fee_tier k w da).
Proof. unfold load_fee_tier. destruct da as [d|]; errs_all. repeat (match goal with |- context [if ?b then _ else _] => destruct b end); errs_all. Qed.
Lemma req_errs s m k : errs acct_errs (load_req_q s m k).
Proof. unfold load_req_q. apply errs_bind; [errs_all|intros _]. destruct (a_data (sget s k)); errs_all. Qed.
Lemma evq_errs s m k : errs acct_errs (load_event_q s m k).
Proof. unfold load_event_q. apply errs_bind; [errs_all|intros _]. destruct (a_data (sget s k)); errs_all. Qed.
Lemma slab_errs s sd f k : errs acct_errs (load_slab s sd f k).
Proof. unfold load_slab. apply errs_bind; [errs_all|intros _]. destruct (a_data (sget s k)); errs_all. Qed.
Lemma coin_vault_errs s m k : errs acct_errs (load_coin_vault s m k).
Proof. unfold load_coin_vault. apply errs_bind; [apply token_errs|intros ?; errs_all]. Qed.
Lemma pc_vault_errs s m k : errs acct_errs (load_pc_vault s m k).
Proof. unfold load_pc_vault. apply errs_bind; [apply token_errs|intros ?; errs_all]. Qed.
Lemma coin_wallet_errs s m k : errs acct_errs (load_coin_wallet s m k).
Proof. unfold load_coin_wallet. apply errs_bind; [apply token_errs|intros ?; errs_all]. Qed.
Lemma pc_wallet_errs s m k : errs acct_errs (load_pc_wallet s m k).
Proof. unfold load_pc_wallet. apply errs_bind; [apply token_errs|intros ?; errs_all]. Qed.
Lemma enabled_errs m b : check_market_flags (m_flags m) b = Ok tt -> has_flag (m_flags m) AF_Disabled = false -> errs acct_errs (check_enabled m).
Proof. intros H1 H2. unfold check_enabled. rewrite H2. cbn [negb check]. errs_all. Qed.
Lemma spl_errs k : errs acct_errs (check_spl k).
Proof. unfold check_spl. errs_all. Qed.
Lemma pda_errs e m k : errs acct_errs (check_vault_signer e m k).
Proof. unfold check_vault_signer. errs_all. Qed.
Lemma orders_errs e s m k w c a : errs acct_errs (load_orders e s m k (Some w) c a).
Proof.
  unfold load_orders, oo_check_flags. apply errs_bind; [errs_all|intros _]. apply errs_bind.
  { destruct (a_data (sget s k)); errs_all. destruct (_ =? OO_LEN); errs_all. }
  intros oo. apply errs_bind; [|intros ?; errs_all]. destruct (oo_flags oo =? 0); errs_all. unfold oo_init. errs_all.
Qed.

Lemma load_token_ok s k t : load_token s k = Ok t -> token_at s k = Some t /\ t_state t = 1 /\ a_len (sget s k) = 165.
Proof.
  unfold load_token. intros H. apply rbind_ok in H. destruct H as (? & H1 & H). apply check_ok in H1. apply rbind_ok in H. destruct H as (? & H2 & H). apply check_ok in H2.
  destruct (a_data (sget s k)) eqn:E; try discriminate. apply rbind_ok in H. destruct H as (? & H3 & H). apply check_ok in H3. injection H as <-.
  split; [|split; lia]. unfold token_at. rewrite E. replace (a_prog (sget s k) =? spl_id) with true by lia. reflexivity.
Qed.
(** ** Paying in *)
Lemma transfer_in_err s1 h src v w amt ts tv er : token_at s1 src = Some ts -> token_at s1 v = Some tv -> t_state ts = 1 -> t_state tv = 1 -> t_mint ts = t_mint tv -> 0 <= amt ->
  transfer_in s1 h src v w amt = Err er ->
  er = EAssert \/ (er = EInsufficientFunds /\ (t_amount ts < amt \/ (t_delegate ts = Some w /\ t_delegated ts < amt))) \/
  (er = ETransferFailed /\ 0 < amt /\ ((t_owner ts <> w /\ t_delegate ts <> Some w) \/ In w h \/ B64 <= t_amount tv + amt)).
Proof.
  intros T1 T2 S1 S2 MM AM H. unfold transfer_in in H. destruct (Z.eqb_spec amt 0) as [|NZ]; [discriminate|]. assert (AP : 0 < amt) by lia.
  apply rbind_err in H. destruct H as [H|(b0 & B0 & H)]; [unfold balance in H; destruct (a_data _); discriminate|].
  apply rbind_err in H. destruct H as [H|(_ & _ & H)].
  { apply check_err in H. destruct H as [H ->]. right. right. split; [reflexivity|]. split; [exact AP|]. right. left. apply negb_false_iff in H. apply existsb_exists in H. destruct H as (y & Hy & E). apply Z.eqb_eq in E. subst y. exact Hy. }
  apply rbind_err in H. destruct H as [H|(s2 & HS & H)].
  - unfold spl_transfer in H. rewrite T1, T2 in H. replace (0 <=? amt) with true in H by lia. cbn [check ok_or rbind] in H. rewrite S1, S2, MM in H. cbn [check rbind Z.eqb Pos.eqb andb] in H.
    assert (DG : is_delegate ts w = true -> t_delegate ts = Some w).
    { unfold is_delegate. destruct (t_delegate ts); [|discriminate]. intros X. f_equal. lia. }
    assert (DF : is_delegate ts w = false -> t_delegate ts <> Some w).
    { unfold is_delegate. destruct (t_delegate ts); [|intros _ X; discriminate]. intros X Y. injection Y as ->. lia. }
    apply rbind_err in H. destruct H as [H|(_ & _ & H)]; [apply check_err in H; destruct H as [H ->]; right; left; split; [reflexivity|]; left; lia|].
    rewrite Z.eqb_refl in H. cbn [check rbind] in H.
    apply rbind_err in H. destruct H as [H|(_ & _ & H)].
    { apply check_err in H. destruct H as [H ->]. apply orb_false_iff in H. destruct H as [H1 H2]. right. right. split; [reflexivity|]. split; [exact AP|]. left. split; [lia|auto]. }
    apply rbind_err in H. destruct H as [H|(_ & _ & H)].
    { apply check_err in H. destruct H as [H ->]. apply orb_false_iff in H. destruct H as [H1 H2]. apply negb_false_iff in H1. right. left. split; [reflexivity|]. right. split; [auto|lia]. }
    destruct (src =? v); [discriminate|]. apply rbind_err in H. destruct H as [H|(_ & _ & H)]; [|discriminate].
    apply check_err in H. destruct H as [H ->]. right. right. split; [reflexivity|]. split; [exact AP|]. right. right. lia.
  - apply rbind_err in H. destruct H as [H|(b1 & B1 & H)]; [unfold balance in H; destruct (a_data _); discriminate|].
    apply rbind_err in H. destruct H as [H|(_ & _ & H)]; [|discriminate]. apply check_err in H. left. tauto.
Qed.
Lemma free_bits_zero oo : oo_wf oo -> oo_free_bits oo = 0 -> forall j, 0 <= j < 128 -> is_free oo j = false.
Proof. intros _ E j _. unfold is_free. rewrite E. apply Z.bits_0. Qed.

Section Errors.
Variable e : env.
Hypothesis EO : env_ok e.
Notation D := (dexd e).
Variables (s : store) (k : Z) (m : market) (A : astate) (L : list (Z * open_orders)).
Hypothesis (WI : winv e s) (SN : seen e s k m A L) (P : usable m).
Let HM := sn_mkt _ _ _ _ _ _ SN.

(** ** New orders *)
Lemma account_loaded c x w oo : load_orders e s m x (Some w) (Some c) None = Ok oo -> account_for e s c k m L x w oo.
Proof.
  intros LO. pose proof (wi_str _ _ WI) as W. destruct (load_orders_ok e s m k x _ _ _ oo W HM LO) as [[LV|OP] OW].
  - left. split; [apply (sn_oos _ _ _ _ _ _ SN); exact LV|apply OW; reflexivity].
  - right. destruct OP as (DZ & OA & LN & u & c' & [= <-] & [= <-] & EX & ->). split; [exact DZ|]. split; [exact LN|]. rewrite LN in EX. split; [exact EX|].
    split. { unfold oo_authority in OA. destruct (has_flag (m_flags m) AF_Permissioned); [discriminate|reflexivity]. }
    rewrite (ws_own _ W _ _ HM). unfold blank_for, oo_fresh. cbn [oo_flags oo_market oo_owner oo_coin_free oo_coin_total oo_pc_free oo_pc_total oo_rebates]. repeat (split; [reflexivity|]).
    intros i Hi. unfold is_free. cbn [oo_free_bits]. change U128_MAX with (Z.ones 128). apply Z.ones_spec_low. assumption.
Qed.
Theorem order_refused c ix ms er : order_ix_ok ix -> key_at ms 0 = Some k -> process e c s (INewOrderV3 ix) ms = Err er ->
  about_accounts er \/ exists x w oo payer t, key_at ms 1 = Some x /\ key_at ms 6 = Some payer /\ signs ms 7 w /\
    account_for e s c k m L x w oo /\ token_at s payer = Some t /\ order_error e s k m A c ix x w oo t (key_at ms 12) er.
Proof.
  intros IX K H. cbn [process] in H. pose proof (wi_str _ _ WI) as W. destruct (seen_state e s k m A L WI SN P) as (seq & o & MS).
  pose proof (ms_mkt _ _ _ _ _ _ _ MS) as EM. pose proof (ms_bids _ _ _ _ _ _ _ MS) as HB. pose proof (ms_asks _ _ _ _ _ _ _ MS) as HA. pose proof (ms_evq _ _ _ _ _ _ _ MS) as HE.
  pose proof (ms_req _ _ _ _ _ _ _ MS) as HR.
  unfold proc_new_order in H.
  destruct ms as [|mkt [|oa [|rqa [|eqa [|ba [|aa [|payer [|owner [|cv [|pv [|spl [|rent disc]]]]]]]]]]]]; try (left; injection H as <-; left; reflexivity).
  cbn [key_at nth_error option_map] in K. injection K as K. cbn [map] in H. rewrite K in H.
  apply rbind_err in H. destruct H as [H|(da & HDA & H)]; [left; exact (discount_errs _ _ _ H)|].
  apply rbind_err in H. destruct H as [H|(m0 & LM & H)]; [left; exact (market_errs _ _ _ _ _ H)|].
  apply load_market_ok in LM. destruct LM as [LM FE]. assert (m0 = m) by congruence. subst m0. destruct (enabled_ok _ FE) as [FK FD].
  apply rbind_err in H. destruct H as [H|(? & SG & H)]; [left; exact (signer_errs _ _ H)|]. apply check_ok in SG.
  apply rbind_err in H. destruct H as [H|(t & HTI & H)]; [left; exact (tier_errs _ _ _ _ H)|].
  apply rbind_err in H. destruct H as [H|(rq & LR & H)]; [left; exact (req_errs _ _ _ _ H)|].
  apply rbind_err in H. destruct H as [H|(q & LQ & H)]; [left; exact (evq_errs _ _ _ _ H)|].
  apply rbind_err in H. destruct H as [H|(pt & LP & H)]; [left; exact (token_errs _ _ _ H)|].
  apply rbind_err in H. destruct H as [H|(? & MT & H)]; [apply check_err in H; left; destruct H as [_ ->]; left; reflexivity|]. apply check_ok in MT.
  apply rbind_err in H. destruct H as [H|(tc & LC & H)]; [left; exact (coin_vault_errs _ _ _ _ H)|].
  apply rbind_err in H. destruct H as [H|(tv & LV & H)]; [left; exact (pc_vault_errs _ _ _ _ H)|].
  apply rbind_err in H. destruct H as [H|(_ & _ & H)]; [left; exact (enabled_errs _ _ FE FD _ H)|].
  apply rbind_err in H. destruct H as [H|(_ & _ & H)]; [left; exact (spl_errs _ _ H)|].
  apply rbind_err in H. destruct H as [H|(bids & LB & H)]; [left; exact (slab_errs _ _ _ _ _ H)|].
  apply rbind_err in H. destruct H as [H|(asks & LA & H)]; [left; exact (slab_errs _ _ _ _ _ H)|].
  apply rbind_err in H. destruct H as [H|(oo & LO & H)]; [left; exact (orders_errs _ _ _ _ _ _ _ _ H)|].
  (* the accounts are the market's *)
  unfold load_req_q in LR. apply rbind_ok in LR. destruct LR as (? & KR & LR). apply check_ok in KR. apply Z.eqb_eq in KR. rewrite KR in *.
  unfold load_event_q in LQ. apply rbind_ok in LQ. destruct LQ as (? & KQ & LQ). apply check_ok in KQ. apply Z.eqb_eq in KQ. rewrite KQ in *.
  unfold load_slab in LB. apply rbind_ok in LB. destruct LB as (? & KB & LB). apply check_ok in KB. apply Z.eqb_eq in KB. rewrite KB in *.
  unfold load_slab in LA. apply rbind_ok in LA. destruct LA as (? & KA & LA). apply check_ok in KA. apply Z.eqb_eq in KA. rewrite KA in *.
  pose proof (proj2 (dexd_owned _ _ _ _ HR)) as YR. pose proof (proj2 (dexd_owned _ _ _ _ HE)) as YE. pose proof (proj2 (dexd_owned _ _ _ _ HB)) as YB. pose proof (proj2 (dexd_owned _ _ _ _ HA)) as YA.
  rewrite YR in LR. injection LR as <-. rewrite YE in LQ. injection LQ as <-. rewrite YB in LB. cbn [side_eqb check rbind] in LB. injection LB as <-. rewrite YA in LA. cbn [side_eqb check rbind] in LA. injection LA as <-.
  unfold load_coin_vault in LC. apply rbind_ok in LC. destruct LC as (tc1 & LC & KC). apply rbind_ok in KC. destruct KC as (? & KC & E). apply check_ok in KC. apply Z.eqb_eq in KC. injection E as ->. rewrite KC in *.
  unfold load_pc_vault in LV. apply rbind_ok in LV. destruct LV as (tv1 & LV & KV). apply rbind_ok in KV. destruct KV as (? & KV & E). apply check_ok in KV. apply Z.eqb_eq in KV. injection E as ->. rewrite KV in *.
  apply load_token_ok in LC. destruct LC as (C1 & C2 & C3). apply load_token_ok in LV. destruct LV as (V1' & V2' & V3'). apply load_token_ok in LP. destruct LP as (T1 & T2 & T3).
  pose proof (account_loaded _ _ _ _ LO) as AF.
  destruct (load_orders_ok e s m _ _ _ _ _ oo W HM LO) as [LVO _].
  destruct (with_oo e s m _ (mk oa) (mk owner) c None oo seq L A o W MS LVO) as (rest & C & _ & _).
  assert (EO2 : o = mkObs (ob_bids o) (ob_asks o) m (ob_eq o)) by (rewrite <- EM; destruct o; reflexivity). rewrite <- EO2 in H.
  assert (RES : order_error e s k m A c ix (mk oa) (mk owner) oo pt (key_at (mkt :: oa :: rqa :: eqa :: ba :: aa :: payer :: owner :: cv :: pv :: spl :: rent :: disc) 12) er -> about_accounts er \/
    exists x w oo y t, key_at (mkt :: oa :: rqa :: eqa :: ba :: aa :: payer :: owner :: cv :: pv :: spl :: rent :: disc) 1 = Some x /\
      key_at (mkt :: oa :: rqa :: eqa :: ba :: aa :: payer :: owner :: cv :: pv :: spl :: rent :: disc) 6 = Some y /\
      signs (mkt :: oa :: rqa :: eqa :: ba :: aa :: payer :: owner :: cv :: pv :: spl :: rent :: disc) 7 w /\
      account_for e s c k m L x w oo /\ token_at s y = Some t /\ order_error e s k m A c ix x w oo t (key_at (mkt :: oa :: rqa :: eqa :: ba :: aa :: payer :: owner :: cv :: pv :: spl :: rent :: disc) 12) er).
  { intros X. right. exists (mk oa), (mk owner), oo, (mk payer), pt. split; [reflexivity|]. split; [reflexivity|]. split; [|auto].
    unfold signs. cbn [nth_error]. destruct owner as [w0 b0]. cbn in *. subst b0. reflexivity. }
  apply rbind_err in H. destruct H as [H|([[[o' rq'] oo'] dep] & HC & H)].
  - destruct (new_order_refused _ _ _ _ _ _ _ _ _ _ _ C IX H) as [->|Y]; [left; left; reflexivity|]. apply RES. clear RES. rewrite <- EM.
    destruct er; cbn [why_core order_error] in *; try contradiction; try tauto.
    + destruct Y as [Y1 Y2]. exists (ob_eq o). split; [rewrite EM; exact HE|]. split; [exact Y1|]. intros CAP. destruct (Y2 CAP) as [Y|Y]; [left; exact Y|right].
      exists seq, (orders_of o (oi_side ix)), t. split; [rewrite EM; exact HR|]. split; [rewrite EM; destruct (oi_side ix); assumption|]. split; [|exact Y].
      rewrite (ws_own _ W _ _ HM) in HTI. exact (load_discount_ok s (mkt :: oa :: rqa :: eqa :: ba :: aa :: payer :: owner :: cv :: pv :: spl :: rent :: disc) k _ da t HDA HTI).
    + apply free_bits_zero; [|exact Y]. exact (ao_wf _ _ _ _ _ _ (ci_acct _ _ _ _ C _ oo (or_introl eq_refl))).
    + unfold in_time. lia.
  - destruct (new_order_charges _ _ _ _ _ _ _ _ _ _ _ _ _ _ C IX HC) as [DE DB]. rewrite EM in DE.
    pose proof (oo_touch e s m _ (mk oa) _ _ _ oo W HM LVO) as (T & _ & _).
    assert (NB : m_bids m <> m_asks m) by (apply P).
    pose proof (write_obs_D e s _ m _ _ _ _ HM NB HB HA HE HR o') as W1. pose proof (write_obs_quiet e EO s _ m _ _ _ _ HM NB HB HA HE HR o') as Q1.
    set (s1 := write_obs s k (m_bids m) (m_asks m) (m_event_q m) o') in *.
    assert (W2 : forall y, D (put_data s1 (m_req_q m) (DReqQ rq')) y = overlay e s k m o' rq' None y) by (intros; eapply put_req_D; eauto).
    assert (R1 : exists d, D s1 (m_req_q m) = Some d).
    { rewrite W1. unfold overlay. repeat match goal with |- context [if ?b then _ else _] => destruct b end; eauto. }
    destruct R1 as (d1 & R1). pose proof (quiet_put e EO _ _ (DReqQ rq') _ R1) as Q2. set (s2 := put_data s1 (m_req_q m) (DReqQ rq')) in *.
    assert (R2 : exists d, D s2 (mk oa) = Some d) by (rewrite (over_touch e s _ m _ _ _ _ W HM NB HB HA HE HR s2 o' rq' (mk oa) T W2); eapply touch_some; exact T).
    destruct R2 as (d2 & R2). pose proof (quiet_put e EO _ _ (DOO oo') _ R2) as Q3. set (s3 := put_data s2 (mk oa) (DOO oo')) in *.
    pose proof (quiet_trans _ _ _ (quiet_trans _ _ _ Q1 Q2) Q3) as Q. cbv zeta in H. fold s1 in H. fold s2 in H. fold s3 in H.
    destruct (wi_vlt _ _ WI) as [VA VC VP]. destruct (VC _ m HM) as (tc0 & [c1 c2 c3 (c4 & c4') c5 c6]). destruct (VP _ m HM) as (tq0 & [p1 p2 p3 (p4 & p4') p5 p6]).
    assert (tc0 = tc) by congruence. assert (tq0 = tv) by congruence. subst tc0 tq0.
    assert (X : exists v, token_at s (pays_into m (oi_side ix)) = Some v /\ t_state v = 1 /\ t_mint pt = t_mint v /\ transfer_in s3 [k; m_req_q m; m_event_q m; m_bids m; m_asks m] (mk payer) (pays_into m (oi_side ix)) (mk owner) dep = Err er).
    { destruct (oi_side ix); cbn [pays_into]; [exists tv|exists tc]; repeat (split; [first [assumption|lia]|]); exact H. }
    destruct X as (v & v1 & v2 & v3 & HT).
    apply transfer_in_err with (ts := pt) (tv := v) in HT; try (rewrite (qu_tok _ _ Q)); try assumption; try lia.
    destruct HT as [->|[[-> Y]|(-> & Y1 & Y2)]]; [left; left; reflexivity| |]; apply RES; cbn [order_error]; rewrite <- DE.
    + tauto.
    + split; [exact Y1|]. destruct Y2 as [Y2|[Y2|Y2]]; [tauto|tauto|]. right. right. exists v. auto.
Qed.

(** ** Cancels *)
Lemma no_room seq o n : mstate (D s) k m seq L A o -> zlen (q_buf (ob_eq o)) < zlen (a_evs A) + n -> ~ places e s m n.
Proof.
  intros MS X (q & HQ & PL). assert (EQ : ob_eq o = q) by (pose proof (ms_evq _ _ _ _ _ _ _ MS); congruence).
  pose proof (r_evs _ _ (ci_rep _ _ _ _ (ms_inv _ _ _ _ _ _ _ MS))) as FL. rewrite EQ in *. rewrite FL in PL. unfold zlen in *. rewrite map_length in PL. lia.
Qed.
Definition core_judged (core : obs -> Z -> open_orders -> res (obs * open_orders)) (why : Z -> open_orders -> err -> Prop) : Prop :=
  forall o seq r x oo, mstate (D s) k m seq L A o -> cinv o seq ((x, oo) :: r) A -> (exists p, core o x oo = Ok p) \/ (exists er, core o x oo = Err er /\ why x oo er).
Lemma cancel_judged core why x oo rest : core_judged core why -> In (x, oo) L ->
  (exists s', proc_cancel e s core (cancel_accounts k m x (oo_owner oo) rest) = Ok s') \/
  (exists er, proc_cancel e s core (cancel_accounts k m x (oo_owner oo) rest) = Err er /\ why x oo er).
Proof.
  intros CJ IN. pose proof (wi_str _ _ WI) as W. destruct (seen_state e s k m A L WI SN P) as (seq & o & MS).
  assert (LV : live (D s) k x oo) by (apply (ms_lists _ _ _ _ _ _ _ MS); exact IN).
  destruct (lists_take _ _ _ _ _ (ms_lists _ _ _ _ _ _ _ MS) LV) as (rst & PM & _). pose proof (cinv_perm _ _ _ _ _ PM (ms_inv _ _ _ _ _ _ _ MS)) as C.
  unfold proc_cancel, cancel_accounts. cbn [mk mk_signer]. rewrite (load_market_any e s k m W HM). cbn [rbind]. unfold check_signer. cbn [mk_signer check rbind].
  rewrite (load_live_fwd e s k m W HM x oo) by (try assumption; intros ? [= <-]; reflexivity). cbn [rbind].
  rewrite (load_slab_fwd e s Bid _ _ (ms_bids _ _ _ _ _ _ _ MS)), (load_slab_fwd e s Ask _ _ (ms_asks _ _ _ _ _ _ _ MS)), (load_evq_fwd e s m _ (ms_evq _ _ _ _ _ _ _ MS)). cbn [rbind].
  assert (EO' : mkObs (ob_bids o) (ob_asks o) m (ob_eq o) = o) by (destruct MS, o as [b1 a1 m1 q1]; cbn [ob_mkt ob_bids ob_asks ob_eq] in *; congruence).
  rewrite EO'. destruct (CJ o seq rst x oo MS C) as [([o' oo'] & E)|(er & E & Y)]; rewrite E; cbn [rbind]; [left; eauto|right; eauto].
Qed.
Lemma cancel_refused core why ms er : core_judged core why -> key_at ms 0 = Some k -> proc_cancel e s core ms = Err er ->
  about_accounts er \/ exists x oo, key_at ms 3 = Some x /\ In (x, oo) L /\ signs ms 4 (oo_owner oo) /\ why x oo er.
Proof.
  intros CJ K H. pose proof (wi_str _ _ WI) as W. destruct (seen_state e s k m A L WI SN P) as (seq & o & MS).
  pose proof (ms_bids _ _ _ _ _ _ _ MS) as HB. pose proof (ms_asks _ _ _ _ _ _ _ MS) as HA. pose proof (ms_evq _ _ _ _ _ _ _ MS) as HE.
  unfold proc_cancel in H. destruct ms as [|mkt [|ba [|aa [|oa [|sg [|eqa rest]]]]]]; try (left; injection H as <-; left; reflexivity).
  cbn [key_at nth_error option_map] in K. injection K as K. rewrite K in H.
  apply rbind_err in H. destruct H as [H|(m0 & LM & H)]; [left; exact (market_errs _ _ _ _ _ H)|]. apply load_market_ok in LM. destruct LM as [LM FE]. assert (m0 = m) by congruence. subst m0.
  apply rbind_err in H. destruct H as [H|(? & SG & H)]; [left; exact (signer_errs _ _ H)|]. apply check_ok in SG.
  apply rbind_err in H. destruct H as [H|(oo & LO & H)]; [left; exact (orders_errs _ _ _ _ _ _ _ _ H)|].
  apply rbind_err in H. destruct H as [H|(bids & LB & H)]; [left; exact (slab_errs _ _ _ _ _ H)|].
  apply rbind_err in H. destruct H as [H|(asks & LA & H)]; [left; exact (slab_errs _ _ _ _ _ H)|].
  apply rbind_err in H. destruct H as [H|(q & LQ & H)]; [left; exact (evq_errs _ _ _ _ H)|].
  unfold load_event_q in LQ. apply rbind_ok in LQ. destruct LQ as (? & KQ & LQ). apply check_ok in KQ. apply Z.eqb_eq in KQ. rewrite KQ in *.
  unfold load_slab in LB. apply rbind_ok in LB. destruct LB as (? & KB & LB). apply check_ok in KB. apply Z.eqb_eq in KB. rewrite KB in *.
  unfold load_slab in LA. apply rbind_ok in LA. destruct LA as (? & KA & LA). apply check_ok in KA. apply Z.eqb_eq in KA. rewrite KA in *.
  pose proof (proj2 (dexd_owned _ _ _ _ HE)) as YE. pose proof (proj2 (dexd_owned _ _ _ _ HB)) as YB. pose proof (proj2 (dexd_owned _ _ _ _ HA)) as YA.
  rewrite YE in LQ. injection LQ as <-. rewrite YB in LB. cbn [side_eqb check rbind] in LB. injection LB as <-. rewrite YA in LA. cbn [side_eqb check rbind] in LA. injection LA as <-.
  destruct (load_orders_ok e s m _ _ _ _ _ oo W HM LO) as [[LV|OP] OW]; [|destruct OP as (_ & _ & _ & u & c' & _ & X & _); discriminate].
  destruct (lists_take _ _ _ _ _ (ms_lists _ _ _ _ _ _ _ MS) LV) as (rst & PM & _). pose proof (cinv_perm _ _ _ _ _ PM (ms_inv _ _ _ _ _ _ _ MS)) as C.
  assert (EO' : mkObs (ob_bids o) (ob_asks o) m (ob_eq o) = o) by (destruct MS, o as [b1 a1 m1 q1]; cbn [ob_mkt ob_bids ob_asks ob_eq] in *; congruence).
  rewrite EO' in H. right. exists (mk oa), oo. split; [reflexivity|]. split; [apply (ms_lists _ _ _ _ _ _ _ MS); exact LV|].
  split; [unfold signs; cbn [nth_error]; rewrite (OW _ eq_refl); destruct sg as [w0 b0]; cbn in *; subst b0; reflexivity|].
  destruct (CJ o seq rst (mk oa) oo MS C) as [([o' oo'] & E)|(er' & E & Y)]; rewrite E in H; cbn [rbind] in H; [discriminate|]. injection H as <-. exact Y.
Qed.
Lemma v2_judged sd id : core_judged (fun o x oo => cancel_order_v2 o sd x oo id) (fun x _ => cancel_error e s m A x sd id).
Proof.
  intros o seq r x oo MS C. pose proof (cancel_v2_spec _ _ _ _ _ _ sd id C) as S. destruct (lfind id (book_of A sd)) as [l|] eqn:LF.
  - destruct (lfind_Some _ _ _ LF) as [IL KL]. destruct (Z.eqb_spec (l_owner l) x) as [OW|NO].
    + destruct S as [[S F]|(o' & S & _)]; [right|left; eauto]. exists EEventQueueFull. split; [exact S|]. split; [eauto|]. eapply no_room; [exact MS|lia].
    + right. exists EOrderNotYours. split; [exact S|]. exists l. auto.
  - right. exists EOrderNotFound. split; [exact S|]. intros l IL KL. pose proof (lfind_In _ _ l (cinv_sorted _ _ _ _ C sd) IL KL). congruence.
Qed.
Lemma find_first (f g : Z -> bool) i n : forall a, find f (filter g (zrange a n)) = Some i -> forall j, a <= j < i -> g j = true -> f j = false.
Proof.
  induction n as [|n IH]; intros a; cbn [zrange filter find]; [discriminate|]. destruct (g a) eqn:GA; cbn [find].
  - destruct (f a) eqn:FA; [intros [= <-]; lia|]. intros H j J GJ. destruct (Z.eq_dec j a) as [->|]; [assumption|]. apply (IH _ H); [lia|assumption].
  - intros H j J GJ. destruct (Z.eq_dec j a) as [->|]; [congruence|]. apply (IH _ H); [lia|assumption].
Qed.
Lemma tagged_first oo f i j : find f (tagged oo) = Some i -> 0 <= j < i -> is_free oo j = false -> cid_at oo j <> 0 -> f j = false.
Proof. intros H J1 J2 J3. assert (E : slots128 = zrange 0 128) by reflexivity. assert (E2 : tagged oo = filter (fun i => negb (is_free oo i) && negb (cid_at oo i =? 0)) slots128) by reflexivity. rewrite E2, E in H. clear E E2. refine (find_first _ _ i _ 0 H j J1 _). rewrite J2. apply Z.eqb_neq in J3. rewrite J3. reflexivity. Qed.
Lemma cid_judged cid : cid <> 0 -> core_judged (fun o x oo => cancel_by_cid_core o x oo cid) (fun x oo => cancel_cid_error e s m A x oo cid).
Proof.
  intros NZ o seq r x oo MS C. pose proof (cancel_by_cid_spec _ _ _ _ _ _ cid C NZ) as S. pose proof (ci_acct _ _ _ _ C x oo (or_introl eq_refl)) as AO.
  destruct (find (fun i => cid_at oo i =? cid) (tagged oo)) as [i|] eqn:F.
  - destruct S as [S NM]. rewrite S. pose proof (find_some _ _ F) as [F1 F2]. apply tagged_In in F1. destruct F1 as (I1 & I2 & I3).
    assert (FS : first_slot oo cid i).
    { split; [assumption|]. split; [assumption|]. split; [lia|]. intros j J1 J2 J3. 
      destruct (Z.eq_dec (cid_at oo j) 0) as [Z0|Z0]; [lia|]. pose proof (tagged_first _ _ _ _ F J1 J2 Z0) as X. cbv beta in X. lia. }
    pose proof (cancel_v2_spec _ _ _ _ _ _ (side_at oo i) (order_at oo i) C) as V. destruct (lfind (order_at oo i) (book_of A (side_at oo i))) as [l|] eqn:LF.
    + destruct (NM l eq_refl) as [OL SL]. rewrite OL, Z.eqb_refl in V. destruct (lfind_Some _ _ _ LF) as [IL KL].
      destruct V as [[V X]|(o' & V & _)]; [right|left; eauto]. exists EEventQueueFull. split; [exact V|]. split; [|eapply no_room; [exact MS|lia]].
      exists (side_at oo i), l. split; [assumption|]. split; [assumption|]. rewrite (ao_leaf_cid _ _ _ _ _ _ AO _ l IL OL), SL. lia.
    + right. exists EOrderNotFound. split; [exact V|]. exists i. split; [exact FS|]. intros l IL KL. pose proof (lfind_In _ _ l (cinv_sorted _ _ _ _ C _) IL KL). congruence.
  - right. exists EClientIdNotFound. split; [exact S|]. intros j J1 J2 J3. assert (T : In j (tagged oo)) by (apply tagged_In; repeat split; try assumption; try lia; congruence).
    pose proof (find_none _ _ F _ T) as X. cbv beta in X. lia.
Qed.
Lemma cids_judged cids : core_judged (fun o x oo => cancel_by_cids_core o x oo (filter (fun z => negb (z =? 0)) cids)) (fun x _ => cancel_cids_error e s m A x cids).
Proof.
  intros o seq r x oo MS C. assert (NZ : ~ In 0 (filter (fun z => negb (z =? 0)) cids)) by (intros X; apply filter_In in X; destruct X as [_ X]; discriminate).
  destruct (Z.leb_spec (zlen (a_evs A) + zlen (with_cid x cids (a_bids A)) + zlen (with_cid x cids (a_asks A))) (zlen (q_buf (ob_eq o)))) as [Y|Y].
  - left. eapply cancel_cids_core_ok; [exact C|exact NZ|]. rewrite !with_cid_filter. exact Y.
  - destruct (proj1 (cancel_by_cids_spec _ _ _ _ _ _ _ C NZ)) as [X|(o' & X & _)]; [right|left; eauto]. exists EEventQueueFull. split; [exact X|]. cbn [cancel_cids_error]. eapply no_room; [exact MS|lia].
Qed.
Theorem cancel_decided c sd id x oo rest : In (x, oo) L -> let r := process e c s (ICancelV2 sd id) (cancel_accounts k m x (oo_owner oo) rest) in
  (exists s', r = Ok s') \/ (exists er, r = Err er /\ cancel_error e s m A x sd id er).
Proof. intros IN. exact (cancel_judged _ _ x oo rest (v2_judged sd id) IN). Qed.
Theorem cancel_cid_decided c cid x oo rest : cid <> 0 -> In (x, oo) L -> let r := process e c s (ICancelByCid cid) (cancel_accounts k m x (oo_owner oo) rest) in
  (exists s', r = Ok s') \/ (exists er, r = Err er /\ cancel_cid_error e s m A x oo cid er).
Proof. intros NZ IN. cbn [process]. unfold proc_cancel_cid. replace (cid =? 0) with false by lia. cbn [negb check rbind]. exact (cancel_judged _ _ x oo rest (cid_judged cid NZ) IN). Qed.
Theorem cancel_cids_decided c cids x oo rest : In (x, oo) L -> let r := process e c s (ICancelByCids cids) (cancel_accounts k m x (oo_owner oo) rest) in
  (exists s', r = Ok s') \/ (exists er, r = Err er /\ cancel_cids_error e s m A x cids er).
Proof. intros IN. exact (cancel_judged _ _ x oo rest (cids_judged cids) IN). Qed.
Theorem cancel_v2_refused c sd id ms er : key_at ms 0 = Some k -> process e c s (ICancelV2 sd id) ms = Err er ->
  about_accounts er \/ exists x oo, key_at ms 3 = Some x /\ In (x, oo) L /\ signs ms 4 (oo_owner oo) /\ cancel_error e s m A x sd id er.
Proof. intros K H. exact (cancel_refused _ _ ms er (v2_judged sd id) K H). Qed.
Theorem cancel_cid_refused c cid ms er : key_at ms 0 = Some k -> process e c s (ICancelByCid cid) ms = Err er ->
  about_accounts er \/ exists x oo, key_at ms 3 = Some x /\ In (x, oo) L /\ signs ms 4 (oo_owner oo) /\ cancel_cid_error e s m A x oo cid er.
Proof.
  intros K H. cbn [process] in H. unfold proc_cancel_cid in H. apply rbind_err in H. destruct H as [H|(? & Y & H)]; [apply check_err in H; destruct H as [_ ->]; left; left; reflexivity|].
  apply check_ok in Y. assert (NZ : cid <> 0) by lia. exact (cancel_refused _ _ ms er (cid_judged cid NZ) K H).
Qed.
Theorem cancel_cids_refused c cids ms er : key_at ms 0 = Some k -> process e c s (ICancelByCids cids) ms = Err er ->
  about_accounts er \/ exists x oo, key_at ms 3 = Some x /\ In (x, oo) L /\ signs ms 4 (oo_owner oo) /\ cancel_cids_error e s m A x cids er.
Proof. intros K H. exact (cancel_refused _ _ ms er (cids_judged cids) K H). Qed.

Theorem cancels_decided c x oo rest : In (x, oo) L -> let ms := cancel_accounts k m x (oo_owner oo) rest in
  (forall sd id, let r := process e c s (ICancelV2 sd id) ms in (exists s', r = Ok s') \/ (exists er, r = Err er /\ cancel_error e s m A x sd id er)) /\
  (forall cid, cid <> 0 -> let r := process e c s (ICancelByCid cid) ms in (exists s', r = Ok s') \/ (exists er, r = Err er /\ cancel_cid_error e s m A x oo cid er)) /\
  (forall cids, let r := process e c s (ICancelByCids cids) ms in (exists s', r = Ok s') \/ (exists er, r = Err er /\ cancel_cids_error e s m A x cids er)).
Proof. intros IN ms. split; [|split]; intros; [apply cancel_decided|apply cancel_cid_decided|apply cancel_cids_decided]; assumption. Qed.
Theorem cancels_refused c ms er : key_at ms 0 = Some k ->
  let why cause := about_accounts er \/ exists x oo, key_at ms 3 = Some x /\ In (x, oo) L /\ signs ms 4 (oo_owner oo) /\ cause x oo in
  (forall sd id, process e c s (ICancelV2 sd id) ms = Err er -> why (fun x _ => cancel_error e s m A x sd id er)) /\
  (forall cid, process e c s (ICancelByCid cid) ms = Err er -> why (fun x oo => cancel_cid_error e s m A x oo cid er)) /\
  (forall cids, process e c s (ICancelByCids cids) ms = Err er -> why (fun x _ => cancel_cids_error e s m A x cids er)).
Proof. intros K why. split; [|split]; intros; [eapply cancel_v2_refused|eapply cancel_cid_refused|eapply cancel_cids_refused]; eassumption. Qed.
(** ** Closing an account *)
Lemma slots_taken oo : u128 (oo_free_bits oo) -> oo_free_bits oo <> U128_MAX -> exists j, 0 <= j < 128 /\ is_free oo j = false.
Proof.
  intros U N. destruct (existsb (fun j => negb (is_free oo j)) slots128) eqn:X.
  - apply existsb_exists in X. destruct X as (j & J1 & J2). apply slots128_In in J1. exists j. split; [assumption|]. destruct (is_free oo j); [discriminate|reflexivity].
  - exfalso. apply N. apply all_free; [exact U|]. intros i Hi. destruct (is_free oo i) eqn:F; [reflexivity|]. assert (Y : existsb (fun j => negb (is_free oo j)) slots128 = true); [|congruence].
    apply existsb_exists. exists i. split; [apply slots128_In; assumption|]. rewrite F. reflexivity.
Qed.
Theorem close_decided c x oo dest : In (x, oo) L -> dest <> x -> let r := process e c s ICloseOO [mkMeta x false; mkMeta (oo_owner oo) true; mkMeta dest false; mkMeta k false] in
  a_lamports (sget s x) + a_lamports (sget s dest) < B64 -> 0 <= a_lamports (sget s x) -> 0 <= a_lamports (sget s dest) ->
  (exists s', r = Ok s') \/ (exists er, r = Err er /\ close_error oo er).
Proof.
  intros IN ND r LB L1 L2. pose proof (wi_str _ _ WI) as W. destruct (seen_state e s k m A L WI SN P) as (seq & o & MS).
  assert (LV : live (D s) k x oo) by (apply (ms_lists _ _ _ _ _ _ _ MS); exact IN).
  destruct (lists_take _ _ _ _ _ (ms_lists _ _ _ _ _ _ _ MS) LV) as (rst & PM & _). pose proof (cinv_perm _ _ _ _ _ PM (ms_inv _ _ _ _ _ _ _ MS)) as C.
  pose proof (ci_acct _ _ _ _ C x oo (or_introl eq_refl)) as AO. pose proof (ao_wf _ _ _ _ _ _ AO) as OW.
  unfold r. cbn [process]. unfold proc_close, check_signer. cbn [mk mk_signer check rbind]. rewrite (load_market_any e s k m W HM). cbn [rbind].
  rewrite (load_live_fwd e s k m W HM x oo) by (try assumption; intros ? [= <-]; reflexivity). cbn [rbind]. unfold close_core.
  destruct (Z.eqb_spec (oo_free_bits oo) U128_MAX) as [E1|E1]; cbn [check rbind].
  2: { right. exists ETooManyOpenOrders. split; [reflexivity|]. left. apply slots_taken; [exact (w_free _ OW)|exact E1]. }
  destruct (Z.eqb_spec (oo_coin_total oo) 0) as [E2|E2]; cbn [check rbind]; [|right; exists ETooManyOpenOrders; split; [reflexivity|]; cbn [close_error]; tauto].
  destruct (Z.eqb_spec (oo_pc_total oo) 0) as [E3|E3]; cbn [check rbind]; [|right; exists ETooManyOpenOrders; split; [reflexivity|]; cbn [close_error]; tauto].
  left. replace (dest =? x) with false by lia. cbn [negb orb check rbind]. unfold cadd. replace (a_lamports (sget s dest) + a_lamports (sget s x) <? B64) with true by lia. cbn [rbind]. eauto.
Qed.

(** ** Pruning *)
Theorem prune_decided c limit x oo : has_flag (m_flags m) AF_Permissioned = true -> ~ disabled m -> In (x, oo) L -> 0 <= limit ->
  let r := process e c s (IPrune limit) [mkMeta k false; mkMeta (m_bids m) false; mkMeta (m_asks m) false; mkMeta (m_prune_auth m) true; mkMeta x false; mkMeta (oo_owner oo) false; mkMeta (m_event_q m) false] in
  (exists s', r = Ok s') \/ (exists er, r = Err er /\ prune_error e s m A x limit er).
Proof.
  intros PF NDI IN HL r. pose proof (wi_str _ _ WI) as W. destruct (seen_state e s k m A L WI SN P) as (seq & o & MS).
  assert (LV : live (D s) k x oo) by (apply (ms_lists _ _ _ _ _ _ _ MS); exact IN).
  destruct (lists_take _ _ _ _ _ (ms_lists _ _ _ _ _ _ _ MS) LV) as (rst & PM & _). pose proof (cinv_perm _ _ _ _ _ PM (ms_inv _ _ _ _ _ _ _ MS)) as C.
  destruct (prune_spec _ _ _ _ _ _ limit C HL) as (bl & al & B1 & B2 & N1 & N2 & CT & _ & S). cbv zeta in S.
  unfold r. cbn [process]. unfold proc_prune. unfold check_signer. cbn [mk mk_signer check rbind].
  assert (FE : check_market_flags (m_flags m) false = Ok tt).
  { apply flags_enabled; [exact (ws_flags _ W _ _ HM)|]. unfold disabled in NDI. destruct (Z.testbit (m_flags m) 7); [congruence|reflexivity]. }
  rewrite (load_market_fwd e s k m HM false FE). cbn [rbind]. unfold prune_authority. rewrite PF. cbn [opt_eqb]. rewrite Z.eqb_refl. cbn [check rbind].
  rewrite (load_live_fwd e s k m W HM x oo) by (try assumption; intros ? [= <-]; reflexivity). cbn [rbind].
  rewrite (load_slab_fwd e s Bid _ _ (ms_bids _ _ _ _ _ _ _ MS)), (load_slab_fwd e s Ask _ _ (ms_asks _ _ _ _ _ _ _ MS)), (load_evq_fwd e s m _ (ms_evq _ _ _ _ _ _ _ MS)). cbn [rbind].
  assert (EO' : mkObs (ob_bids o) (ob_asks o) m (ob_eq o) = o) by (destruct MS, o as [b1 a1 m1 q1]; cbn [ob_mkt ob_bids ob_asks ob_eq] in *; congruence).
  rewrite EO'. destruct S as [[S F]|(o' & S & _)]; rewrite S; cbn [rbind]; [right|left; eauto].
  exists EEventQueueFull. split; [reflexivity|]. cbn [prune_error].
  assert (X : forall bk l, NoDup (map l_key l) -> (forall y, In y l -> In y bk /\ l_owner y = x) -> zlen l <= zlen (own_orders x bk)).
  { intros bk l N I. apply NoDup_map_inv in N. unfold zlen. apply inj_le. apply NoDup_incl_length; [assumption|]. intros y Hy. destruct (I y Hy). unfold own_orders. apply filter_In. split; [assumption|lia]. }
  pose proof (X _ _ N1 B1). pose proof (X _ _ N2 B2). eapply no_room; [exact MS|lia].
Qed.
End Errors.
