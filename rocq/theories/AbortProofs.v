(** What makes an instruction abort. *)
From Coq Require Import Permutation.
From Verif Require Import Base BaseProofs Fees FeesProofs ListSum Queue QueueProofs Codec CodecProofs Critbit CritbitProofs CritbitSlab Market Matching MatchSteps MatchRefine MatchAsk MatchBid MatchRun MatchSpec Ledger LedgerSteps LedgerRun MatchReport MatchOrder MatchFacts Slots Core CoreInv CoreNew CoreCancel CoreFrame Instr InstrProofs Store Process StoreProofs World WorldInv WorldLoad WorldRun WorldStep WorldStep2 WorldInit WorldConsume WorldMain WorldSpec WorldFacts WorldCrank WorldFwd WorldCancel WorldCids WorldPay OpenSpec PlaceSpec CorePlace MatchBlame CoreBlame WorldTrade WorldPlace WorldAuth WorldRights WorldSizes ProxyAmounts TakeSpec TakeBlame ErrorSpec ErrorProofs ReplaceErrorSpec ReplaceProofs AbortSpec.

Lemma rbind_panic {A B} (a : res A) (f : A -> res B) : (x <- a ;; f x) = Panic -> a = Panic \/ exists x, a = Ok x /\ f x = Panic.
Proof. destruct a; cbn [rbind]; intros H; [right; eauto|discriminate|left; reflexivity]. Qed.
Lemma calm_bind {A B} (a : res A) (f : A -> res B) : a <> Panic -> (forall x, f x <> Panic) -> (x <- a ;; f x) <> Panic.
Proof. intros H1 H2 H. apply rbind_panic in H. destruct H as [H|(x & _ & H)]; [exact (H1 H)|exact (H2 x H)]. Qed.
Lemma calm_check b er : check b er <> Panic.
Proof. unfold check. destruct b; discriminate. Qed.
Lemma calm_ok_or {A} (o : option A) er : ok_or o er <> Panic.
Proof. unfold ok_or. destruct o; discriminate. Qed.
Ltac calm := repeat first [discriminate | apply calm_check | apply calm_ok_or | (apply calm_bind; [|intros ?]) | match goal with |- match ?d with _ => _ end <> _ => destruct d end].

Lemma market_calm e s k b : load_market e s k b <> Panic.
Proof. unfold load_market, check_market_flags. destruct (a_data (sget s k)); calm. Qed.
Lemma token_calm s k : load_token s k <> Panic.
Proof. unfold load_token. calm; destruct (a_data (sget s k)); calm. Qed.
Lemma mint_calm s k : load_mint s k <> Panic.
Proof. unfold load_mint. calm; destruct (a_data (sget s k)); calm. Qed.
Lemma discount_calm s l : load_discount s l <> Panic.
Proof. unfold load_discount. destruct l as [|d [|]]; calm; apply token_calm. Qed.
Lemma signer_calm a : check_signer a <> Panic.
Proof. apply calm_check. Qed.
Lemma tier_calm k w da : load_fee_tier k w da <> Panic.
Proof. unfold load_fee_tier. destruct da as [d|]; calm; repeat (match goal with |- context [if ?b then _ else _] => destruct b end); calm. Qed.
Lemma req_calm s m k : load_req_q s m k <> Panic.
Proof. unfold load_req_q. calm; destruct (a_data (sget s k)); calm. Qed.
Lemma evq_calm s m k : load_event_q s m k <> Panic.
Proof. unfold load_event_q. calm; destruct (a_data (sget s k)); calm. Qed.
Lemma slab_calm s sd f k : load_slab s sd f k <> Panic.
Proof. unfold load_slab. calm; destruct (a_data (sget s k)); calm. Qed.
Lemma coin_vault_calm s m k : load_coin_vault s m k <> Panic.
Proof. unfold load_coin_vault. calm; apply token_calm. Qed.
Lemma pc_vault_calm s m k : load_pc_vault s m k <> Panic.
Proof. unfold load_pc_vault. calm; apply token_calm. Qed.
Lemma coin_wallet_calm s m k : load_coin_wallet s m k <> Panic.
Proof. unfold load_coin_wallet. calm; apply token_calm. Qed.
Lemma pc_wallet_calm s m k : load_pc_wallet s m k <> Panic.
Proof. unfold load_pc_wallet. calm; apply token_calm. Qed.
Lemma spl_calm k : check_spl k <> Panic.
Proof. apply calm_check. Qed.
Lemma pda_calm e m k : check_vault_signer e m k <> Panic.
Proof. unfold check_vault_signer. calm. Qed.
Lemma send_calm s v d g a : send_from_vault s v d g a <> Panic.
Proof. unfold send_from_vault. destruct (spl_transfer s v d g true a); discriminate. Qed.
Lemma enabled_calm m b : check_market_flags (m_flags m) b = Ok tt -> check_enabled m <> Panic.
Proof. unfold check_market_flags, check_enabled. intros H. apply rbind_ok in H. destruct H as (? & H & _). apply check_ok in H. rewrite H. cbn [passert rbind]. calm. Qed.
Lemma orders_calm e s m k w c a : load_orders e s m k w c a = Panic -> misshapen e s k.
Proof.
  unfold load_orders, misshapen, dexd. intros H. apply rbind_panic in H. destruct H as [H|(? & PR & H)]; [exfalso; revert H; calm|]. apply check_ok in PR. rewrite PR.
  apply rbind_panic in H. destruct H as [H|(oo & _ & H)].
  - destruct (a_data (sget s k)); try discriminate. destruct (Z.eqb_spec (a_len (sget s k)) OO_LEN) as [|N]; [discriminate|]. split; [reflexivity|exact N].
  - exfalso. revert H. apply calm_bind; [|intros oo1; unfold oo_check_flags; calm]. destruct (oo_flags oo =? 0); [unfold oo_init|]; calm.
Qed.
Lemma transfer_calm s h src v w amt tv : token_at s v = Some tv -> transfer_in s h src v w amt <> Panic.
Proof.
  intros TV H. unfold transfer_in in H. destruct (amt =? 0); [discriminate|]. assert (TK : exists t, a_data (sget s v) = DToken t) by (unfold token_at in TV; destruct (a_prog (sget s v) =? spl_id); [|discriminate]; destruct (a_data (sget s v)); try discriminate; eauto).
  destruct TK as (t0 & TK). apply rbind_panic in H. destruct H as [H|(b0 & _ & H)]; [unfold balance in H; rewrite TK in H; discriminate|].
  apply rbind_panic in H. destruct H as [H|(? & _ & H)]; [exact (calm_check _ _ H)|].
  apply rbind_panic in H. destruct H as [H|(s1 & TR & H)].
  - unfold spl_transfer in H. revert H. calm; destruct (src =? v); calm.
  - apply rbind_panic in H. destruct H as [H|(b1 & _ & H)]; [|revert H; calm]. unfold balance in H.
    assert (T1 : exists t, a_data (sget s1 v) = DToken t).
    { unfold spl_transfer in TR. repeat (apply rbind_ok in TR; destruct TR as (? & _ & TR)). destruct (src =? v); [injection TR as <-; eauto|]. apply rbind_ok in TR. destruct TR as (? & _ & TR).
      injection TR as <-. rewrite sget_put, Z.eqb_refl. cbn [a_data set_data]. eauto. }
    destruct T1 as (t1 & T1). rewrite T1 in H. discriminate.
Qed.

Section Aborts.
Variable e : env.
Hypothesis EO : env_ok e.
Notation D := (dexd e).
Variables (s : store).
Hypothesis (WI : winv e s).
(** The market at the first place, and those anywhere, are sound ones. *)
Definition sound_first (ms : list meta) : Prop := forall k m, key_at ms 0 = Some k -> D s k = Some (DMarket m) -> exists A L, seen e s k m A L /\ usable m.
Definition sound_among (ms : list meta) : Prop := forall a m, In a ms -> D s (mk a) = Some (DMarket m) -> exists A L, seen e s (mk a) m A L /\ usable m.

(** Room for [n] more orders. *)
Definition small (m : market) (oo : open_orders) (bal n : Z) : Prop :=
  0 <= bal /\ oo_coin_total oo + oo_pc_total oo + bal + n * (m_coin_deposits m + m_pc_deposits m + bal) < B64.
Lemma order_calm c ix ms : order_ix_ok ix -> sound_first ms ->
  (forall k m A L x w oo payer t, key_at ms 0 = Some k -> seen e s k m A L -> usable m -> key_at ms 1 = Some x -> key_at ms 6 = Some payer -> account_for e s c k m L x w oo -> token_at s payer = Some t -> small m oo (t_amount t) 1) ->
  proc_new_order e c s ix ms = Panic -> exists x, key_at ms 1 = Some x /\ misshapen e s x.
Proof.
  intros IX U SM H. pose proof (wi_str _ _ WI) as W.
  unfold proc_new_order in H.
  destruct ms as [|mkt [|oa [|rqa [|eqa [|ba [|aa [|payer [|owner [|cv [|pv [|spl [|rent disc]]]]]]]]]]]]; try discriminate.
  cbn [map] in H. set (k := mk mkt) in *.
  apply rbind_panic in H. destruct H as [H|(da & HDA & H)]; [exfalso; exact (discount_calm _ _ H)|].
  apply rbind_panic in H. destruct H as [H|(m & LM & H)]; [exfalso; exact (market_calm _ _ _ _ H)|].
  apply load_market_ok in LM. destruct LM as [HM FE]. destruct (U k m eq_refl HM) as (A & L & SN & P). destruct (seen_state e s k m A L WI SN P) as (seq & o & MS).
  pose proof (ms_mkt _ _ _ _ _ _ _ MS) as EM. pose proof (ms_bids _ _ _ _ _ _ _ MS) as HB. pose proof (ms_asks _ _ _ _ _ _ _ MS) as HA. pose proof (ms_evq _ _ _ _ _ _ _ MS) as HE.
  pose proof (ms_req _ _ _ _ _ _ _ MS) as HR.
  apply rbind_panic in H. destruct H as [H|(? & SG & H)]; [exfalso; exact (signer_calm _ H)|]. apply check_ok in SG.
  apply rbind_panic in H. destruct H as [H|(t & HTI & H)]; [exfalso; exact (tier_calm _ _ _ H)|].
  apply rbind_panic in H. destruct H as [H|(rq & LR & H)]; [exfalso; exact (req_calm _ _ _ H)|].
  apply rbind_panic in H. destruct H as [H|(q & LQ & H)]; [exfalso; exact (evq_calm _ _ _ H)|].
  apply rbind_panic in H. destruct H as [H|(pt & LP & H)]; [exfalso; exact (token_calm _ _ H)|].
  apply rbind_panic in H. destruct H as [H|(? & MT & H)]; [exfalso; exact (calm_check _ _ H)|].
  apply rbind_panic in H. destruct H as [H|(tc & LC & H)]; [exfalso; exact (coin_vault_calm _ _ _ H)|].
  apply rbind_panic in H. destruct H as [H|(tv & LV & H)]; [exfalso; exact (pc_vault_calm _ _ _ H)|].
  apply rbind_panic in H. destruct H as [H|(? & _ & H)]; [exfalso; exact (enabled_calm _ _ FE H)|].
  apply rbind_panic in H. destruct H as [H|(? & _ & H)]; [exfalso; exact (spl_calm _ H)|].
  apply rbind_panic in H. destruct H as [H|(bids & LB & H)]; [exfalso; exact (slab_calm _ _ _ _ H)|].
  apply rbind_panic in H. destruct H as [H|(asks & LA & H)]; [exfalso; exact (slab_calm _ _ _ _ H)|].
  apply rbind_panic in H. destruct H as [H|(oo & LO & H)]; [exists (mk oa); split; [reflexivity|exact (orders_calm _ _ _ _ _ _ _ H)]|]. exfalso.
  unfold load_req_q in LR. apply rbind_ok in LR. destruct LR as (? & KR & LR). apply check_ok in KR. apply Z.eqb_eq in KR. rewrite KR in *.
  unfold load_event_q in LQ. apply rbind_ok in LQ. destruct LQ as (? & KQ & LQ). apply check_ok in KQ. apply Z.eqb_eq in KQ. rewrite KQ in *.
  unfold load_slab in LB. apply rbind_ok in LB. destruct LB as (? & KB & LB). apply check_ok in KB. apply Z.eqb_eq in KB. rewrite KB in *.
  unfold load_slab in LA. apply rbind_ok in LA. destruct LA as (? & KA & LA). apply check_ok in KA. apply Z.eqb_eq in KA. rewrite KA in *.
  pose proof (proj2 (dexd_owned _ _ _ _ HR)) as YR. pose proof (proj2 (dexd_owned _ _ _ _ HE)) as YE. pose proof (proj2 (dexd_owned _ _ _ _ HB)) as YB. pose proof (proj2 (dexd_owned _ _ _ _ HA)) as YA.
  rewrite YR in LR. injection LR as <-. rewrite YE in LQ. injection LQ as <-. rewrite YB in LB. cbn [side_eqb check rbind] in LB. injection LB as <-. rewrite YA in LA. cbn [side_eqb check rbind] in LA. injection LA as <-.
  unfold load_coin_vault in LC. apply rbind_ok in LC. destruct LC as (tc1 & LC & KC). apply rbind_ok in KC. destruct KC as (? & KC & E). apply check_ok in KC. apply Z.eqb_eq in KC. injection E as ->. rewrite KC in *.
  unfold load_pc_vault in LV. apply rbind_ok in LV. destruct LV as (tv1 & LV & KV). apply rbind_ok in KV. destruct KV as (? & KV & E). apply check_ok in KV. apply Z.eqb_eq in KV. injection E as ->. rewrite KV in *.
  apply load_token_ok in LC. destruct LC as (C1 & C2 & C3). apply load_token_ok in LV. destruct LV as (V1' & V2' & V3'). apply load_token_ok in LP. destruct LP as (T1 & T2 & T3).
  pose proof (account_loaded e s k m A L WI SN _ _ _ _ LO) as AF.
  destruct (load_orders_ok e s m _ _ _ _ _ oo W HM LO) as [LVO _].
  destruct (with_oo e s m _ (mk oa) (mk owner) c None oo seq L A o W MS LVO) as (rest & C & _ & _).
  assert (EO2 : o = mkObs (ob_bids o) (ob_asks o) m (ob_eq o)) by (rewrite <- EM; destruct o; reflexivity). rewrite <- EO2 in H.
  destruct (SM k m A L _ _ _ _ _ eq_refl SN P eq_refl eq_refl AF T1) as [SM1 SM2].
  pose proof (ci_acct _ _ _ _ C (mk oa) oo (or_introl eq_refl)) as AO. pose proof (ao_coin _ _ _ _ _ _ AO) as P1. pose proof (ao_pc _ _ _ _ _ _ AO) as P2.
  pose proof (ci_mkt _ _ _ _ C) as (U1 & U2 & U3). pose proof (ci_coin_dep _ _ _ _ C) as U4. rewrite EM in U1, U2, U3, U4. unfold u64 in U1, U2, U3, U4.
  apply rbind_panic in H. destruct H as [H|([[[o' rq'] oo'] dep] & HC & H)].
  - destruct (new_order_judged o seq oo (mk oa) rest A t ix (t_amount pt) (c_now c) C IX) as [(o' & oo' & HC)|(er & HC & _)]; try congruence; rewrite EM; destruct (oi_side ix); lia.
  - pose proof (oo_touch e s m _ (mk oa) _ _ _ oo W HM LVO) as (T & _ & _).
    assert (NB : m_bids m <> m_asks m) by (apply P).
    pose proof (write_obs_D e s _ m _ _ _ _ HM NB HB HA HE HR o') as W1. pose proof (write_obs_quiet e EO s _ m _ _ _ _ HM NB HB HA HE HR o') as Q1.
    set (s1 := write_obs s k (m_bids m) (m_asks m) (m_event_q m) o') in *.
    assert (W2 : forall y, D (put_data s1 (m_req_q m) (DReqQ rq')) y = overlay e s k m o' rq' None y) by (intros; eapply put_req_D; eauto).
    assert (R1 : exists d, D s1 (m_req_q m) = Some d).
    { rewrite W1. unfold overlay. repeat match goal with |- context [if ?b then _ else _] => destruct b end; eauto. }
    destruct R1 as (d1 & R1). pose proof (quiet_put e EO _ _ (DReqQ rq') _ R1) as Q2. set (s2 := put_data s1 (m_req_q m) (DReqQ rq')) in *.
    assert (R2 : exists d, D s2 (mk oa) = Some d) by (rewrite (over_touch e s _ m _ _ _ _ W HM NB HB HA HE HR s2 o' rq' (mk oa) T W2); eapply touch_some; exact T).
    destruct R2 as (d2 & R2). pose proof (quiet_put e EO _ _ (DOO oo') _ R2) as Q3. set (s3 := put_data s2 (mk oa) (DOO oo')) in *.
    pose proof (quiet_trans _ _ _ (quiet_trans _ _ _ Q1 Q2) Q3) as Q. cbv zeta in H. fold s1 in H. fold s2 in H. fold s3 in H.
    revert H. destruct (oi_side ix); eapply transfer_calm; rewrite (qu_tok _ _ Q); eassumption.
Qed.

Lemma take_calm ix ms : TakeBlame.take_ix_ok ix -> sound_first ms -> (forall k m, key_at ms 0 = Some k -> D s k = Some (DMarket m) -> may_spend (ti_side ix) (ti_qty ix) (ti_pc ix) (m_coin_lot m) < B64) -> proc_send_take e s ix ms <> Panic.
Proof.
  intros IX U SPB H. pose proof (wi_str _ _ WI) as W.
  unfold proc_send_take in H.
  destruct ms as [|mkt [|rqa [|eqa [|ba [|aa [|cw [|pw [|owner [|cv [|pv [|spl [|vs disc]]]]]]]]]]]]; try discriminate.
  cbn [map] in H. set (k := mk mkt) in *.
  apply rbind_panic in H. destruct H as [H|(da & HDA & H)]; [exact (discount_calm _ _ H)|].
  apply rbind_panic in H. destruct H as [H|(m & LM & H)]; [exact (market_calm _ _ _ _ H)|].
  apply load_market_ok in LM. destruct LM as [HM FE]. destruct (U k m eq_refl HM) as (A & L & SN & P). destruct (seen_state e s k m A L WI SN P) as (seq & o & MS).
  pose proof (ms_mkt _ _ _ _ _ _ _ MS) as EM. pose proof (ms_bids _ _ _ _ _ _ _ MS) as HB. pose proof (ms_asks _ _ _ _ _ _ _ MS) as HA. pose proof (ms_evq _ _ _ _ _ _ _ MS) as HE.
  pose proof (ms_req _ _ _ _ _ _ _ MS) as HR. pose proof (ms_inv _ _ _ _ _ _ _ MS) as C.
  apply rbind_panic in H. destruct H as [H|(? & SG & H)]; [exact (signer_calm _ H)|]. apply check_ok in SG.
  apply rbind_panic in H. destruct H as [H|(t & HTI & H)]; [exact (tier_calm _ _ _ H)|].
  apply rbind_panic in H. destruct H as [H|(rq & LR & H)]; [exact (req_calm _ _ _ H)|].
  apply rbind_panic in H. destruct H as [H|(q & LQ & H)]; [exact (evq_calm _ _ _ H)|].
  apply rbind_panic in H. destruct H as [H|(? & _ & H)]; [exact (coin_wallet_calm _ _ _ H)|].
  apply rbind_panic in H. destruct H as [H|(? & _ & H)]; [exact (pc_wallet_calm _ _ _ H)|].
  apply rbind_panic in H. destruct H as [H|(tc & LC & H)]; [exact (coin_vault_calm _ _ _ H)|].
  apply rbind_panic in H. destruct H as [H|(tv & LV & H)]; [exact (pc_vault_calm _ _ _ H)|].
  apply rbind_panic in H. destruct H as [H|(? & _ & H)]; [exact (spl_calm _ H)|].
  apply rbind_panic in H. destruct H as [H|(? & _ & H)]; [exact (pda_calm _ _ _ H)|].
  apply rbind_panic in H. destruct H as [H|(bids & LB & H)]; [exact (slab_calm _ _ _ _ H)|].
  apply rbind_panic in H. destruct H as [H|(asks & LA & H)]; [exact (slab_calm _ _ _ _ H)|].
  unfold load_req_q in LR. apply rbind_ok in LR. destruct LR as (? & KR & LR). apply check_ok in KR. apply Z.eqb_eq in KR. rewrite KR in *.
  unfold load_event_q in LQ. apply rbind_ok in LQ. destruct LQ as (? & KQ & LQ). apply check_ok in KQ. apply Z.eqb_eq in KQ. rewrite KQ in *.
  unfold load_slab in LB. apply rbind_ok in LB. destruct LB as (? & KB & LB). apply check_ok in KB. apply Z.eqb_eq in KB. rewrite KB in *.
  unfold load_slab in LA. apply rbind_ok in LA. destruct LA as (? & KA & LA). apply check_ok in KA. apply Z.eqb_eq in KA. rewrite KA in *.
  pose proof (proj2 (dexd_owned _ _ _ _ HR)) as YR. pose proof (proj2 (dexd_owned _ _ _ _ HE)) as YE. pose proof (proj2 (dexd_owned _ _ _ _ HB)) as YB. pose proof (proj2 (dexd_owned _ _ _ _ HA)) as YA.
  rewrite YR in LR. injection LR as <-. rewrite YE in LQ. injection LQ as <-. rewrite YB in LB. cbn [side_eqb check rbind] in LB. injection LB as <-. rewrite YA in LA. cbn [side_eqb check rbind] in LA. injection LA as <-.
  unfold load_coin_vault in LC. apply rbind_ok in LC. destruct LC as (tc1 & LC & KC). apply rbind_ok in KC. destruct KC as (? & KC & E). apply check_ok in KC. apply Z.eqb_eq in KC. injection E as ->. rewrite KC in *.
  unfold load_pc_vault in LV. apply rbind_ok in LV. destruct LV as (tv1 & LV & KV). apply rbind_ok in KV. destruct KV as (? & KV & E). apply check_ok in KV. apply Z.eqb_eq in KV. injection E as ->. rewrite KV in *.
  apply load_token_ok in LC. destruct LC as (C1 & C2 & C3). apply load_token_ok in LV. destruct LV as (V1' & V2' & V3').
  assert (EO2 : o = mkObs (ob_bids o) (ob_asks o) m (ob_eq o)) by (rewrite <- EM; destruct o; reflexivity). rewrite <- EO2 in H.
  pose proof (send_take_judged o seq L A t ix C IX) as J. cbv zeta in J. rewrite EM in J. specialize (J (SPB k m eq_refl HM)).
  apply rbind_panic in H. destruct H as [H|([[[o' rq'] dep] wd] & HC & H)].
  - destruct J as [(HC & _)|(o' & tr & E & _ & _ & _ & HC)]; [congruence|]. rewrite HC in H. destruct (_ <=? _); discriminate.
  - assert (NB : m_bids m <> m_asks m) by (apply P).
    pose proof (write_obs_D e s k m _ _ _ _ HM NB HB HA HE HR o') as V1. pose proof (write_obs_quiet e EO s k m _ _ _ _ HM NB HB HA HE HR o') as Q1.
    set (s1 := write_obs s k (m_bids m) (m_asks m) (m_event_q m) o') in *.
    assert (R1 : exists d, D s1 (m_req_q m) = Some d).
    { rewrite V1. unfold overlay. repeat match goal with |- context [if ?b then _ else _] => destruct b end; eauto. }
    destruct R1 as (d1 & R1). pose proof (quiet_put e EO _ _ (DReqQ rq') _ R1) as Q2. set (s2 := put_data s1 (m_req_q m) (DReqQ rq')) in *.
    pose proof (quiet_trans _ _ _ Q1 Q2) as Q. cbv zeta in H. fold s1 in H. fold s2 in H.
    destruct (ti_side ix); (apply rbind_panic in H; destruct H as [H|(s3 & _ & H)];
      [revert H; eapply transfer_calm; rewrite (qu_tok _ _ Q); eassumption|destruct (wd =? 0); [discriminate|exact (send_calm _ _ _ _ _ H)]]).
Qed.

Lemma cancel_calm core ms : (forall k m A L, seen e s k m A L -> usable m -> exists why, core_judged e s k m A L core why) -> sound_first ms -> proc_cancel e s core ms = Panic -> exists x, key_at ms 3 = Some x /\ misshapen e s x.
Proof.
  intros CJ U H. pose proof (wi_str _ _ WI) as W.
  unfold proc_cancel in H. destruct ms as [|mkt [|ba [|aa [|oa [|sg [|eqa rest]]]]]]; try discriminate.
  set (k := mk mkt) in *.
  apply rbind_panic in H. destruct H as [H|(m & LM & H)]; [exfalso; exact (market_calm _ _ _ _ H)|]. apply load_market_ok in LM. destruct LM as [HM FE]. destruct (U k m eq_refl HM) as (A & L & SN & P). destruct (seen_state e s k m A L WI SN P) as (seq & o & MS).
  pose proof (ms_bids _ _ _ _ _ _ _ MS) as HB. pose proof (ms_asks _ _ _ _ _ _ _ MS) as HA. pose proof (ms_evq _ _ _ _ _ _ _ MS) as HE.
  apply rbind_panic in H. destruct H as [H|(? & SG & H)]; [exfalso; exact (signer_calm _ H)|].
  apply rbind_panic in H. destruct H as [H|(oo & LO & H)]; [exists (mk oa); split; [reflexivity|exact (orders_calm _ _ _ _ _ _ _ H)]|]. exfalso.
  apply rbind_panic in H. destruct H as [H|(bids & LB & H)]; [exact (slab_calm _ _ _ _ H)|].
  apply rbind_panic in H. destruct H as [H|(asks & LA & H)]; [exact (slab_calm _ _ _ _ H)|].
  apply rbind_panic in H. destruct H as [H|(q & LQ & H)]; [exact (evq_calm _ _ _ H)|].
  unfold load_event_q in LQ. apply rbind_ok in LQ. destruct LQ as (? & KQ & LQ). apply check_ok in KQ. apply Z.eqb_eq in KQ. rewrite KQ in *.
  unfold load_slab in LB. apply rbind_ok in LB. destruct LB as (? & KB & LB). apply check_ok in KB. apply Z.eqb_eq in KB. rewrite KB in *.
  unfold load_slab in LA. apply rbind_ok in LA. destruct LA as (? & KA & LA). apply check_ok in KA. apply Z.eqb_eq in KA. rewrite KA in *.
  pose proof (proj2 (dexd_owned _ _ _ _ HE)) as YE. pose proof (proj2 (dexd_owned _ _ _ _ HB)) as YB. pose proof (proj2 (dexd_owned _ _ _ _ HA)) as YA.
  rewrite YE in LQ. injection LQ as <-. rewrite YB in LB. cbn [side_eqb check rbind] in LB. injection LB as <-. rewrite YA in LA. cbn [side_eqb check rbind] in LA. injection LA as <-.
  destruct (load_orders_ok e s m _ _ _ _ _ oo W HM LO) as [[LV|OP] OW]; [|destruct OP as (_ & _ & _ & u & c' & _ & X & _); discriminate].
  destruct (lists_take _ _ _ _ _ (ms_lists _ _ _ _ _ _ _ MS) LV) as (rst & PM & _). pose proof (cinv_perm _ _ _ _ _ PM (ms_inv _ _ _ _ _ _ _ MS)) as C.
  assert (EO' : mkObs (ob_bids o) (ob_asks o) m (ob_eq o) = o) by (destruct MS, o as [b1 a1 m1 q1]; cbn [ob_mkt ob_bids ob_asks ob_eq] in *; congruence).
  rewrite EO' in H. destruct (CJ k m A L SN P) as (why & CJ1). destruct (CJ1 o seq rst (mk oa) oo MS C) as [([o' oo'] & E)|(er' & E & Y)]; rewrite E in H; cbn [rbind] in H; discriminate.
Qed.
(** A loaded account, in the invariant. *)
Lemma loaded k m A L x w a oo : seen e s k m A L -> usable m -> load_orders e s m x w None a = Ok oo -> exists seq o rst, mstate (D s) k m seq L A o /\ cinv o seq ((x, oo) :: rst) A.
Proof.
  intros SN P LO. pose proof (wi_str _ _ WI) as W. pose proof (sn_mkt _ _ _ _ _ _ SN) as HM. destruct (seen_state e s k m A L WI SN P) as (seq & o & MS).
  destruct (load_orders_ok e s m _ _ _ _ _ oo W HM LO) as [[LV|OP] OW]; [|destruct OP as (_ & _ & _ & u & c' & _ & X & _); discriminate].
  destruct (lists_take _ _ _ _ _ (ms_lists _ _ _ _ _ _ _ MS) LV) as (rst & PM & _). exists seq, o, rst. split; [exact MS|]. exact (cinv_perm _ _ _ _ _ PM (ms_inv _ _ _ _ _ _ _ MS)).
Qed.
Lemma settle_calm ms : sound_first ms -> proc_settle e s ms = Panic -> exists x, key_at ms 1 = Some x /\ misshapen e s x.
Proof.
  intros U H. unfold proc_settle in H. destruct ms as [|mkt [|oa [|owner [|cv [|pv [|cw [|pw [|vs [|spl refs]]]]]]]]]; try discriminate.
  set (k := mk mkt) in *.
  apply rbind_panic in H. destruct H as [H|(? & _ & H)]; [exfalso; exact (spl_calm _ H)|].
  apply rbind_panic in H. destruct H as [H|(m & LM & H)]; [exfalso; exact (market_calm _ _ _ _ H)|]. apply load_market_ok in LM. destruct LM as [HM FE]. destruct (U k m eq_refl HM) as (A & L & SN & P).
  apply rbind_panic in H. destruct H as [H|(? & _ & H)]; [exfalso; exact (signer_calm _ H)|].
  apply rbind_panic in H. destruct H as [H|(? & _ & H)]; [exfalso; exact (coin_vault_calm _ _ _ H)|].
  apply rbind_panic in H. destruct H as [H|(? & _ & H)]; [exfalso; exact (pc_vault_calm _ _ _ H)|].
  apply rbind_panic in H. destruct H as [H|(? & _ & H)]; [exfalso; exact (coin_wallet_calm _ _ _ H)|].
  apply rbind_panic in H. destruct H as [H|(? & _ & H)]; [exfalso; exact (pc_wallet_calm _ _ _ H)|].
  apply rbind_panic in H. destruct H as [H|(rf & _ & H)]; [exfalso; revert H; destruct refs as [|r [|]]; calm; apply pc_wallet_calm|].
  apply rbind_panic in H. destruct H as [H|(? & _ & H)]; [exfalso; exact (pda_calm _ _ _ H)|].
  apply rbind_panic in H. destruct H as [H|(oo & LO & H)]; [exists (mk oa); split; [reflexivity|exact (orders_calm _ _ _ _ _ _ _ H)]|]. exfalso.
  destruct (loaded k m A L _ _ _ _ SN P LO) as (seq & o & rst & MS & C). pose proof (ci_acct _ _ _ _ C (mk oa) oo (or_introl eq_refl)) as AO. pose proof (ao_coin _ _ _ _ _ _ AO) as P1. pose proof (ao_pc _ _ _ _ _ _ AO) as P2.
  apply rbind_panic in H. destruct H as [H|([[[[m' oo'] ca] pa] rb] & _ & H)].
  - unfold settle_core, csub in H. replace (oo_coin_free oo <=? oo_coin_total oo) with true in H by lia. replace (oo_pc_free oo <=? oo_pc_total oo) with true in H by lia. cbn [rbind] in H. discriminate.
  - cbv zeta in H. apply rbind_panic in H. destruct H as [H|(s2 & _ & H)]; [exact (send_calm _ _ _ _ _ H)|]. apply rbind_panic in H. destruct H as [H|(s3 & _ & H)]; [exact (send_calm _ _ _ _ _ H)|].
    destruct rf as [r|]; [|discriminate]. destruct rb as [y|]; [exact (send_calm _ _ _ _ _ H)|discriminate].
Qed.
Lemma close_calm ms : (forall x, a_lamports (sget s x) < 2 ^ 60) -> proc_close e s ms = Panic -> exists x, key_at ms 0 = Some x /\ misshapen e s x.
Proof.
  intros LB H. unfold proc_close in H. destruct ms as [|oa [|owner [|dest [|mkt [|]]]]]; try discriminate. set (k := mk mkt) in *.
  apply rbind_panic in H. destruct H as [H|(? & _ & H)]; [exfalso; exact (signer_calm _ H)|].
  apply rbind_panic in H. destruct H as [H|(m & LM & H)]; [exfalso; exact (market_calm _ _ _ _ H)|].
  apply rbind_panic in H. destruct H as [H|(oo & LO & H)]; [exists (mk oa); split; [reflexivity|exact (orders_calm _ _ _ _ _ _ _ H)]|]. exfalso.
  apply rbind_panic in H. destruct H as [H|(oo' & _ & H)]; [revert H; unfold close_core; calm|]. cbv zeta in H. apply rbind_panic in H. destruct H as [H|(? & _ & H)]; [exact (calm_check _ _ H)|].
  apply rbind_panic in H. destruct H as [H|(sum & _ & H)]; [|discriminate]. unfold cadd in H. pose proof (LB (mk dest)). pose proof (LB (mk oa)). replace (_ <? B64) with true in H by lia. discriminate.
Qed.
Lemma prune_calm limit ms : sound_first ms -> 0 <= limit -> proc_prune e s limit ms = Panic -> exists x, key_at ms 4 = Some x /\ misshapen e s x.
Proof.
  intros U HL H. unfold proc_prune in H. destruct ms as [|mkt [|ba [|aa [|auth [|oa [|owner [|eqa [|]]]]]]]]; try discriminate. set (k := mk mkt) in *.
  apply rbind_panic in H. destruct H as [H|(? & _ & H)]; [exfalso; exact (signer_calm _ H)|].
  apply rbind_panic in H. destruct H as [H|(m & LM & H)]; [exfalso; exact (market_calm _ _ _ _ H)|]. apply load_market_ok in LM. destruct LM as [HM FE]. destruct (U k m eq_refl HM) as (A & L & SN & P).
  apply rbind_panic in H. destruct H as [H|(? & _ & H)]; [exfalso; exact (calm_check _ _ H)|].
  apply rbind_panic in H. destruct H as [H|(oo & LO & H)]; [exists (mk oa); split; [reflexivity|exact (orders_calm _ _ _ _ _ _ _ H)]|]. exfalso.
  apply rbind_panic in H. destruct H as [H|(bids & LB & H)]; [exact (slab_calm _ _ _ _ H)|].
  apply rbind_panic in H. destruct H as [H|(asks & LA & H)]; [exact (slab_calm _ _ _ _ H)|].
  apply rbind_panic in H. destruct H as [H|(q & LQ & H)]; [exact (evq_calm _ _ _ H)|].
  destruct (loaded k m A L _ _ _ _ SN P LO) as (seq & o & rst & MS & C).
  pose proof (ms_bids _ _ _ _ _ _ _ MS) as HB. pose proof (ms_asks _ _ _ _ _ _ _ MS) as HA. pose proof (ms_evq _ _ _ _ _ _ _ MS) as HE.
  unfold load_event_q in LQ. apply rbind_ok in LQ. destruct LQ as (? & KQ & LQ). apply check_ok in KQ. apply Z.eqb_eq in KQ. rewrite KQ in *.
  unfold load_slab in LB. apply rbind_ok in LB. destruct LB as (? & KB & LB). apply check_ok in KB. apply Z.eqb_eq in KB. rewrite KB in *.
  unfold load_slab in LA. apply rbind_ok in LA. destruct LA as (? & KA & LA). apply check_ok in KA. apply Z.eqb_eq in KA. rewrite KA in *.
  pose proof (proj2 (dexd_owned _ _ _ _ HE)) as YE. pose proof (proj2 (dexd_owned _ _ _ _ HB)) as YB. pose proof (proj2 (dexd_owned _ _ _ _ HA)) as YA.
  rewrite YE in LQ. injection LQ as <-. rewrite YB in LB. cbn [side_eqb check rbind] in LB. injection LB as <-. rewrite YA in LA. cbn [side_eqb check rbind] in LA. injection LA as <-.
  assert (EO' : mkObs (ob_bids o) (ob_asks o) m (ob_eq o) = o) by (destruct MS, o as [b1 a1 m1 q1]; cbn [ob_mkt ob_bids ob_asks ob_eq] in *; congruence). rewrite EO' in H.
  destruct (prune_spec _ _ _ _ _ _ limit C HL) as (bl & al & B1 & B2 & N1 & N2 & CT & _ & S). cbv zeta in S. destruct S as [[S F]|(o' & S & _)]; rewrite S in H; discriminate.
Qed.
Lemma consume_calm k m A L qa oos n : seen e s k m A L -> usable m -> no_overflow e s -> consume_with e s m qa oos n <> Panic.
Proof.
  intros SN P G H. pose proof (sn_mkt _ _ _ _ _ _ SN) as HM. unfold consume_with in H. apply rbind_panic in H. destruct H as [H|(q & LQ & H)]; [exact (evq_calm _ _ _ H)|].
  destruct (load_evq_ok e s k m (wi_str _ _ WI) HM _ _ LQ) as [_ HQ].
  assert (QF : proper m -> qfits m q) by (intros PR; eapply guard_fits; eauto).
  destruct (loop_total e EO k m oos (Z.to_nat n) P s q (mid_start e EO k m s q WI HM HQ QF)) as (s' & q' & CL). rewrite CL in H. discriminate.
Qed.
Lemma crank_calm n ms : sound_among ms -> no_overflow e s -> proc_consume e s n ms <> Panic.
Proof.
  intros U G H. unfold proc_consume in H. assert (IR : forall a, In a (rev ms) -> In a ms) by (intros a Ia; apply (proj2 (Coq.Lists.List.in_rev ms a)); exact Ia). destruct (rev ms) as [|x1 [|x2 [|qa [|mkt [|x3 r]]]]]; try discriminate.
  apply rbind_panic in H. destruct H as [H|(m & LM & H)]; [exact (market_calm _ _ _ _ H)|]. apply load_market_ok in LM. destruct LM as [HM _].
  destruct (U mkt m ltac:(apply IR; cbn [In]; tauto) HM) as (A & L & SN & P). apply rbind_panic in H. destruct H as [H|(? & _ & H)]; [exact (calm_check _ _ H)|]. exact (consume_calm _ _ _ _ _ _ _ SN P G H).
Qed.
Lemma crank_perm_calm n ms : sound_among ms -> no_overflow e s -> proc_consume_perm e s n ms <> Panic.
Proof.
  intros U G H. unfold proc_consume_perm in H. assert (IR : forall a, In a (rev ms) -> In a ms) by (intros a Ia; apply (proj2 (Coq.Lists.List.in_rev ms a)); exact Ia). destruct (rev ms) as [|x2 [|qa [|mkt [|x3 r]]]]; try discriminate.
  apply rbind_panic in H. destruct H as [H|(m & LM & H)]; [exact (market_calm _ _ _ _ H)|]. apply load_market_ok in LM. destruct LM as [HM _].
  destruct (U mkt m ltac:(apply IR; cbn [In]; tauto) HM) as (A & L & SN & P). apply rbind_panic in H. destruct H as [H|(? & _ & H)]; [exact (signer_calm _ H)|]. apply rbind_panic in H. destruct H as [H|(? & _ & H)]; [exact (calm_check _ _ H)|]. exact (consume_calm _ _ _ _ _ _ _ SN P G H).
Qed.
Lemma init_oo_calm c ms : proc_init_oo e c s ms = Panic -> exists x, key_at ms 0 = Some x /\ misshapen e s x.
Proof.
  intros H. unfold proc_init_oo in H. destruct ms as [|oa [|owner [|mkt [|rent rest]]]]; try discriminate.
  apply rbind_panic in H. destruct H as [H|(au & _ & H)]; [exfalso; revert H; destruct rest as [|r [|]]; calm|].
  apply rbind_panic in H. destruct H as [H|(? & _ & H)]; [exfalso; exact (signer_calm _ H)|].
  apply rbind_panic in H. destruct H as [H|(m & _ & H)]; [exfalso; exact (market_calm _ _ _ _ H)|].
  apply rbind_panic in H. destruct H as [H|(oo & LO & H)]; [exists (mk oa); split; [reflexivity|exact (orders_calm _ _ _ _ _ _ _ H)]|discriminate].
Qed.
Lemma disable_calm ms : proc_disable e s ms <> Panic.
Proof. unfold proc_disable. destruct ms as [|mkt [|sg [|]]]; calm; apply market_calm. Qed.
Lemma sweep_calm ms : proc_sweep e s ms <> Panic.
Proof. unfold proc_sweep. destruct ms as [|m1 [|m2 [|m3 [|m4 [|m5 [|m6 [|]]]]]]]; calm; first [discriminate|apply market_calm|apply pc_vault_calm|apply pc_wallet_calm|apply pda_calm|apply send_calm]. Qed.
Lemma each_calm (f : Z -> res unit) l : (forall x, f x <> Panic) -> each f l <> Panic.
Proof. intros F. induction l as [|x r IH]; cbn [each]; [discriminate|]. apply calm_bind; [apply F|intros _; exact IH]. Qed.
Lemma capacity_calm sl n : assert_minimum_capacity sl n <> Panic.
Proof. unfold assert_minimum_capacity. calm. Qed.
Lemma exempt_calm c k : check_exempt c s k <> Panic.
Proof. unfold check_exempt. calm. Qed.
Lemma fresh_calm k : check_fresh e s k <> Panic.
Proof. unfold check_fresh. calm. Qed.
Lemma vault_calm p v n : check_vault s p v n <> Panic.
Proof. unfold check_vault. calm; first [discriminate|apply token_calm|apply mint_calm]. Qed.
Lemma init_calm c ix ms : proc_init_market e c s ix ms <> Panic.
Proof.
  unfold proc_init_market. destruct (map mk ms) as [|a1 [|a2 [|a3 [|a4 [|a5 [|a6 [|a7 [|a8 [|a9 [|a10 au]]]]]]]]]]; try discriminate. cbv zeta.
  calm; first [discriminate|apply each_calm; intros; first [apply exempt_calm|apply fresh_calm]|apply vault_calm|apply capacity_calm].
Qed.
End Aborts.

Section Program.
Variable e : env.
Hypothesis EO : env_ok e.
Notation D := (dexd e).

Lemma order_payer c s ix ms s1 payer : proc_new_order e c s ix ms = Ok s1 -> key_at ms 6 = Some payer -> exists t, token_at s payer = Some t.
Proof.
  intros H K. unfold proc_new_order in H. destruct ms as [|mkt [|oa [|rqa [|eqa [|ba [|aa [|py [|owner [|cv [|pv [|spl [|rent disc]]]]]]]]]]]]; try discriminate.
  cbn [key_at nth_error option_map] in K. injection K as K. cbn [map] in H. rewrite K in H.
  repeat match type of H with rbind ?a _ = Ok _ => match a with load_token _ _ => fail 1 | _ => apply rbind_ok in H; destruct H as (? & _ & H) end end.
  apply rbind_ok in H. destruct H as (t & LP & _). apply load_token_ok in LP. destruct LP as (T1 & _). eauto.
Qed.
Lemma many_calm c ms k x payer w ixs : legal e ms -> key_at ms 0 = Some k -> key_at ms 1 = Some x -> key_at ms 6 = Some payer -> signs ms 7 w -> Forall order_ix_ok ixs ->
  forall s m A L oo, winv e s -> seen e s k m A L -> usable m -> In (x, oo) L -> oo_owner oo = w -> room e s (zlen ixs) ->
  (forall t, token_at s payer = Some t -> small m oo (t_amount t) (zlen ixs)) -> proc_new_orders e c s ixs ms <> Panic.
Proof.
  intros LG K0 K1 K6 SG F. induction F as [|ix r IX F IH]; intros s m A L oo WI SN P IN OW RO SM H; cbn [proc_new_orders] in H; [discriminate|].
  pose proof (proj1 (sn_oos _ _ _ _ _ _ SN x oo) IN) as LV. pose proof (zlen_nonneg r) as ZR. rewrite zlen_cons in SM. rewrite zlen_cons, Z.add_comm in RO.
  destruct (seen_state e s k m A L WI SN P) as (seq & o & MS). pose proof (ms_inv _ _ _ _ _ _ _ MS) as C. pose proof (ms_mkt _ _ _ _ _ _ _ MS) as EM.
  pose proof (ci_mkt _ _ _ _ C) as (MU1 & MU2 & MU3). pose proof (ci_coin_dep _ _ _ _ C) as MU4. rewrite EM in MU1, MU2, MU3, MU4. unfold u64 in MU1, MU2, MU3, MU4.
  apply rbind_panic in H. destruct H as [H|(s1 & H1 & H)].
  - destruct (order_calm e EO s WI c ix ms IX) as (x1 & E1 & (X & _)); [| |exact H|].
    + intros k1 m1 E1 HM1. assert (k1 = k) by congruence. subst k1. pose proof (sn_mkt _ _ _ _ _ _ SN). assert (m1 = m) by congruence. subst m1. eauto.
    + intros k1 m1 A1 L1 x1 w1 oo1 p1 t1 E0 SN1 P1 E1 E6 AF T1. assert (k1 = k) by congruence. assert (x1 = x) by congruence. assert (p1 = payer) by congruence. subst k1 x1 p1.
      assert (m1 = m) by (pose proof (sn_mkt _ _ _ _ _ _ SN); pose proof (sn_mkt _ _ _ _ _ _ SN1); congruence). subst m1.
      assert (oo1 = oo). { destruct AF as [[LO _]|(LO & _)]; [|destruct LV; congruence]. apply (sn_oos _ _ _ _ _ _ SN1) in LO. destruct LO, LV. congruence. } subst oo1.
      destruct (SM _ T1) as [S1 S2]. split; [exact S1|]. assert (0 <= zlen r * (m_coin_deposits m + m_pc_deposits m + t_amount t1)) by (apply Z.mul_nonneg_nonneg; lia). lia.
    + assert (x1 = x) by congruence. subst x1. destruct LV. congruence.
  - destruct (order_step e EO c ms k x payer w ix s s1 m A L oo (zlen r) LG K0 K1 K6 SG IX WI SN P IN OW RO ZR H1) as (t & m1 & A1 & L1 & oo1 & TF & OD & WI1 & RO1 & SN1 & P1 & IN1 & OW1 & _).
    destruct (order_payer _ _ _ _ _ _ H1 K6) as (tp & TP).
    destruct (order_amounts e s s1 k m A L ix t x payer oo m1 A1 L1 oo1 tp WI SN P IN OD SN1 IN1 TP) as (tp1 & U1 & _ & _ & U4).
    refine (IH s1 m1 A1 L1 oo1 WI1 SN1 P1 IN1 OW1 RO1 _ H). intros t2 T2. assert (t2 = tp1) by congruence. subst t2.
    pose proof (wv_amt _ _ (wi_vlt _ _ WI1) _ _ T2) as A2. unfold u64 in A2. destruct (SM _ TP) as [S1 S2]. split; [lia|].
    assert (Q : m_coin_deposits m1 + m_pc_deposits m1 + t_amount tp1 <= m_coin_deposits m + m_pc_deposits m + t_amount tp) by (destruct (oi_side ix); lia).
    assert (Q2 : oo_coin_total oo1 + oo_pc_total oo1 + t_amount tp1 <= oo_coin_total oo + oo_pc_total oo + t_amount tp + (m_coin_deposits m + m_pc_deposits m + t_amount tp)) by (destruct (oi_side ix); lia).
    pose proof (Z.mul_le_mono_nonneg_l _ _ (zlen r) ZR Q). lia.
Qed.
Lemma small_enough s k m A L x oo payer t n : winv e s -> amounts_small e s -> seen e s k m A L -> usable m -> D s x = Some (DOO oo) \/ (oo_coin_total oo = 0 /\ oo_pc_total oo = 0) -> token_at s payer = Some t -> 0 <= n <= 8 -> small m oo (t_amount t) n.
Proof.
  intros WI (M1 & M2 & _) SN P HX T HN. destruct (vault_cover e s k m WI (sn_mkt _ _ _ _ _ _ SN) P) as (tc & tv & V1 & V2 & V3 & V4). unfold pc_owed in V4.
  destruct (seen_state e s k m A L WI SN P) as (seq & o & MS). pose proof (ms_inv _ _ _ _ _ _ _ MS) as C. pose proof (ms_mkt _ _ _ _ _ _ _ MS) as EM.
  pose proof (ci_mkt _ _ _ _ C) as (MU1 & MU2 & MU3). pose proof (ci_coin_dep _ _ _ _ C) as MU4. rewrite EM in MU1, MU2, MU3, MU4. unfold u64 in MU1, MU2, MU3, MU4.
  pose proof (M1 _ _ V1). pose proof (M1 _ _ V2). pose proof (M1 _ _ T). pose proof (wv_amt _ _ (wi_vlt _ _ WI) _ _ T) as A2. unfold u64 in A2.
  assert (oo_coin_total oo < 2 ^ 59 /\ oo_pc_total oo < 2 ^ 59) as [O1 O2] by (destruct HX as [HX|[-> ->]]; [exact (M2 _ _ HX)|lia]).
  split; [lia|]. assert (n * (m_coin_deposits m + m_pc_deposits m + t_amount t) <= 8 * (m_coin_deposits m + m_pc_deposits m + t_amount t)) by (apply Z.mul_le_mono_nonneg_r; lia). lia.
Qed.
Lemma nths_short (ms : list meta) : nths ms [0; 4; 5; 1; 7; 3]%nat = None -> (length ms < 8)%nat.
Proof. intros H. do 8 (destruct ms as [|? ms]; [cbn [length]; lia|]). discriminate. Qed.
Lemma cids_calm s cids ms : winv e s -> sound_first e s ms -> proc_cancel_cids e s cids ms = Panic -> exists x, key_at ms 3 = Some x /\ misshapen e s x.
Proof.
  intros WI U H. unfold proc_cancel_cids in H. refine (cancel_calm e s WI _ ms _ U H). intros k m A L SN P. eexists. eapply cids_judged; eassumption.
Qed.
Lemma replace_calm s c ixs ms : winv e s -> no_overflow e s -> amounts_small e s -> legal e ms -> sound_first e s ms -> Forall order_ix_ok ixs -> (length ixs <= 8)%nat ->
  proc_replace e c s ixs ms = Panic -> (length ms < 8)%nat \/ exists x, key_at ms 1 = Some x /\ misshapen e s x.
Proof.
  intros WI G MO LG U F LN H. unfold proc_replace in H. destruct (nths ms _) as [cms|] eqn:EN; [|left; apply nths_short; exact EN]. right. cbn [unwrap rbind] in H.
  pose proof (nths_spec _ _ _ EN) as NS. assert (KE : key_at cms 0 = key_at ms 0) by (unfold key_at; rewrite NS; reflexivity).
  assert (U1 : sound_first e s cms) by (intros k m; rewrite KE; apply U).
  apply rbind_panic in H. destruct H as [H|(s1 & H1 & H)].
  - destruct (cids_calm s _ cms WI U1 H) as (x & K3 & MI). exists x. split; [|exact MI]. unfold key_at in *. rewrite NS in K3. exact K3.
  - exfalso. rewrite firstn_all2 in H1 by (rewrite map_length; lia).
    assert (KM : exists k m, key_at ms 0 = Some k /\ D s k = Some (DMarket m)).
    { rewrite <- KE. unfold proc_cancel_cids, proc_cancel in H1. destruct cms as [|mkt [|ba [|aa [|oa [|sg [|eqa rest]]]]]]; try discriminate. apply rbind_ok in H1. destruct H1 as (m & LM & _). apply load_market_ok in LM. destruct LM as [LM _]. exists (mk mkt), m. auto. }
    destruct KM as (k & m & K & HM). destruct (U k m K HM) as (A & L & SN & P). rewrite K in KE.
    destruct (cancel_cids_effect e EO s k m A L WI SN P c (map oi_cid ixs) cms s1 H1 KE) as (x & oo & K3 & IN & SG & CE).
    assert (KX : key_at ms 1 = Some x) by (unfold key_at in *; rewrite NS in K3; exact K3). assert (SX : signs ms 7 (oo_owner oo)) by (unfold signs in *; rewrite NS in SG; exact SG).
    assert (KP : exists payer, key_at ms 6 = Some payer).
    { unfold key_at. destruct (nth_error ms 6) as [a|] eqn:E6; [cbn; eauto|]. apply nth_error_None in E6. unfold signs in SX. assert (nth_error ms 7 <> None) as N7 by congruence. apply nth_error_Some in N7. lia. }
    destruct KP as (payer & KP).
    pose proof CE as (A1 & oo1 & WD & SN1 & ON). destruct (cids_one e EO s _ _ s1 WI H1) as [WI1 RO1]. pose proof (wd_slots _ _ _ _ _ _ _ _ WD) as (S1 & S2 & S3 & _). pose proof (wd_bal _ _ _ _ _ _ _ _ WD) as (_ & CT & _ & PT & _).
    assert (IN1 : In (x, oo1) (put_acct L x oo1)) by (unfold put_acct; apply in_map_iff; exists (x, oo); cbn [fst]; rewrite Z.eqb_refl; auto).
    assert (TE : forall v t, token_at s1 v = Some t -> token_at s v = Some t).
    { intros v t TV. assert (X : sget s1 v = sget s v); [|unfold token_at in *; rewrite X in TV; exact TV]. apply ON. cbn [In]. pose proof (proj1 (proj1 (sn_oos _ _ _ _ _ _ SN1 x oo1) IN1)) as HX.
      destruct (seen_state e s1 k m A1 _ WI1 SN1 P) as (seq & o & MS). pose proof (ms_bids _ _ _ _ _ _ _ MS) as HB. pose proof (ms_asks _ _ _ _ _ _ _ MS) as HA. pose proof (ms_evq _ _ _ _ _ _ _ MS) as HE.
      apply dexd_owned in HB, HA, HE, HX. unfold token_at in TV. destruct (a_prog (sget s1 v) =? spl_id); [|discriminate TV].
      intros [<-|[<-|[<-|[<-|[]]]]]; [rewrite (proj2 HB) in TV|rewrite (proj2 HA) in TV|rewrite (proj2 HE) in TV|rewrite (proj2 HX) in TV]; discriminate TV. }
    refine (many_calm c ms k x payer (oo_owner oo) ixs LG K KX KP SX F s1 m A1 _ oo1 WI1 SN1 P IN1 S3 (RO1 _ (guard_room e s (zlen ixs) G ltac:(unfold zlen; lia))) _ H).
    intros t T1. pose proof (small_enough s k m A L x oo payer t (zlen ixs) WI MO SN P (or_introl (proj1 (proj1 (sn_oos _ _ _ _ _ _ SN x oo) IN))) (TE _ _ T1) ltac:(unfold zlen; lia)) as [Q1 Q2].
    split; [exact Q1|]. rewrite CT, PT, !Z.add_0_r. exact Q2.
Qed.

Lemma take_reason s ix ms : winv e s -> TakeBlame.take_ix_ok ix -> sound_first e s ms -> proc_send_take e s ix ms = Panic ->
  exists k m, key_at ms 0 = Some k /\ D s k = Some (DMarket m) /\ B64 <= may_spend (ti_side ix) (ti_qty ix) (ti_pc ix) (m_coin_lot m).
Proof.
  intros WI IX UF H. destruct ms as [|a r]; [unfold proc_send_take in H; discriminate H|].
  assert (N : (exists m, D s (mk a) = Some (DMarket m)) \/ forall m, D s (mk a) <> Some (DMarket m)).
  { destruct (D s (mk a)) as [d|]; [|right; intros m0; discriminate]. destruct d; first [left; eexists; reflexivity|right; intros m0; discriminate]. }
  destruct N as [(m & EM)|N].
  - destruct (Z_lt_ge_dec (may_spend (ti_side ix) (ti_qty ix) (ti_pc ix) (m_coin_lot m)) B64) as [LT|GE]; [|exists (mk a), m; split; [reflexivity|split; [exact EM|lia]]].
    exfalso. apply (take_calm e EO s WI ix (a :: r) IX UF); [|exact H]. intros k m1 K HM. injection K as <-. assert (m1 = m) by congruence. subst m1. exact LT.
  - exfalso. apply (take_calm e EO s WI ix (a :: r) IX UF); [|exact H]. intros k m1 K HM. injection K as <-. exfalso. exact (N _ HM).
Qed.
Theorem aborts s c i ms : winv e s -> no_overflow e s -> amounts_small e s -> legal e ms -> sound_among e s ms -> wf_instr i -> process e c s i ms = Panic -> abort_reason e s i ms.
Proof.
  intros WI G MO LG U WF H.
  assert (UF : sound_first e s ms) by (intros k m K HM; unfold key_at in K; destruct ms as [|a r]; [discriminate|]; injection K as <-; exact (U a m (or_introl eq_refl) HM)).
  assert (MS : forall n, (exists x, key_at ms n = Some x /\ misshapen e s x) -> orders_place i = Some n -> abort_reason e s i ms) by (intros n (x & K & MI) PL; right; right; left; exists n, x; auto).
  assert (RP : forall ixs, replaces i ixs -> (length ms < 8)%nat -> abort_reason e s i ms) by (intros ixs R LN; right; left; split; [exists ixs; exact R|exact LN]).
  destruct i; cbn [process] in H.
  - exfalso. exact (init_calm _ _ _ _ _ H).
  - left. exact I.
  - discriminate.
  - exfalso. exact (crank_calm e EO s WI _ _ U G H).
  - left. exact I.
  - exact (MS _ (settle_calm e s WI _ UF H) eq_refl).
  - left. exact I.
  - exfalso. exact (disable_calm _ _ _ H).
  - exfalso. exact (sweep_calm _ _ _ H).
  - left. exact I.
  - refine (MS _ (order_calm e EO s WI c _ _ (wf_order _ WF) UF _ H) eq_refl).
    intros k m A L x w oo payer t _ SN P _ _ AF T. eapply small_enough; try eassumption; [|lia]. destruct AF as [[IN _]|(_ & _ & _ & _ & BF)]; [left; exact (proj1 (proj1 (sn_oos _ _ _ _ _ _ SN x oo) IN))|right].
    destruct BF as (_ & _ & _ & _ & B1 & _ & B2 & _). auto.
  - refine (MS _ (cancel_calm e s WI _ _ _ UF H) eq_refl). intros k m A L SN P. eexists. eapply v2_judged; eassumption.
  - unfold proc_cancel_cid in H. apply rbind_panic in H. destruct H as [H|(? & NZ & H)]; [exfalso; exact (calm_check _ _ H)|]. apply check_ok in NZ.
    refine (MS _ (cancel_calm e s WI _ _ _ UF H) eq_refl). intros k m A L SN P. eexists. eapply cid_judged; try eassumption; lia.
  - destruct (wf_take_ok _ WF) as [T1 T2 T3 T4 T5 T6]. right. right. right.
    destruct (take_reason s ix ms WI ltac:(split; [exact T1|split; [exact T2|split; [exact T3|exact T6]]]) UF H) as (k & m & K & HM & GE). exists ix, k, m. unfold may_spend in GE. split; [reflexivity|]. split; [exact K|]. split; [exact HM|]. destruct (ti_side ix); [lia|]. split; [reflexivity|exact GE].
  - exact (MS _ (close_calm e s _ (proj2 (proj2 MO)) H) eq_refl).
  - exact (MS _ (init_oo_calm _ _ _ _ H) eq_refl).
  - exact (MS _ (prune_calm e s WI _ _ UF (proj1 WF) H) eq_refl).
  - exfalso. exact (crank_perm_calm e EO s WI _ _ U G H).
  - exact (MS _ (cids_calm s _ _ WI UF H) eq_refl).
  - destruct (replace_calm s c _ ms WI G MO LG UF (Forall_cons _ (wf_order _ WF) (Forall_nil _)) ltac:(cbn; lia) H) as [X|X]; [|exact (MS _ X eq_refl)]. refine (RP _ _ X). right. eauto.
  - destruct WF as [LN WF]. assert (F : Forall order_ix_ok ixs) by (eapply Forall_impl; [|exact WF]; intros; apply wf_order; assumption).
    destruct (replace_calm s c _ ms WI G MO LG UF F LN H) as [X|X]; [|exact (MS _ X eq_refl)]. refine (RP _ _ X). left. reflexivity.
Qed.
Theorem only_reasons s c b ms : history e s -> no_overflow e s -> amounts_small e s -> is_bytes b -> legal e ms -> (forall a m, In a ms -> D s (mk a) = Some (DMarket m) -> usable m) ->
  process_bytes e c s b ms = Panic -> exists i, unpack b = Some i /\ abort_reason e s i ms.
Proof.
  intros HI G MO HB LG U H. unfold process_bytes in H. destruct (unpack b) as [i|] eqn:UB; cbn [ok_or rbind] in H; [|discriminate]. exists i. split; [reflexivity|].
  destruct (unpack_pack _ _ HB UB) as [WF _]. eapply aborts; try eassumption; [apply reachable_inv; assumption|]. intros a m IA HM. pose proof (U a m IA HM) as P. destruct (market_seen e EO s _ _ HI HM P) as (A & L & SN). eauto.
Qed.
End Program.

Theorem removed_aborts e c s i ms : removed i -> process e c s i ms = Panic.
Proof. destruct i; intros []; reflexivity. Qed.
Theorem short_aborts e c s i ixs ms : replaces i ixs -> (length ms < 8)%nat -> process e c s i ms = Panic.
Proof.
  intros R LN. rewrite (replaces_many e c s i ixs ms R). cbn [process]. unfold proc_replace. do 8 (destruct ms as [|? ms]; [reflexivity|]). cbn [length] in LN. lia.
Qed.
