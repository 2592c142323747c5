(** The books of the exchange (C71). *)
From Coq Require Import Permutation.
From Verif Require Import Base BaseProofs Fees ListSum Queue QueueProofs Codec CodecProofs Critbit CritbitProofs CritbitSlab Market Matching MatchSteps MatchSpec MatchFacts MatchReport MatchRefine MatchAsk MatchBid MatchRun Ledger LedgerSums LedgerSteps Slots
  Core CoreInv CoreNew CoreOrder CoreCancel CoreConsume CoreSettle CoreFrame Instr InstrProofs Store Process StoreProofs World WorldInv WorldLoad WorldRun WorldStep WorldStep2 WorldConsume WorldInit WorldMain WorldSpec WorldFacts
  WorldRange WorldCancel WorldPay WorldTrade WorldCrank WorldOpen WorldAuth WorldRights WorldSizes WorldIsolate WorldSupply LifeSpec LifeProofs LifeSteps LifeMain AbsentSpec AbsentProofs StatementSpec StatementProofs IncomeSpec.

(** ** All the events of an incoming order *)
Section Incoming.
Variables (cl pl : Z) (k : taker).
Definition swap_coin (x : round) : Z := if tk_silent k then match tk_side k with Bid => - (tr_coin k x * cl) | Ask => tr_coin k x * cl end else 0.
Definition swap_pc (x : round) : Z := if tk_silent k then match tk_side k with Bid => tr_value pl k x | Ask => - tr_value pl k x end else - tr_fee pl k x.
Lemma round_all x g : reported cl pl k x g -> zsum coin_trade g = swap_coin x /\ zsum pc_trade g = swap_pc x.
Proof.
  destruct x as [b t]. unfold reported, swap_coin, swap_pc, tr_coin, tr_value, tr_fee. destruct (self k (b, t)).
  - intros (u & s & ->). cbn [zsum maker_out taker_out coin_trade pc_trade]. destruct (tk_silent k), (tk_side k); cbn [coin_trade pc_trade]; lia.
  - intros (ft & rest & -> & R).
    assert (Z0 : zsum coin_trade rest = 0 /\ zsum pc_trade rest = 0) by (destruct R as [->|(u & ->)]; cbn; auto). destruct Z0 as [z1 z2].
    cbn [zsum]. rewrite !zsum_app. assert (M : zsum coin_trade (if t =? l_qty b then [maker_out (other (tk_side k)) 0 0 b] else []) = 0 /\ zsum pc_trade (if t =? l_qty b then [maker_out (other (tk_side k)) 0 0 b] else []) = 0) by (destruct (t =? l_qty b); cbn; auto). destruct M as [-> ->].
    destruct (tk_silent k); cbn [zsum]; rewrite ?z1, ?z2; unfold maker_fill, taker_fill; destruct (tk_side k); cbn [coin_trade pc_trade snd]; lia.
Qed.
Lemma rounds_all tr gs : Forall2 (reported cl pl k) tr gs -> zsum coin_trade (concat gs) = zsum swap_coin tr /\ zsum pc_trade (concat gs) = zsum swap_pc tr.
Proof. induction 1 as [|x g tr gs R F [I1 I2]]; [cbn; auto|]. destruct (round_all x g R). cbn [concat zsum]. rewrite !zsum_app. lia. Qed.
Lemma swap_sums tr :
  zsum swap_coin tr = (if tk_silent k then match tk_side k with Bid => - (zsum (tr_coin k) tr * cl) | Ask => zsum (tr_coin k) tr * cl end else 0) /\
  zsum swap_pc tr = (if tk_silent k then match tk_side k with Bid => zsum (tr_value pl k) tr | Ask => - zsum (tr_value pl k) tr end else - zsum (tr_fee pl k) tr).
Proof. induction tr as [|x tr [I1 I2]]; [cbn [zsum]; destruct (tk_silent k), (tk_side k); lia|]. cbn [zsum]. rewrite I1, I2. unfold swap_coin, swap_pc. destruct (tk_silent k), (tk_side k); lia. Qed.
End Incoming.
Lemma fees_nonneg pl k tr : 0 <= zsum (tr_fee pl k) tr.
Proof. induction tr as [|x tr IH]; cbn [zsum]; [lia|]. unfold tr_fee at 1. destruct (self k x); [lia|]. match goal with |- 0 <= taker_fee ?a ?b + _ => pose proof (taker_fee_nonneg a b) end. lia. Qed.
Lemma nofill_all E : (forall v, In v E -> is_fill v = false) -> zsum coin_trade E = 0 /\ zsum pc_trade E = 0.
Proof.
  intros N. induction E as [|v E IH]; [cbn; auto|]. destruct (IH (fun w I => N w (or_intror I))) as (I1 & I2). specialize (N v (or_introl eq_refl)). cbn [zsum]. rewrite I1, I2. destruct v; [discriminate|]. cbn. auto.
Qed.

Section Main.
Variable e : env.
Hypothesis EO : env_ok e.
Notation D := (dexd e).
Notation acct := (Z * open_orders)%type.
Definition pot (m : market) : Z := m_pc_fees m + m_rebates m.

Lemma orders_income s s' k m A L ix t x payer oo : seen e s k m A L -> orders e s s' k m A L ix t x payer oo -> exists m' A' L' E,
  seen e s' k m' A' L' /\ a_evs A' = a_evs A ++ E /\ zsum coin_trade E = 0 /\ pot m' = pot m - zsum pc_trade E /\ zsum pc_trade E <= 0.
Proof.
  intros SN (m' & A' & L' & oo' & tr & q' & n & E & slot & id & dep & OD).
  assert (SL : exists sl, D s (match oi_side ix with Bid => m_bids m | Ask => m_asks m end) = Some (DSlab (oi_side ix) sl)) by (destruct (sn_bids _ _ _ _ _ _ SN) as (sb & HB & _), (sn_asks _ _ _ _ _ _ SN) as (sa & HA & _); destruct (oi_side ix); eauto). destruct SL as (sl & SL).
  cbv zeta in OD. destruct OD as (_ & _ & SN' & LL & EV & RP & _ & _ & _ & _ & MM).
  specialize (RP sl SL). destruct RP as [_ _ _ (gs & Eend & EE & RE & FI) _]. set (tk := mkTaker (oi_side ix) id x slot t (oi_cid ix) (oi_st ix) false) in *.
  destruct (rounds_all _ _ _ _ _ RE) as [r1 r2]. destruct (swap_sums (m_coin_lot m) (m_pc_lot m) tk tr) as [g1 g2]. cbn [tk tk_silent] in g1, g2.
  assert (NF : forall v, In v Eend -> is_fill v = false) by (eapply (LifeProofs.finish_nofill m tk); exact FI). destruct (nofill_all Eend NF) as (f1 & f2).
  exists m', A', L', E. split; [exact SN'|]. split; [exact EV|]. rewrite EE, !zsum_app. split; [lia|].
  assert (PM : pot m' = pot m + zsum (tr_fee (m_pc_lot m) tk) tr) by (destruct (oi_side ix); destruct MM as (_ & _ & _ & _ & ->); unfold pot; cbn [m_pc_fees m_rebates set_counters]; fold tk; lia). pose proof (fees_nonneg (m_pc_lot m) tk tr). lia.
Qed.
Lemma placing_income k x payer w dc s ixs s' : placing e k x payer w dc s ixs s' -> forall m A L, seen e s k m A L -> exists m' A' L' E,
  seen e s' k m' A' L' /\ a_evs A' = a_evs A ++ E /\ zsum coin_trade E = 0 /\ pot m' = pot m - zsum pc_trade E /\ zsum pc_trade E <= 0.
Proof.
  induction 1 as [s|s s1 s2 m0 A0 L0 oo0 t ix r S0 I0 O0 T OD PL IH]; intros m A L SN.
  - exists m, A, L, []. split; [exact SN|]. split; [rewrite app_nil_r; reflexivity|]. cbn [zsum]. lia.
  - destruct (seen_same e _ _ _ _ _ _ _ _ SN S0) as (-> & EB & EE).
    destruct (orders_income _ _ _ _ _ _ _ _ _ _ _ S0 OD) as (m1 & A1 & L1 & E1 & SN1 & EV1 & c1 & c2 & c3).
    destruct (IH m1 A1 L1 SN1) as (m2 & A2 & L2 & E2 & SN2 & EV2 & d1 & d2 & d3).
    exists m2, A2, L2, (E1 ++ E2). split; [exact SN2|]. split; [rewrite EV2, EV1, EE, app_assoc; reflexivity|]. rewrite !zsum_app. lia.
Qed.
(** What the vault gains by payments of which only the given end is a vault. *)
Lemma gained s s' ps v : moves s s' ps -> token_at s v <> None -> gain s s' v = zsum (got v) ps.
Proof. intros M T. specialize (M v). unfold gain, balance. destruct (token_at s v) as [t|]; [|contradiction]. destruct M as (t' & -> & _ & _ & _ & ->). lia. Qed.
Lemma got_other v a b x : v <> a -> v <> b -> got v (a, b, x) = 0.
Proof. intros. cbn [got]. destruct (Z.eqb_spec v a), (Z.eqb_spec v b); try congruence. reflexivity. Qed.
Lemma got_in v a x : v <> a -> got v (a, v, x) = x.
Proof. intros. cbn [got]. rewrite Z.eqb_refl. destruct (Z.eqb_spec v a); [congruence|]. lia. Qed.
Lemma got_out v a x : v <> a -> got v (v, a, x) = - x.
Proof. intros. cbn [got]. rewrite Z.eqb_refl. destruct (Z.eqb_spec v a); [congruence|]. lia. Qed.

Section Step.
Variables (s s' : store) (c : clock) (i : instr) (ms : list meta) (k : Z) (m : market) (A : astate) (L : list acct).
Hypothesis (HI : history e s) (G : no_overflow e s) (SZ : sized s) (LG : legal e ms) (WF : wf_instr i) (H : process e c s i ms = Ok s').
Hypothesis (SN : seen e s k m A L) (P : usable m) (NV : m_coin_vault m <> m_pc_vault m) (PO : pays_others e k s i ms).
Let WI : winv e s := reachable_inv e EO s HI.
Let W : wstruct (D s) := wi_str _ _ WI.
Let HM : D s k = Some (DMarket m) := sn_mkt _ _ _ _ _ _ SN.
Variables (m' : market) (A' : astate) (L' : list acct) (E : list event_view).
Hypothesis (SN' : seen e s' k m' A' L') (SC : same_config m m') (QE : queued e k s s' E).
Let HM' : D s' k = Some (DMarket m') := sn_mkt _ _ _ _ _ _ SN'.
Definition tallies : Prop :=
  let a := line e k s s' i ms in coin_swap a = zsum coin_trade E /\ pot m' + swept a + referred a = pot m + pc_swap a - zsum pc_trade E /\ zsum pc_trade E <= pc_swap a.
Lemma no_event : D s' (m_event_q m) = D s (m_event_q m) -> E = [].
Proof.
  intros DQ. destruct (sn_evs _ _ _ _ _ _ SN) as (q1 & Q1 & Q2). destruct (sn_evs _ _ _ _ _ _ SN') as (q2 & Q3 & Q4). assert (EQ : m_event_q m' = m_event_q m) by (destruct SC as (? & ? & ? & ? & ? & ->); reflexivity). rewrite EQ in Q3. assert (q2 = q1) by congruence. subst q2.
  assert (EE : a_evs A' = a_evs A) by (eapply views_fun; eassumption). eapply (queued_fun e); [exact QE|]. apply (queued_iff e _ _ _ _ _ _ _ _ _ _ SN SN'). exists [], (a_evs A). rewrite app_nil_r. auto.
Qed.
Lemma such_events A2 L2 m2 E2 : seen e s' k m2 A2 L2 -> a_evs A2 = a_evs A ++ E2 -> m2 = m' /\ E = E2.
Proof.
  intros S2 EV. destruct (seen_same e _ _ _ _ _ _ _ _ S2 SN') as (EM & _ & EE). split; [auto|]. eapply (queued_fun e); [exact QE|]. apply (queued_iff e _ _ _ _ _ _ _ _ _ _ SN SN'). exists [], (a_evs A). split; [reflexivity|]. split; [congruence|auto].
Qed.
Lemma nothing_new : line e k s s' i ms = no_dealing -> pot m' = pot m -> E = [] -> tallies.
Proof. intros EN EP EE. unfold tallies. rewrite EN, EE, EP. cbn [coin_swap pc_swap swept referred no_dealing zsum]. lia. Qed.
Lemma no_market_line : key_at ms 0 <> Some k -> line e k s s' i ms = no_dealing.
Proof. intros N. unfold line. destruct (key_at ms 0) as [k'|]; [|reflexivity]. rewrite HM. destruct (Z.eqb_spec k' k); [congruence|reflexivity]. Qed.
Lemma no_cash : payees i = [] -> line e k s s' i ms = no_dealing.
Proof. intros N. unfold line. destruct (key_at ms 0) as [k'|]; [|reflexivity]. rewrite HM. destruct (k' =? k); [|reflexivity]. destruct i; try discriminate; reflexivity. Qed.
Lemma other_market k0 m0 m1 xo : line e k s s' i ms = no_dealing -> deed e s s' k0 m0 m1 xo -> (forall a o, xo = Some (a, o) -> D s a = Some DZero \/ exists oo, D s a = Some (DOO oo)) -> k0 <> k -> tallies.
Proof.
  intros EN DE XO NK. pose proof (de_mkt _ _ _ _ _ _ _ DE) as HM0. destruct (sn_evs _ _ _ _ _ _ SN) as (qq & HQ & _).
  destruct (apart _ _ _ _ _ W HM0 HM (fun X => NK (eq_sym X)) (m_event_q m) ltac:(auto)) as (n1 & n2 & n3 & n4 & n5).
  apply nothing_new; [exact EN| |apply no_event; eapply de_else; [exact DE|try assumption..]; intros a o EX EY; destruct (XO a o EX) as [DX|(oo & DX)]; congruence].
  assert (X : D s' k = D s k) by (eapply de_mkts; [exact DE|congruence|eauto]). assert (EM : m' = m) by congruence. rewrite EM. reflexivity.
Qed.
Lemma same_market d : (forall y, y <> k -> D s' y = D s y \/ exists x o, y = x /\ D s' x = Some (DOO o)) -> D s' k = Some (DMarket d) -> pot d = pot m -> line e k s s' i ms = no_dealing -> tallies.
Proof.
  intros F HD ED EN. apply nothing_new; [exact EN|assert (m' = d) by congruence; subst; exact ED|]. destruct (sn_evs _ _ _ _ _ _ SN) as (qq & HQ & _). destruct (sn_evs _ _ _ _ _ _ SN') as (q2 & HQ2 & _).
  assert (EQ : m_event_q m' = m_event_q m) by (destruct SC as (? & ? & ? & ? & ? & ->); reflexivity). rewrite EQ in HQ2. destruct (F (m_event_q m)) as [X|(x & o & <- & X)]; [congruence|apply no_event; exact X|congruence].
Qed.
Lemma vaults_there : token_at s (m_coin_vault m) <> None /\ token_at s (m_pc_vault m) <> None.
Proof. exact (vaulted_now e EO s k m A L HI SN). Qed.
Lemma tally_order ix : i = INewOrderV3 ix -> tallies.
Proof.
  intros EI. pose proof H as HJ. rewrite EI in HJ. pose proof WF as WJ. rewrite EI in WJ. pose proof HJ as HP. cbn [process] in HJ.
  destruct (order_deed e EO _ _ _ _ _ W HJ) as (k0 & x0 & w & m0 & m1 & oo & oo' & K0 & K1 & SG & _ & _ & DE & LO & _). destruct (Z.eq_dec k0 k) as [EK|NK].
  - subst k0. destruct (order_effect e EO s k m A L WI SN P (guard_room e s 1 G ltac:(lia)) c ix ms s' HP K0 (wf_order _ WJ)) as (x1 & w1 & t & payer & oo1 & _ & _ & _ & _ & _ & _ & OD).
    destruct (orders_income _ _ _ _ _ _ _ _ _ _ _ SN OD) as (m2 & A2 & L2 & E2 & SN2 & EV2 & c1 & c2 & c3). destruct (such_events _ _ _ _ SN2 EV2) as [-> EE].
    unfold tallies. rewrite no_cash by (rewrite EI; reflexivity). rewrite EE. cbn [coin_swap pc_swap swept referred no_dealing]. lia.
  - eapply other_market; [apply no_cash; rewrite EI; reflexivity|exact DE| |exact NK]. intros a o [= <- <-]. destruct LO as [(L1 & _)|(L1 & _)]; eauto.
Qed.
Lemma tally_replace ixs : process e c s (IReplaceMany ixs) ms = Ok s' -> Forall order_ix_ok ixs -> (length ixs <= 8)%nat -> payees i = [] -> tallies.
Proof.
  intros HR FO LN EP. destruct (replace_deed e EO s c ixs ms s' W HR) as (k0 & x0 & w & m0 & m1 & oo & oo' & K0 & K1 & SG & _ & _ & DE & LO & _). destruct (Z.eq_dec k0 k) as [EK|NK].
  - subst k0. destruct (replace_effect e EO s k m A L WI G SN P c ixs ms s' LG FO LN HR K0) as (x1 & o1 & payer & s1 & K1' & IX & _ & _ & CC & PL).
    destruct (cancels_sums e EO _ _ _ _ _ _ _ _ _ _ SN IX CC) as (A2 & L2 & oo2 & E2 & SN2 & _ & EV2 & _ & _ & _ & NF & _).
    destruct (placing_income _ _ _ _ _ _ _ _ PL m A2 L2 SN2) as (m3 & A3 & L3 & E3 & SN3 & EV3 & c1 & c2 & c3).
    assert (EV : a_evs A3 = a_evs A ++ (E2 ++ E3)) by (rewrite EV3, EV2, app_assoc; reflexivity).
    destruct (such_events _ _ _ _ SN3 EV) as [-> EE]. destruct (nofill_all E2 NF) as (f1 & f2).
    unfold tallies. rewrite no_cash by exact EP. rewrite EE, !zsum_app. cbn [coin_swap pc_swap swept referred no_dealing]. lia.
  - eapply other_market; [apply no_cash; exact EP|exact DE| |exact NK]. intros a o [= <- <-]. destruct LO as (L1 & _). eauto.
Qed.
Lemma tally_cancel core : proc_cancel e s core ms = Ok s' -> (forall o x oo o' oo', core o x oo = Ok (o', oo') -> ob_mkt o' = ob_mkt o /\ same_id oo oo') -> payees i = [] ->
  (key_at ms 0 = Some k -> exists x oo bl al, In (x, oo) L /\ cancels e s s' k m A L x oo bl al) -> tallies.
Proof.
  intros HC F EP CE. destruct (cancel_deed e EO s core ms s' W HC F) as (k0 & x0 & w & m0 & oo & oo' & K0 & K3 & SG & DE & LO & _). destruct (Z.eq_dec k0 k) as [EK|NK].
  - subst k0. destruct (CE K0) as (x1 & oo1 & bl & al & IX & CC). destruct (cancels_sums e EO _ _ _ _ _ _ _ _ _ _ SN IX CC) as (A2 & L2 & oo2 & E2 & SN2 & _ & EV2 & _ & _ & _ & NF & _).
    destruct (such_events _ _ _ _ SN2 EV2) as [EM EE]. assert (EP' : pot m' = pot m) by (rewrite <- EM; reflexivity). destruct (nofill_all E2 NF) as (f1 & f2). unfold tallies. rewrite no_cash by exact EP. rewrite EE. cbn [coin_swap pc_swap swept referred no_dealing]. lia.
  - eapply other_market; [apply no_cash; exact EP|exact DE| |exact NK]. intros a o [= <- <-]. destruct LO as (L1 & _). eauto.
Qed.
Lemma tally_prune n : i = IPrune n -> tallies.
Proof.
  intros EI. pose proof H as HJ. rewrite EI in HJ. pose proof WF as WJ. rewrite EI in WJ. pose proof HJ as HP. cbn [process] in HJ.
  destruct (prune_deed e EO _ _ _ _ W HJ) as (k0 & x0 & auth & m0 & oo0 & oo1 & K0 & _ & _ & _ & _ & DE & LO & _). destruct (Z.eq_dec k0 k) as [EK|NK].
  - subst k0. destruct (prune_effect e EO s k m A L WI SN P c n ms s' HP K0 ltac:(unfold wf_instr, u16 in WJ; lia)) as (x1 & oo2 & bl & al & _ & IX & _ & _ & _ & _ & _ & _ & CC & _).
    destruct (cancels_sums e EO _ _ _ _ _ _ _ _ _ _ SN IX CC) as (A2 & L2 & oo3 & E2 & SN2 & _ & EV2 & _ & _ & _ & NF & _).
    destruct (such_events _ _ _ _ SN2 EV2) as [EM EE]. assert (EP' : pot m' = pot m) by (rewrite <- EM; reflexivity). destruct (nofill_all E2 NF) as (f1 & f2). unfold tallies. rewrite no_cash by (rewrite EI; reflexivity). rewrite EE. cbn [coin_swap pc_swap swept referred no_dealing]. lia.
  - eapply other_market; [apply no_cash; rewrite EI; reflexivity|exact DE| |exact NK]. intros a o [= <- <-]. destruct LO as (L1 & _). eauto.
Qed.
Lemma tally_settle : i = ISettleFunds -> tallies.
Proof.
  intros EI. pose proof H as HJ. rewrite EI in HJ. pose proof PO as PJ. rewrite EI in PJ. pose proof HJ as HP. cbn [process] in HJ.
  destruct (settle_deed e EO _ _ _ W HJ) as (k0 & x0 & w & m0 & m1 & oo & oo' & K0 & K1 & SG & _ & DE & LO & _). destruct (Z.eq_dec k0 k) as [EK|NK].
  - subst k0. destruct (settle_effect e EO s k m A L WI SN P c ms s' HP K0) as (x1 & oo1 & cw & pw & K1' & IX & _ & K5 & K6 & (m2 & oo2 & SN2 & EM & _ & _ & MV & _)).
    destruct (such_events _ _ _ [] SN2 ltac:(rewrite app_nil_r; reflexivity)) as [M2 EE]. rewrite M2 in EM. clear M2. pose proof (proj1 (sn_oos _ _ _ _ _ _ SN _ _) IX) as (DX & _). destruct vaults_there as [V1 V2].
    destruct (PJ m 5%nat cw HM K0 ltac:(cbn; auto) K5) as [_ N5]. destruct (PJ m 6%nat pw HM K0 ltac:(cbn; auto) K6) as [_ N6].
    unfold tallies, line. rewrite K0, HM, Z.eqb_refl, EI, K1', DX, EE. cbn [coin_swap pc_swap swept referred zsum]. split; [reflexivity|]. rewrite (gained _ _ _ _ MV V2), zsum_app. cbn [zsum].
    rewrite got_other by congruence. rewrite got_out by congruence. rewrite EM. unfold pot. cbn [m_pc_fees m_rebates set_counters].
    destruct (key_at ms 9) as [r|] eqn:K9; cbn [zsum]; [|lia]. destruct (PJ m 9%nat r HM K0 ltac:(cbn; auto) K9) as [_ N9]. rewrite got_out by congruence. lia.
  - eapply other_market; [apply no_market_line; congruence|exact DE| |exact NK]. intros a o [= <- <-]. destruct LO as (L1 & _). eauto.
Qed.
Lemma tally_sweep : i = ISweepFees -> tallies.
Proof.
  intros EI. pose proof H as HJ. rewrite EI in HJ. pose proof PO as PJ. rewrite EI in PJ. pose proof HJ as HP. cbn [process] in HJ.
  destruct (sweep_signed e EO s c ms s' (history_anytime e s HI) HP) as (k0 & m0 & dst & p & spl & KM & _ & HM0 & _ & _ & HM1 & MV & ON).
  destruct (sweep_deed e EO _ _ _ W HJ) as (k1 & m1 & pw1 & p1 & spl1 & KM1 & _ & _ & DE & _). assert (k1 = k0) by congruence. subst k1.
  assert (K0 : key_at ms 0 = Some k0) by (rewrite (key_map _ _ _ KM); reflexivity). destruct (Z.eq_dec k0 k) as [EK|NK].
  - subst k0. assert (m0 = m) by congruence. subst m0. destruct vaults_there as [V1 V2]. destruct (sn_evs _ _ _ _ _ _ SN) as (qq & HQ & _).
    destruct (PJ m 3%nat dst HM K0 ltac:(cbn; auto) ltac:(rewrite (key_map _ _ _ KM); reflexivity)) as [_ N3].
    assert (EE : E = []).
    { apply no_event. destruct (sweep_ran e _ _ _ W HJ) as (k2 & m2 & pw2 & p2 & spl2 & KM2 & _ & HM2 & _ & _ & TR). assert (k2 = k) by congruence. subst k2. assert (m2 = m) by congruence. subst m2.
      rewrite (out_D e EO _ _ _ _ _ _ _ TR), (dexd_put_owned _ _ _ _ _ _ HM). destruct (Z.eqb_spec (m_event_q m) k); [congruence|reflexivity]. }
    unfold tallies, line. rewrite K0, HM, Z.eqb_refl, EI, EE. cbn [coin_swap pc_swap swept referred zsum]. split; [reflexivity|]. rewrite (gained _ _ _ _ MV V2). cbn [zsum]. rewrite got_out by congruence.
    assert (EM : m' = set_counters m (m_coin_deposits m) (m_pc_deposits m) 0 (m_rebates m)) by congruence. rewrite EM. unfold pot. cbn [m_pc_fees m_rebates set_counters]. lia.
  - eapply other_market; [apply no_market_line; congruence|exact DE|discriminate|exact NK].
Qed.
Lemma tally_take ix : i = ISendTake ix -> tallies.
Proof.
  intros EI. pose proof H as HJ. rewrite EI in HJ. pose proof PO as PJ. rewrite EI in PJ. pose proof WF as WJ. rewrite EI in WJ. pose proof HJ as HP. cbn [process] in HJ.
  destruct (take_deed e EO _ _ _ _ W HJ) as (k0 & m0 & m1 & K0 & _ & _ & DE & _). destruct (Z.eq_dec k0 k) as [EK|NK].
  - subst k0. destruct (take_effect e EO s k m A L WI SN P (guard_room e s 1 G ltac:(lia)) c ix ms s' HP K0 (wf_take_ok _ WJ)) as (w1 & t & cw & pw & _ & K5 & K6 & _ & TD).
    destruct TD as (m2 & A2 & tr & q' & gs & id & TD). cbv zeta in TD. destruct TD as (_ & SN2 & _ & _ & _ & EV2 & RE & _ & _ & _ & MM). destruct (such_events _ _ _ _ SN2 EV2) as [-> EE]. destruct vaults_there as [V1 V2].
    destruct (PJ m 5%nat cw HM K0 ltac:(cbn; auto) K5) as [N5 N5']. destruct (PJ m 6%nat pw HM K0 ltac:(cbn; auto) K6) as [N6 N6'].
    destruct (rounds_all _ _ _ _ _ RE) as [r1 r2]. match type of RE with Forall2 (reported _ _ ?x) _ _ => destruct (swap_sums (m_coin_lot m) (m_pc_lot m) x tr) as [g1 g2]; set (tk := x) in * end. cbn [tk tk_silent tk_side] in g1, g2.
    unfold tallies, line. rewrite K0, HM, Z.eqb_refl, EI, EE, r1, r2, g1, g2. cbn [coin_swap pc_swap swept referred]. pose proof (fees_nonneg (m_pc_lot m) tk tr) as FN.
    destruct (ti_side ix).
    + destruct MM as (_ & _ & MV & EM). rewrite !(gained _ _ _ _ MV) by assumption. cbn [zsum]. rewrite (got_other (m_coin_vault m) pw) by congruence. rewrite got_in, !got_out by congruence. rewrite (got_other (m_pc_vault m)) by congruence. rewrite EM. unfold pot. cbn [m_pc_fees m_rebates set_counters]. lia.
    + destruct MM as (_ & MV & EM). rewrite !(gained _ _ _ _ MV) by assumption. cbn [zsum]. rewrite (got_other (m_pc_vault m) cw) by congruence. rewrite got_in, !got_out by congruence. rewrite (got_other (m_coin_vault m)) by congruence. rewrite EM. unfold pot. cbn [m_pc_fees m_rebates set_counters]. lia.
  - eapply other_market; [apply no_market_line; congruence|exact DE|discriminate|exact NK].
Qed.
Lemma tally_consume : consuming i -> tallies.
Proof.
  intros CI. destruct (AbsentProofs.consume_kept e EO s s' c i ms k m A L HI G H SN P m' A' L' CI SN') as (us & EA & _).
  apply nothing_new; [apply no_cash; destruct CI as (n & [->| ->]); reflexivity| |eapply (queued_fun e); [exact QE|]; apply (queued_iff e _ _ _ _ _ _ _ _ _ _ SN SN'); exists us, (a_evs A'); rewrite app_nil_r; auto].
  destruct (crank_view e EO s c i ms s' W H CI) as (k1 & m1 & _ & V2 & _ & _ & V5 & V6). assert (NQ : k <> m_event_q m1) by (intros X; destruct V5 as (? & ? & V5 & _); congruence).
  destruct (V6 k NQ) as [X|(o & o' & (L1 & _) & _)]; [|congruence]. assert (EM : m' = m) by congruence. rewrite EM. reflexivity.
Qed.
Theorem income_step : tallies.
Proof.
  assert (X : forall j, j = i -> process e c s j ms = Ok s' -> wf_instr j -> tallies); [|exact (X i eq_refl H WF)].
  intros j EI HJ WJ. assert (CO : consuming i -> tallies) by exact tally_consume. destruct j; try (apply CO; rewrite <- EI; eexists; eauto; fail); try discriminate.
  - cbn [process] in HJ. destruct (init_ran e _ _ _ _ _ HJ) as (k1 & rqa & eqa & ba & aa & cv & pv & cm & pm & p & auths & R). destruct (sn_evs _ _ _ _ _ _ SN) as (qq & HQ & _).
    apply nothing_new; [apply no_cash; rewrite <- EI; reflexivity| |apply no_event; rewrite HQ; eapply WorldInit.in_kept; [exact EO|exact R|exact HQ|discriminate]].
    assert (X : D s' k = Some (DMarket m)) by (eapply WorldInit.in_kept; [exact EO|exact R|exact HM|discriminate]). assert (EM : m' = m) by congruence. rewrite EM. reflexivity.
  - cbn [process] in HJ. assert (ES : s' = s) by congruence. apply nothing_new; [apply no_cash; rewrite <- EI; reflexivity|assert (EM : m' = m) by congruence; rewrite EM; reflexivity|apply no_event; rewrite ES; reflexivity].
  - apply tally_settle; auto.
  - cbn [process] in HJ. destruct (disable_deed e EO _ _ _ W HJ) as (k0 & m0 & K0 & _ & _ & DE & ES & _). destruct (Z.eq_dec k0 k) as [EK|NK].
    + subst k0. pose proof (de_mkt _ _ _ _ _ _ _ DE) as HM0. assert (m0 = m) by congruence. subst m0. eapply same_market; [|exact (de_mkt' _ _ _ _ _ _ _ DE)|reflexivity|apply no_cash; rewrite <- EI; reflexivity].
      intros y NY. left. rewrite ES, (dexd_put_owned _ _ _ _ _ _ HM). destruct (Z.eqb_spec y k); [contradiction|reflexivity].
    + eapply other_market; [apply no_cash; rewrite <- EI; reflexivity|exact DE|discriminate|exact NK].
  - apply tally_sweep; auto.
  - eapply tally_order; eauto.
  - pose proof HJ as H1. cbn [process] in HJ. eapply tally_cancel; [exact HJ|cbv beta; intros * HH; eapply cancel_v2_frame; exact HH|rewrite <- EI; reflexivity|]. intros K0.
    destruct (cancel_v2_effect e EO s k m A L WI SN P c _ _ ms s' H1 K0) as (y & oo & l & K3 & IN & SG & _ & _ & _ & R). do 4 eexists. eauto.
  - pose proof HJ as H1. cbn [process] in HJ. unfold proc_cancel_cid in HJ. apply rbind_ok in HJ. destruct HJ as (? & _ & HJ). eapply tally_cancel; [exact HJ|cbv beta; intros * HH; eapply cancel_cid_frame; exact HH|rewrite <- EI; reflexivity|]. intros K0.
    destruct (cancel_cid_effect e EO s k m A L WI SN P c _ ms s' H1 K0) as (_ & y & oo & sd & l & K3 & IN & SG & _ & _ & _ & R). do 4 eexists. eauto.
  - eapply tally_take; eauto.
  - cbn [process] in HJ. destruct (close_deed e EO _ _ _ W HJ) as (k0 & x0 & w & dest & m0 & oo & oo' & KM & SG & DE & LO & _). destruct (Z.eq_dec k0 k) as [EK|NK].
    + subst k0. pose proof (de_mkt _ _ _ _ _ _ _ DE) as HM0. assert (m0 = m) by congruence. subst m0.
      destruct (close_ran e _ _ _ W HJ) as (k1 & x1 & w1 & dest1 & m1 & oo1 & oo1' & sm & KM1 & _ & _ & (LV & _) & _ & _ & _ & _ & ES).
      assert (DX : D (put_lamports (put_lamports s dest1 sm) x1 0) x1 = Some (DOO oo1)) by (rewrite !dexd_lam; exact LV).
      eapply same_market; [|exact (de_mkt' _ _ _ _ _ _ _ DE)|reflexivity|apply no_cash; rewrite <- EI; reflexivity].
      intros y NY. rewrite ES, (dexd_put_owned _ _ _ _ _ _ DX), !dexd_lam. destruct (Z.eqb_spec y x1) as [->|]; [|left; reflexivity]. right. exists x1, oo1'. split; [reflexivity|]. rewrite (dexd_put_owned _ _ _ _ _ _ DX), Z.eqb_refl. reflexivity.
    + eapply other_market; [apply no_cash; rewrite <- EI; reflexivity|exact DE| |exact NK]. intros a o [= <- <-]. destruct LO as (L1 & _). eauto.
  - cbn [process] in HJ. destruct (init_oo_deed e EO _ _ _ _ W HJ) as (k0 & x0 & w & m0 & oo & rest & KM & SG & _ & DE & LO & _).
    assert (LX : D s x0 = Some DZero \/ exists o, D s x0 = Some (DOO o)) by (destruct LO as [(L1 & _)|(L1 & _)]; eauto).
    destruct (Z.eq_dec k0 k) as [EK|NK].
    + subst k0. pose proof (de_mkt _ _ _ _ _ _ _ DE) as HM0. assert (m0 = m) by congruence. subst m0.
      destruct (init_oo_ran e _ _ _ _ W HJ) as (k1 & x1 & w1 & m1 & auth & oo1 & rest1 & KM1 & _ & _ & _ & _ & _ & _ & ES). assert (x1 = x0) by congruence. subst x1.
      assert (DX : exists d, D s x0 = Some d) by (destruct LX as [LX|(o & LX)]; eauto). destruct DX as (d & DX).
      eapply same_market; [|exact (de_mkt' _ _ _ _ _ _ _ DE)|reflexivity|apply no_cash; rewrite <- EI; reflexivity].
      intros y NY. rewrite ES, (dexd_put_owned _ _ _ _ _ _ DX). destruct (Z.eqb_spec y x0) as [->|]; [|left; reflexivity]. right. exists x0, oo1. split; [reflexivity|]. rewrite (dexd_put_owned _ _ _ _ _ _ DX), Z.eqb_refl. reflexivity.
    + eapply other_market; [apply no_cash; rewrite <- EI; reflexivity|exact DE| |exact NK]. intros a o [= <- <-]. exact LX.
  - eapply tally_prune; eauto.
  - pose proof HJ as H1. cbn [process] in HJ. eapply tally_cancel; [exact HJ|cbv beta; intros * HH; eapply cancel_cids_frame; exact HH|rewrite <- EI; reflexivity|]. intros K0.
    destruct (cancel_cids_effect e EO s k m A L WI SN P c _ ms s' H1 K0) as (y & oo & K3 & IN & SG & R). do 4 eexists. eauto.
  - apply (tally_replace [ix] HJ); [constructor; [exact (wf_order _ WJ)|constructor]|cbn; lia|rewrite <- EI; reflexivity].
  - destruct WJ as [LN F]. apply (tally_replace ixs HJ); [|lia|rewrite <- EI; reflexivity]. eapply Forall_impl; [|exact F]. intros a. apply wf_order.
Qed.
End Step.
Lemma books_story k s E T s' : books e k s E T s' -> history e s -> forall m A L, seen e s k m A L -> usable m -> m_coin_vault m <> m_pc_vault m ->
  history e s' /\ exists m' A' L', seen e s' k m' A' L' /\ same_config m m' /\ zsum coin_swap T = zsum coin_trade E /\ pot m' + zsum swept T + zsum referred T = pot m + income E T /\ 0 <= income E T.
Proof.
  intros ST HI m A L SN P NV. unfold income. induction ST as [|E T s1 c b ms i s2 E1 ST IH G SZ HB LG U PO H Q|E T s1 s2 ST IH R].
  - split; [exact HI|]. exists m, A, L. split; [exact SN|]. split; [apply same_config_refl|]. cbn. lia.
  - destruct IH as (HI1 & m1 & A1 & L1 & SN1 & SC1 & C1 & C2 & C3).
    assert (P1 : usable m1 /\ m_coin_vault m1 <> m_pc_vault m1) by (destruct SC1 as (? & ? & ? & ? & ? & ->); split; assumption). destruct P1 as [P1 NV1].
    split; [rewrite <- (did e b i c s1 s2 ms U H); apply reach_tx; assumption|]. destruct (unpack_pack _ _ HB U) as [WF _].
    destruct (seen_after e EO _ _ _ _ _ _ _ _ _ HI1 G SZ LG WF H SN1 P1) as (m2 & A2 & L2 & SN2 & SC2).
    destruct (income_step s1 s2 c i ms k m1 A1 L1 HI1 G LG WF H SN1 P1 NV1 PO m2 A2 L2 E1 SN2 SC2 Q) as (D1 & D2 & D3).
    exists m2, A2, L2. split; [exact SN2|]. split; [eapply same_config_trans; eassumption|]. rewrite !zsum_app. cbn [zsum]. lia.
  - destruct IH as (HI1 & m1 & A1 & L1 & SN1 & SC1 & C1 & C2 & C3). assert (P1 : usable m1) by (destruct SC1 as (? & ? & ? & ? & ? & ->); exact P).
    split; [eapply reach_env; eassumption|]. destruct (env_seen e EO _ _ _ _ _ _ HI1 R SN1 P1) as (A2 & L2 & SN2 & _). exists m1, A2, L2. split; [exact SN2|]. split; [exact SC1|]. split; [exact C1|lia].
Qed.
Theorem books_balance k s E T s' m A L m' A' L' : history e s -> books e k s E T s' -> seen e s k m A L -> usable m -> m_coin_vault m <> m_pc_vault m -> seen e s' k m' A' L' ->
  zsum coin_swap T = zsum coin_trade E /\ m_pc_fees m' + m_rebates m' + zsum swept T + zsum referred T = m_pc_fees m + m_rebates m + income E T.
Proof.
  intros HI ST SN P NV SN'. destruct (books_story k s E T s' ST HI m A L SN P NV) as (_ & m2 & A2 & L2 & SN2 & _ & C1 & C2 & _). destruct (seen_same e _ _ _ _ _ _ _ _ SN2 SN') as (EM & _). subst m2. unfold pot in C2. split; [exact C1|lia].
Qed.
Theorem paid_from_income k s E T s' m A L m' A' L' : history e s -> books e k s E T s' -> seen e s k m A L -> usable m -> m_coin_vault m <> m_pc_vault m -> seen e s' k m' A' L' ->
  zsum swept T + zsum referred T <= m_pc_fees m + m_rebates m + income E T.
Proof.
  intros HI ST SN P NV SN'. destruct (books_story k s E T s' ST HI m A L SN P NV) as (HI' & m2 & A2 & L2 & SN2 & SC & C1 & C2 & _). destruct (seen_same e _ _ _ _ _ _ _ _ SN2 SN') as (EM & _). subst m2.
  assert (P' : usable m') by (destruct SC as (? & ? & ? & ? & ? & ->); exact P). destruct (seen_state e s' k m' A2 L2 (reachable_inv e EO s' HI') SN2 P') as (seq & o & MS). pose proof (ci_mkt _ _ _ _ (ms_inv _ _ _ _ _ _ _ MS)) as (_ & U1 & U2). rewrite (ms_mkt _ _ _ _ _ _ _ MS) in U1, U2.
  unfold pot, u64 in *. lia.
Qed.
Theorem never_at_a_loss k s E T s' m A L : history e s -> books e k s E T s' -> seen e s k m A L -> usable m -> m_coin_vault m <> m_pc_vault m -> 0 <= income E T.
Proof. intros HI ST SN P NV. destruct (books_story k s E T s' ST HI m A L SN P NV) as (_ & m2 & A2 & L2 & _ & _ & _ & _ & C3). exact C3. Qed.
Theorem books_go_on k s E T s1 c b ms m A L : history e s -> books e k s E T s1 -> seen e s k m A L -> usable m -> m_coin_vault m <> m_pc_vault m ->
  no_overflow e s1 -> sized s1 -> is_bytes b -> legal e ms -> (forall i, unpack b = Some i -> pays_others e k s1 i ms) -> exists E1 T1, books e k s (E ++ E1) (T ++ T1) (transact e c s1 b ms).
Proof.
  intros HI ST SN P NV G SZ HB LG PO. destruct (books_story k s E T s1 ST HI m A L SN P NV) as (HI1 & m1 & A1 & L1 & SN1 & SC1 & _). assert (P1 : usable m1) by (destruct SC1 as (? & ? & ? & ? & ? & ->); exact P).
  destruct (queued_always e EO s1 c b ms k m1 A1 L1 HI1 G SZ HB LG SN1 P1) as (E1 & Q).
  destruct (process_bytes e c s1 b ms) as [s2|?|] eqn:PB.
  - pose proof PB as PB1. unfold process_bytes in PB1. apply rbind_ok in PB1. destruct PB1 as (i & U & H). destruct (unpack b) as [i0|] eqn:UB; cbn [ok_or] in U; [|discriminate]. injection U as ->.
    rewrite (did e b i c s1 s2 ms UB H) in *. exists E1. eexists. eapply books_tx; eauto.
  - exists [], []. rewrite !app_nil_r. unfold transact. rewrite PB. exact ST.
  - exists [], []. rewrite !app_nil_r. unfold transact. rewrite PB. exact ST.
Qed.
End Main.
