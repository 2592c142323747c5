(** Referral money that is nobody's never gets out (C72). *)
From Coq Require Import Permutation.
From Verif Require Import Base BaseProofs Fees ListSum Queue QueueProofs Codec CodecProofs Critbit CritbitProofs CritbitSlab Market Matching MatchSteps MatchSpec MatchFacts MatchReport MatchRefine MatchAsk MatchBid MatchRun Ledger LedgerSums LedgerSteps Slots
  Core CoreInv CoreNew CoreOrder CoreCancel CoreConsume CoreSettle CoreFrame Instr InstrProofs Store Process StoreProofs World WorldInv WorldLoad WorldRun WorldStep WorldStep2 WorldConsume WorldInit WorldMain WorldSpec WorldFacts
  WorldRange WorldCancel WorldPay WorldTrade WorldCrank WorldOpen WorldAuth WorldRights WorldSizes WorldExit WorldIsolate WorldSupply LifeSpec LifeProofs LifeSteps LifeMain AbsentSpec AbsentProofs StatementSpec StatementProofs IncomeSpec IncomeProofs StrandSpec.

Notation acct := (Z * open_orders)%type.
(** ** Sums over accounts *)
Definition part (x : Z) (L : list acct) : Z := zsum (fun a => if fst a =? x then oo_rebates (snd a) else 0) L.
Definition besides (x : Z) (L : list acct) : list acct := filter (fun a => negb (fst a =? x)) L.
Lemma total_part x L : total oo_rebates L = part x L + total oo_rebates (besides x L).
Proof. unfold total, part, besides. induction L as [|[y o] r IH]; [reflexivity|]. cbn [zsum filter fst snd]. rewrite IH. destruct (y =? x); cbn [negb zsum snd]; lia. Qed.
Lemma part_at x oo L : NoDup (map fst L) -> In (x, oo) L -> part x L = oo_rebates oo.
Proof.
  unfold part. induction L as [|[y o] r IH]; [intros _ []|]. cbn [map fst]. intros N. inversion N as [|? ? N1 N2]; subst. intros [X|I]; cbn [zsum fst snd].
  - injection X as -> ->. rewrite Z.eqb_refl. assert (Z0 : zsum (fun a : acct => if fst a =? x then oo_rebates (snd a) else 0) r = 0); [|lia].
    clear - N1. induction r as [|[y o] r IH]; [reflexivity|]. cbn [zsum fst snd map In] in *. destruct (Z.eqb_spec y x); [exfalso; auto|]. rewrite IH by auto. reflexivity.
  - rewrite (IH N2 I). destruct (Z.eqb_spec y x) as [->|]; [|lia]. exfalso. apply N1. apply (in_map fst) in I. exact I.
Qed.
Lemma part_none x L : (forall oo, ~ In (x, oo) L) -> part x L = 0.
Proof. unfold part. induction L as [|[y o] r IH]; [reflexivity|]. intros N. cbn [zsum fst snd]. rewrite IH by (intros oo I; apply (N oo); right; exact I). destruct (Z.eqb_spec y x) as [->|]; [destruct (N o (or_introl eq_refl))|reflexivity]. Qed.
Lemma nodup_pairs (L : list acct) : NoDup (map fst L) -> NoDup L.
Proof. apply NoDup_map_inv. Qed.
Lemma total_same L L' : NoDup (map fst L) -> NoDup (map fst L') -> (forall y o, In (y, o) L' <-> In (y, o) L) -> total oo_rebates L' = total oo_rebates L.
Proof. intros N N' E. unfold total. apply zsum_perm. apply NoDup_Permutation; [apply nodup_pairs; assumption..|]. intros [y o]. apply E. Qed.
Lemma total_one x L L' : NoDup (map fst L) -> NoDup (map fst L') -> (forall y o, y <> x -> In (y, o) L' <-> In (y, o) L) -> total oo_rebates L' - total oo_rebates L = part x L' - part x L.
Proof.
  intros N N' E. rewrite (total_part x L), (total_part x L'). assert (X : total oo_rebates (besides x L') = total oo_rebates (besides x L)); [|lia].
  unfold total, besides. apply zsum_perm. apply NoDup_Permutation; [apply NoDup_filter, nodup_pairs; assumption..|]. intros [y o]. rewrite !filter_In. cbn [fst]. destruct (Z.eqb_spec y x); cbn [negb]; [split; intros [_ X]; discriminate|]. rewrite (E y o) by assumption. reflexivity.
Qed.
Lemma spread vs L : NoDup (map fst L) -> (forall v, In v vs -> In (ev_owner v) (map fst L)) -> zsum ev_rebate vs = zsum (fun a : acct => zsum ev_rebate (events_of (fst a) vs)) L.
Proof.
  intros N. induction vs as [|v r IH]; intros O.
  - cbn [zsum events_of filter]. induction L as [|a l IHl]; [reflexivity|]. cbn [zsum]. inversion N; subst. rewrite <- IHl by assumption || (intros ? []). reflexivity.
  - cbn [zsum]. rewrite IH by (intros; apply O; right; assumption). specialize (O v (or_introl eq_refl)). clear IH.
    assert (X : forall l, NoDup (map fst l) -> zsum (fun a : acct => zsum ev_rebate (events_of (fst a) (v :: r))) l = zsum (fun a : acct => zsum ev_rebate (events_of (fst a) r)) l + (if in_dec Z.eq_dec (ev_owner v) (map fst l) then ev_rebate v else 0)).
    { clear. induction l as [|[y o] l IH]; intros N; [reflexivity|]. cbn [map fst] in N. inversion N as [|? ? N1 N2]; subst. specialize (IH N2). cbn [zsum fst]. rewrite IH. cbn [events_of filter]. cbn [map fst].
      destruct (in_dec Z.eq_dec (ev_owner v) (map fst l)) as [I1|I1], (in_dec Z.eq_dec (ev_owner v) (y :: map fst l)) as [I2|I2]; destruct (Z.eqb_spec (ev_owner v) y) as [E|E]; cbn [zsum]; unfold events_of; try lia; exfalso.
      - subst y. contradiction.
      - apply I2. right. exact I1.
      - apply I2. right. exact I1.
      - destruct I2 as [X|X]; congruence || contradiction.
      - apply I2. left. congruence. }
    rewrite (X L N). destruct (in_dec _ _ _); [lia|contradiction].
Qed.

(** ** Events of an order *)
Section Incoming.
Variables (cl pl : Z) (k : taker).
Lemma round_share x g : reported cl pl k x g -> zsum ev_rebate g = if tk_silent k then 0 else tr_fifth pl k x.
Proof.
  destruct x as [b t]. unfold reported, tr_fifth, tr_fee. destruct (self k (b, t)).
  - intros (u & s & ->). cbn. destruct (tk_silent k); reflexivity.
  - intros (ft & rest & -> & R). assert (Z0 : zsum ev_rebate rest = 0) by (destruct R as [->|(u & ->)]; reflexivity).
    cbn [zsum]. rewrite zsum_app. assert (M : zsum ev_rebate (if t =? l_qty b then [maker_out (other (tk_side k)) 0 0 b] else []) = 0) by (destruct (t =? l_qty b); reflexivity). rewrite M.
    assert (MF : ev_rebate (maker_fill cl pl k (b, t) ft) = 0) by (unfold maker_fill; destruct (tk_side k); reflexivity). rewrite MF.
    destruct (tk_silent k); [reflexivity|]. cbn [zsum]. rewrite Z0. unfold taker_fill. destruct (tk_side k); cbn [ev_rebate]; lia.
Qed.
Lemma rounds_share tr gs : Forall2 (reported cl pl k) tr gs -> zsum ev_rebate (concat gs) = if tk_silent k then 0 else zsum (tr_fifth pl k) tr.
Proof. induction 1 as [|x g tr gs R F IH]; [destruct (tk_silent k); reflexivity|]. cbn [concat zsum]. rewrite zsum_app, (round_share x g R), IH. destruct (tk_silent k); lia. Qed.
End Incoming.
Lemma nofill_share E : (forall v, In v E -> is_fill v = false) -> zsum ev_rebate E = 0.
Proof. intros N. induction E as [|v E IH]; [reflexivity|]. cbn [zsum]. rewrite IH by (intros; apply N; right; assumption). specialize (N v (or_introl eq_refl)). destruct v; [discriminate|reflexivity]. Qed.

Section Main.
Variable e : env.
Hypothesis EO : env_ok e.
Notation D := (dexd e).

Lemma unowed_fun s k m A L m2 A2 L2 : seen e s k m A L -> seen e s k m2 A2 L2 -> unowed m2 A2 L2 = unowed m A L.
Proof.
  intros S1 S2. destruct (seen_same e _ _ _ _ _ _ _ _ S1 S2) as (<- & _ & EE). unfold unowed. rewrite EE. rewrite (total_same L L2); [reflexivity|exact (sn_once _ _ _ _ _ _ S1)|exact (sn_once _ _ _ _ _ _ S2)|].
  intros y o. rewrite (sn_oos _ _ _ _ _ _ S1), (sn_oos _ _ _ _ _ _ S2). reflexivity.
Qed.
(** Only account [x] changes. *)
Lemma unowed_one x s s' k m A L m' A' L' : seen e s k m A L -> seen e s' k m' A' L' -> (forall y o, y <> x -> In (y, o) L' <-> In (y, o) L) ->
  unowed m' A' L' - unowed m A L = (m_rebates m' - m_rebates m) - (part x L' - part x L) - (zsum ev_rebate (a_evs A') - zsum ev_rebate (a_evs A)).
Proof. intros S1 S2 E. unfold unowed. pose proof (total_one x L L' (sn_once _ _ _ _ _ _ S1) (sn_once _ _ _ _ _ _ S2) E). lia. Qed.
Lemma still_queue s s' k m A L m' A' L' : seen e s k m A L -> seen e s' k m' A' L' -> m_event_q m' = m_event_q m -> D s' (m_event_q m) = D s (m_event_q m) -> a_evs A' = a_evs A.
Proof.
  intros S1 S2 EQ DQ. destruct (sn_evs _ _ _ _ _ _ S1) as (q1 & Q1 & Q2). destruct (sn_evs _ _ _ _ _ _ S2) as (q2 & Q3 & Q4). rewrite EQ in Q3. assert (q2 = q1) by congruence. subst q2. eapply views_fun; eassumption.
Qed.
Lemma put_others x oo' (L : list acct) y o : y <> x -> In (y, o) (put_acct L x oo') <-> In (y, o) L.
Proof.
  intros N. unfold put_acct. rewrite in_map_iff. split.
  - intros ([z p] & E & I). cbn [fst snd] in E. destruct (Z.eqb_spec z x) as [->|]; [injection E as <- _; contradiction|]. injection E as <- <-. exact I.
  - intros I. exists (y, o). cbn [fst snd]. destruct (Z.eqb_spec y x); [contradiction|]. auto.
Qed.
Lemma put_there x oo oo' (L : list acct) : In (x, oo) L -> In (x, oo') (put_acct L x oo').
Proof. intros I. unfold put_acct. apply in_map_iff. exists (x, oo). cbn [fst]. rewrite Z.eqb_refl. auto. Qed.
Lemma orders_owed s s' k m A L ix t x payer oo : seen e s k m A L -> orders e s s' k m A L ix t x payer oo -> part x L = oo_rebates oo ->
  exists m' A' L' oo', seen e s' k m' A' L' /\ In (x, oo') L' /\ unowed m' A' L' = unowed m A L.
Proof.
  intros SN (m' & A' & L' & oo' & tr & q' & n & E & slot & id & dep & OD) PX.
  assert (SL : exists sl, D s (match oi_side ix with Bid => m_bids m | Ask => m_asks m end) = Some (DSlab (oi_side ix) sl)) by (destruct (sn_bids _ _ _ _ _ _ SN) as (sb & HB & _), (sn_asks _ _ _ _ _ _ SN) as (sa & HA & _); destruct (oi_side ix); eauto). destruct SL as (sl & SL).
  cbv zeta in OD. destruct OD as (_ & _ & SN' & LL & EV & RP & _ & _ & _ & _ & MM).
  specialize (RP sl SL). destruct RP as [_ _ _ (gs & Eend & EE & RE & FI) _]. set (tk := mkTaker (oi_side ix) id x slot t (oi_cid ix) (oi_st ix) false) in *.
  pose proof (rounds_share _ _ _ _ _ RE) as RS. change (tk_silent tk) with false in RS. cbv iota in RS.
  assert (NF : forall v, In v Eend -> is_fill v = false) by (eapply (LifeProofs.finish_nofill m tk); exact FI). pose proof (nofill_share Eend NF) as FS.
  assert (IX : In (x, oo') L') by (apply LL; auto). exists m', A', L', oo'. split; [exact SN'|]. split; [exact IX|].
  pose proof (unowed_one x _ _ _ _ _ _ _ _ _ SN SN') as U. specialize (U ltac:(intros y o N; rewrite LL; split; [intros [[X _]|[_ I]]; [contradiction|exact I]|auto])).
  rewrite (part_at x oo' L' (sn_once _ _ _ _ _ _ SN') IX), PX, EV, EE, !zsum_app, RS, FS in U.
  assert (PM : m_rebates m' = m_rebates m + zsum (tr_fifth (m_pc_lot m) tk) tr /\ oo_rebates oo' = oo_rebates oo) by (destruct (oi_side ix); destruct MM as (_ & _ & (_ & _ & _ & _ & CB) & _ & ->); cbn [m_rebates set_counters]; fold tk; split; [reflexivity|lia|reflexivity|lia]). lia.
Qed.
Lemma placing_owed k x payer w dc s ixs s' : placing e k x payer w dc s ixs s' -> forall m A L oo, seen e s k m A L -> In (x, oo) L -> exists m' A' L', seen e s' k m' A' L' /\ unowed m' A' L' = unowed m A L.
Proof.
  induction 1 as [s|s s1 s2 m0 A0 L0 oo0 t ix r S0 I0 O0 T OD PL IH]; intros m A L oo SN IX.
  - exists m, A, L. auto.
  - rewrite <- (unowed_fun _ _ _ _ _ _ _ _ SN S0). destruct (orders_owed _ _ _ _ _ _ _ _ _ _ _ S0 OD (part_at _ _ _ (sn_once _ _ _ _ _ _ S0) I0)) as (m1 & A1 & L1 & oo1 & SN1 & IX1 & U1).
    destruct (IH m1 A1 L1 oo1 SN1 IX1) as (m2 & A2 & L2 & SN2 & U2). exists m2, A2, L2. split; [exact SN2|lia].
Qed.
Lemma cancels_owed s s' k m A L x oo bl al : seen e s k m A L -> In (x, oo) L -> cancels e s s' k m A L x oo bl al -> exists A' L' oo', seen e s' k m A' L' /\ In (x, oo') L' /\ unowed m A' L' = unowed m A L.
Proof.
  intros SN IX CC. destruct (cancels_sums e EO _ _ _ _ _ _ _ _ _ _ SN IX CC) as (_ & _ & _ & E & _ & _ & _ & _ & _ & _ & _ & _). clear E.
  destruct CC as (A' & oo' & [_ _ _ _ (E & EV & PM) (b1 & b2 & b3 & b4 & b5) _] & SN' & _). exists A', (put_acct L x oo'), oo'. split; [exact SN'|]. pose proof (put_there x oo oo' L IX) as IX'. split; [exact IX'|].
  assert (FS : zsum ev_rebate E = 0). { apply nofill_share. intros v I. apply (Permutation_in _ PM) in I. apply in_app_or in I. destruct I as [I|I]; apply in_map_iff in I; destruct I as (l & <- & _); reflexivity. }
  pose proof (unowed_one x _ _ _ _ _ _ _ _ _ SN SN' (put_others x oo' L)) as U. rewrite (part_at x oo' _ (sn_once _ _ _ _ _ _ SN') IX'), (part_at x oo L (sn_once _ _ _ _ _ _ SN) IX), EV, zsum_app, FS in U. lia.
Qed.
Section Step.
Variables (s s' : store) (c : clock) (i : instr) (ms : list meta) (k : Z) (m : market) (A : astate) (L : list acct).
Hypothesis (HI : history e s) (G : no_overflow e s) (SZ : sized s) (LG : legal e ms) (WF : wf_instr i) (H : process e c s i ms = Ok s').
Hypothesis (SN : seen e s k m A L) (P : usable m).
Let WI : winv e s := reachable_inv e EO s HI.
Let W : wstruct (D s) := wi_str _ _ WI.
Let HM : D s k = Some (DMarket m) := sn_mkt _ _ _ _ _ _ SN.
Variables (m' : market) (A' : astate) (L' : list acct).
Hypothesis (SN' : seen e s' k m' A' L') (SC : same_config m m').
Let HM' : D s' k = Some (DMarket m') := sn_mkt _ _ _ _ _ _ SN'.
Definition strands : Prop := unowed m' A' L' = unowed m A L + stranded e k m m' s i ms.
Lemma such m2 A2 L2 : seen e s' k m2 A2 L2 -> stranded e k m m' s i ms = 0 -> unowed m2 A2 L2 = unowed m A L -> strands.
Proof. intros S2 E0 U. unfold strands. rewrite E0, <- (unowed_fun _ _ _ _ _ _ _ _ SN' S2). lia. Qed.
Lemma same_queue : D s' (m_event_q m) = D s (m_event_q m) -> a_evs A' = a_evs A.
Proof. eapply still_queue; [exact SN|exact SN'|destruct SC as (? & ? & ? & ? & ? & ->); reflexivity]. Qed.
Lemma queue_there x o : D s' x = Some (DOO o) -> m_event_q m <> x.
Proof. intros DX E. destruct (sn_evs _ _ _ _ _ _ SN') as (q & Q & _). assert (EQ : m_event_q m' = m_event_q m) by (destruct SC as (? & ? & ? & ? & ? & ->); reflexivity). congruence. Qed.
(** Nothing of this market changes but perhaps an account [x] and counters. *)
Lemma quiet x : a_evs A' = a_evs A -> (forall y o, y <> x -> (D s' y = Some (DOO o) <-> D s y = Some (DOO o))) ->
  unowed m' A' L' - unowed m A L = (m_rebates m' - m_rebates m) - (part x L' - part x L).
Proof.
  intros EV F. pose proof (unowed_one x _ _ _ _ _ _ _ _ _ SN SN') as U. specialize (U ltac:(intros y o N; rewrite (sn_oos _ _ _ _ _ _ SN), (sn_oos _ _ _ _ _ _ SN'), (F y o N); reflexivity)). rewrite EV in U. lia.
Qed.
Lemma other_one k0 m0 m1 xo : stranded e k m m' s i ms = 0 -> deed e s s' k0 m0 m1 xo -> (forall a o, xo = Some (a, o) -> o.(oo_market) = k0 /\ (D s a = Some DZero \/ exists oo, D s a = Some (DOO oo) /\ oo_market oo = k0)) -> k0 <> k -> strands.
Proof.
  intros EN DE XO NK. pose proof (de_mkt _ _ _ _ _ _ _ DE) as HM0. destruct (sn_evs _ _ _ _ _ _ SN) as (qq & HQ & _).
  destruct (apart _ _ _ _ _ W HM0 HM (fun X => NK (eq_sym X)) (m_event_q m) ltac:(auto)) as (n1 & n2 & n3 & n4 & n5).
  assert (X : D s' k = D s k) by (eapply de_mkts; [exact DE|congruence|eauto]). assert (EM : m' = m) by congruence.
  assert (EV : a_evs A' = a_evs A). { apply same_queue. eapply de_else; [exact DE|try assumption..]. intros a o EX EY. destruct (XO a o EX) as (_ & [DX|(oo & DX & _)]); congruence. }
  unfold strands, unowed. rewrite EN, EM, EV. assert (T : total oo_rebates L' = total oo_rebates L); [|lia].
  apply total_same; [exact (sn_once _ _ _ _ _ _ SN)|exact (sn_once _ _ _ _ _ _ SN')|]. intros y o. rewrite (sn_oos _ _ _ _ _ _ SN), (sn_oos _ _ _ _ _ _ SN').
  destruct xo as [[a oa]|].
  - destruct (Z.eq_dec y a) as [->|N].
    + destruct (XO a oa eq_refl) as (Oa & B). pose proof (de_at _ _ _ _ _ _ _ DE _ _ eq_refl) as DA. split; intros (I1 & _ & I3); exfalso; [congruence|]. destruct B as [B|(oo & B & MB)]; congruence.
    + split; intros (I1 & I2 & I3); (split; [|auto]); [rewrite <- I1; symmetry|rewrite <- I1]; (eapply de_oos; [exact DE|eauto|intros ? ? [= <- <-]; exact N]).
  - split; intros (I1 & I2 & I3); (split; [|auto]); [rewrite <- I1; symmetry|rewrite <- I1]; (eapply de_oos; [exact DE|eauto|discriminate]).
Qed.
Lemma strand_order ix : i = INewOrderV3 ix -> strands.
Proof.
  intros EI. pose proof H as HJ. rewrite EI in HJ. pose proof WF as WJ. rewrite EI in WJ. pose proof HJ as HP. cbn [process] in HJ.
  assert (Z0 : stranded e k m m' s i ms = 0) by (rewrite EI; reflexivity).
  destruct (order_deed e EO _ _ _ _ _ W HJ) as (k0 & x0 & w & m0 & m1 & oo & oo' & K0 & K1 & SG & _ & _ & DE & LO & _ & _ & _ & MK & _). destruct (Z.eq_dec k0 k) as [EK|NK].
  - rewrite EK in K0. destruct (order_effect e EO s k m A L WI SN P (guard_room e s 1 G ltac:(lia)) c ix ms s' HP K0 (wf_order _ WJ)) as (x1 & w1 & t & payer & oo1 & _ & _ & _ & _ & _ & IX & OD).
    assert (PX : part x1 L = oo_rebates oo1). { destruct IX as [IX|(DX & _ & BL)]; [exact (part_at _ _ _ (sn_once _ _ _ _ _ _ SN) IX)|]. rewrite part_none by (intros o I; apply (sn_oos _ _ _ _ _ _ SN) in I; destruct I as (I & _); congruence). unfold blank_for in BL. intuition lia. }
    destruct (orders_owed _ _ _ _ _ _ _ _ _ _ _ SN OD PX) as (m2 & A2 & L2 & oo2 & SN2 & _ & U). exact (such _ _ _ SN2 Z0 U).
  - eapply other_one; [exact Z0|exact DE| |exact NK]. intros a o [= <- <-]. split; [exact MK|]. destruct LO as [(L1 & _ & L3)|(L1 & _)]; eauto.
Qed.
Lemma strand_replace ixs : process e c s (IReplaceMany ixs) ms = Ok s' -> Forall order_ix_ok ixs -> (length ixs <= 8)%nat -> stranded e k m m' s i ms = 0 -> strands.
Proof.
  intros HR FO LN Z0. destruct (replace_deed e EO s c ixs ms s' W HR) as (k0 & x0 & w & m0 & m1 & oo & oo' & K0 & K1 & SG & _ & _ & DE & LO & _ & SI & _). destruct (Z.eq_dec k0 k) as [EK|NK].
  - subst k0. destruct (replace_effect e EO s k m A L WI G SN P c ixs ms s' LG FO LN HR K0) as (x1 & o1 & payer & s1 & K1' & IX & _ & _ & CC & PL).
    destruct (cancels_owed _ _ _ _ _ _ _ _ _ _ SN IX CC) as (A2 & L2 & oo2 & SN2 & IX2 & U2). destruct (placing_owed _ _ _ _ _ _ _ _ PL m A2 L2 oo2 SN2 IX2) as (m3 & A3 & L3 & SN3 & U3). exact (such _ _ _ SN3 Z0 ltac:(lia)).
  - eapply other_one; [exact Z0|exact DE| |exact NK]. intros a o [= <- <-]. destruct LO as (L1 & _ & L3). destruct SI as (S1 & S2 & S3). split; [congruence|]. right. eauto.
Qed.
Lemma strand_cancel core : proc_cancel e s core ms = Ok s' -> (forall o x oo o' oo', core o x oo = Ok (o', oo') -> ob_mkt o' = ob_mkt o /\ same_id oo oo') -> stranded e k m m' s i ms = 0 ->
  (key_at ms 0 = Some k -> exists x oo bl al, In (x, oo) L /\ cancels e s s' k m A L x oo bl al) -> strands.
Proof.
  intros HC F Z0 CE. destruct (cancel_deed e EO s core ms s' W HC F) as (k0 & x0 & w & m0 & oo & oo' & K0 & K3 & SG & DE & LO & _ & SI & _). destruct (Z.eq_dec k0 k) as [EK|NK].
  - subst k0. destruct (CE K0) as (x1 & oo1 & bl & al & IX & CC). destruct (cancels_owed _ _ _ _ _ _ _ _ _ _ SN IX CC) as (A2 & L2 & oo2 & SN2 & _ & U2). exact (such _ _ _ SN2 Z0 U2).
  - eapply other_one; [exact Z0|exact DE| |exact NK]. intros a o [= <- <-]. destruct LO as (L1 & _ & L3). destruct SI as (S1 & S2 & S3). split; [congruence|]. right. eauto.
Qed.
Lemma strand_prune n : i = IPrune n -> strands.
Proof.
  intros EI. pose proof H as HJ. rewrite EI in HJ. pose proof WF as WJ. rewrite EI in WJ. pose proof HJ as HP. cbn [process] in HJ.
  assert (Z0 : stranded e k m m' s i ms = 0) by (rewrite EI; reflexivity).
  destruct (prune_deed e EO _ _ _ _ W HJ) as (k0 & x0 & auth & m0 & oo0 & oo1 & K0 & _ & _ & _ & _ & DE & LO & SI & _). destruct (Z.eq_dec k0 k) as [EK|NK].
  - subst k0. destruct (prune_effect e EO s k m A L WI SN P c n ms s' HP K0 ltac:(unfold wf_instr, u16 in WJ; lia)) as (x1 & oo2 & bl & al & _ & IX & _ & _ & _ & _ & _ & _ & CC & _).
    destruct (cancels_owed _ _ _ _ _ _ _ _ _ _ SN IX CC) as (A2 & L2 & oo3 & SN2 & _ & U2). exact (such _ _ _ SN2 Z0 U2).
  - eapply other_one; [exact Z0|exact DE| |exact NK]. intros a o [= <- <-]. destruct LO as (L1 & _ & L3). destruct SI as (S1 & S2 & S3). split; [congruence|]. right. eauto.
Qed.
Lemma strand_settle : i = ISettleFunds -> strands.
Proof.
  intros EI. pose proof H as HJ. rewrite EI in HJ. pose proof HJ as HP. cbn [process] in HJ. assert (Z0 : stranded e k m m' s i ms = 0) by (rewrite EI; reflexivity).
  destruct (settle_deed e EO _ _ _ W HJ) as (k0 & x0 & w & m0 & m1 & oo & oo' & K0 & K1 & SG & _ & DE & LO & _ & SI & _). destruct (Z.eq_dec k0 k) as [EK|NK].
  - subst k0. destruct (settle_effect e EO s k m A L WI SN P c ms s' HP K0) as (x1 & oo1 & cw & pw & K1' & IX & _ & K5 & K6 & (m2 & oo2 & SN2 & EM & (_ & _ & _ & _ & CB) & _)).
    pose proof (put_there x1 oo1 oo2 L IX) as IX2. pose proof (unowed_one x1 _ _ _ _ _ _ _ _ _ SN SN2 (put_others x1 oo2 L)) as U. rewrite (part_at x1 oo2 _ (sn_once _ _ _ _ _ _ SN2) IX2), (part_at x1 oo1 L (sn_once _ _ _ _ _ _ SN) IX) in U.
    apply (such _ _ _ SN2 Z0). assert (ER : m_rebates m2 = m_rebates m - oo_rebates oo1) by (rewrite EM; reflexivity). lia.
  - eapply other_one; [exact Z0|exact DE| |exact NK]. intros a o [= <- <-]. destruct LO as (L1 & _ & L3). destruct SI as (S1 & S2 & S3). split; [congruence|]. right. eauto.
Qed.
Lemma strand_sweep : i = ISweepFees -> strands.
Proof.
  intros EI. pose proof H as HJ. rewrite EI in HJ. cbn [process] in HJ. assert (Z0 : stranded e k m m' s i ms = 0) by (rewrite EI; reflexivity).
  destruct (sweep_deed e EO _ _ _ W HJ) as (k0 & m0 & pw1 & p1 & spl1 & KM & _ & _ & DE & _). pose proof (de_mkt _ _ _ _ _ _ _ DE) as HM0. destruct (Z.eq_dec k0 k) as [EK|NK].
  - subst k0. assert (m0 = m) by congruence. subst m0. destruct (sweep_ran e _ _ _ W HJ) as (k2 & m2 & pw2 & p2 & spl2 & KM2 & _ & HM2 & _ & _ & TR). assert (k2 = k) by congruence. subst k2. assert (m2 = m) by congruence. subst m2.
    assert (V : forall y, D s' y = if y =? k then Some (DMarket (set_pc_fees m 0)) else D s y) by (intros y; rewrite (out_D e EO _ _ _ _ _ _ _ TR), (dexd_put_owned _ _ _ _ _ _ HM); reflexivity).
    destruct (sn_evs _ _ _ _ _ _ SN) as (qq & HQ & _). assert (EV : a_evs A' = a_evs A) by (apply same_queue; rewrite V; destruct (Z.eqb_spec (m_event_q m) k); [congruence|reflexivity]).
    assert (EM : m' = set_pc_fees m 0) by (pose proof (V k) as Vk; rewrite Z.eqb_refl in Vk; congruence).
    pose proof (quiet k EV) as U. specialize (U ltac:(intros y o N; rewrite V; destruct (Z.eqb_spec y k); [contradiction|reflexivity])).
    rewrite !part_none in U by (intros o I; (apply (sn_oos _ _ _ _ _ _ SN) in I || apply (sn_oos _ _ _ _ _ _ SN') in I); destruct I as (I & _); congruence).
    unfold strands. rewrite Z0. assert (ER : m_rebates m' = m_rebates m) by (rewrite EM; destruct m; reflexivity). lia.
  - eapply other_one; [exact Z0|exact DE|discriminate|exact NK].
Qed.
Lemma strand_take ix : i = ISendTake ix -> strands.
Proof.
  intros EI. pose proof H as HJ. rewrite EI in HJ. pose proof WF as WJ. rewrite EI in WJ. pose proof HJ as HP. cbn [process] in HJ.
  destruct (take_deed e EO _ _ _ _ W HJ) as (k0 & m0 & m1 & K0 & _ & _ & DE & _). destruct (Z.eq_dec k0 k) as [EK|NK].
  - subst k0. destruct (take_effect e EO s k m A L WI SN P (guard_room e s 1 G ltac:(lia)) c ix ms s' HP K0 (wf_take_ok _ WJ)) as (w1 & t & cw & pw & _ & K5 & K6 & _ & TD).
    destruct TD as (m2 & A2 & tr & q' & gs & id & TD). cbv zeta in TD. destruct TD as (_ & SN2 & _ & _ & _ & EV2 & RE & _).
    pose proof (rounds_share _ _ _ _ _ RE) as RS. cbn [tk_silent] in RS. assert (EM : m2 = m') by (pose proof (sn_mkt _ _ _ _ _ _ SN2); congruence).
    unfold strands. rewrite (unowed_fun _ _ _ _ _ _ _ _ SN2 SN'). unfold stranded. rewrite EI, K0, Z.eqb_refl. unfold unowed. rewrite EV2, zsum_app, RS, EM. lia.
  - eapply other_one; [unfold stranded; rewrite EI, K0; destruct (Z.eqb_spec k0 k); [contradiction|reflexivity]|exact DE|discriminate|exact NK].
Qed.
Definition look (x : Z) : open_orders := match D s' x with Some (DOO o) => o | _ => oo_fresh 0 0 end.
Lemma strand_consume : consuming i -> strands.
Proof.
  intros CI. assert (Z0 : stranded e k m m' s i ms = 0) by (destruct CI as (n & [->| ->]); reflexivity).
  destruct (AbsentProofs.consume_kept e EO s s' c i ms k m A L HI G H SN P m' A' L' CI SN') as (us & EA & BK).
  destruct (crank_view e EO s c i ms s' W H CI) as (k1 & m1 & _ & V2 & _ & _ & V5 & V6).
  assert (EM : m' = m). { assert (NQ : k <> m_event_q m1) by (intros X; destruct V5 as (? & ? & V5 & _); congruence). destruct (V6 k NQ) as [X|(o & o' & (L1 & _) & _)]; congruence. }
  set (L2 := map (fun a : acct => (fst a, look (fst a))) L).
  assert (F2 : map fst L2 = map fst L) by (unfold L2; rewrite map_map; reflexivity).
  assert (BK2 : forall x oo, In (x, oo) L -> D s' x = Some (DOO (look x)) /\ booked (events_of x us) oo (look x)) by (intros x oo I; destruct (BK x oo I) as (o & DX & B); unfold look; rewrite DX; auto).
  assert (ID : forall vs a b, booked vs a b -> same_id a b). { induction vs as [|v r IH]; cbn [booked]; intros a b B; [subst; repeat split|]. destruct B as (o & [_ (f1 & f2 & f3) _] & B). destruct (IH _ _ B) as (g1 & g2 & g3). repeat split; congruence. }
  assert (T1 : total oo_rebates L' = total oo_rebates L2).
  { apply total_same; [rewrite F2; exact (sn_once _ _ _ _ _ _ SN)|exact (sn_once _ _ _ _ _ _ SN')|]. intros y o. rewrite (sn_oos _ _ _ _ _ _ SN'). unfold L2. rewrite in_map_iff. split.
    - intros (I1 & I2 & I3). assert (NQ : y <> m_event_q m1) by (intros X; destruct V5 as (? & ? & _ & V5); congruence).
      assert (IY : exists oo, In (y, oo) L). { destruct (V6 y NQ) as [X|(oo & oo' & (L1 & L3 & L4) & X & (g1 & g2 & g3))]; [exists o|exists oo]; apply (sn_oos _ _ _ _ _ _ SN); repeat split; try congruence. }
      destruct IY as (oo & IY). exists (y, oo). split; [|exact IY]. cbn [fst]. unfold look. rewrite I1. reflexivity.
    - intros ([z oo] & X & I). cbn [fst] in X. injection X as <- <-. destruct (BK2 z oo I) as [DX B]. apply (sn_oos _ _ _ _ _ _ SN) in I. destruct I as (_ & I2 & I3). destruct (ID _ _ _ B) as (g1 & g2 & g3). repeat split; congruence. }
  assert (T2 : total oo_rebates L2 = total oo_rebates L + zsum (fun a : acct => zsum ev_rebate (events_of (fst a) us)) L).
  { clear T1 F2. unfold L2, total. revert BK2. clear. induction L as [|[x oo] r IH]; intros B; [reflexivity|]. cbn [map zsum fst snd]. rewrite IH by (intros; apply B; right; assumption). destruct (B x oo (or_introl eq_refl)) as [_ B1]. destruct (booked_sums _ _ _ B1) as (_ & _ & -> & _). lia. }
  assert (T3 : zsum ev_rebate us = zsum (fun a : acct => zsum ev_rebate (events_of (fst a) us)) L).
  { apply spread; [exact (sn_once _ _ _ _ _ _ SN)|]. intros v I. destruct (seen_state e s k m A L WI SN P) as (seq & o & MS). apply (ci_evown _ _ _ _ (ms_inv _ _ _ _ _ _ _ MS)). rewrite EA. apply in_or_app. auto. }
  unfold strands, unowed. rewrite Z0, EM, EA, zsum_app. lia.
Qed.
Theorem strand_step : strands.
Proof.
  assert (X : forall j, j = i -> process e c s j ms = Ok s' -> wf_instr j -> strands); [|exact (X i eq_refl H WF)].
  intros j EI HJ WJ. assert (CO : consuming i -> strands) by exact strand_consume. destruct j; try (apply CO; rewrite <- EI; eexists; eauto; fail); try discriminate.
  - cbn [process] in HJ. destruct (init_ran e _ _ _ _ _ HJ) as (k1 & rqa & eqa & ba & aa & cv & pv & cm & pm & p & auths & R). destruct (sn_evs _ _ _ _ _ _ SN) as (qq & HQ & _).
    assert (X : D s' k = Some (DMarket m)) by (eapply WorldInit.in_kept; [exact EO|exact R|exact HM|discriminate]). assert (EM : m' = m) by congruence.
    assert (EV : a_evs A' = a_evs A) by (apply same_queue; rewrite HQ; eapply WorldInit.in_kept; [exact EO|exact R|exact HQ|discriminate]).
    pose proof (quiet k EV) as U. specialize (U ltac:(intros y o _; eapply WorldInit.in_was_oo; [exact EO|exact R])).
    rewrite !part_none in U by (intros o I; (apply (sn_oos _ _ _ _ _ _ SN) in I || apply (sn_oos _ _ _ _ _ _ SN') in I); destruct I as (I & _); congruence).
    assert (Z0 : stranded e k m m' s i ms = 0) by (rewrite <- EI; reflexivity). unfold strands. rewrite Z0, EM in *. lia.
  - cbn [process] in HJ. assert (ES : s' = s) by congruence. assert (SN2 : seen e s' k m A L) by (rewrite ES; exact SN). eapply such; [exact SN2|rewrite <- EI; reflexivity|reflexivity].
  - apply strand_settle; auto.
  - cbn [process] in HJ. destruct (disable_deed e EO _ _ _ W HJ) as (k0 & m0 & K0 & _ & _ & DE & ES & _). assert (Z0 : stranded e k m m' s i ms = 0) by (rewrite <- EI; reflexivity). destruct (Z.eq_dec k0 k) as [EK|NK].
    + subst k0. pose proof (de_mkt _ _ _ _ _ _ _ DE) as HM0. assert (m0 = m) by congruence. subst m0. pose proof (de_mkt' _ _ _ _ _ _ _ DE) as HM1. destruct (sn_evs _ _ _ _ _ _ SN) as (qq & HQ & _).
      assert (V : forall y, y <> k -> D s' y = D s y) by (intros y NY; rewrite ES, (dexd_put_owned _ _ _ _ _ _ HM); destruct (Z.eqb_spec y k); [contradiction|reflexivity]).
      assert (EV : a_evs A' = a_evs A) by (apply same_queue; apply V; congruence).
      pose proof (quiet k EV) as U. specialize (U ltac:(intros y o N; rewrite V by exact N; reflexivity)).
      rewrite !part_none in U by (intros o I; (apply (sn_oos _ _ _ _ _ _ SN) in I || apply (sn_oos _ _ _ _ _ _ SN') in I); destruct I as (I & _); congruence).
      unfold strands. rewrite Z0. assert (ER : m_rebates m' = m_rebates m) by (assert (EM : m' = set_flags m (Z.lor (m_flags m) AF_Disabled)) by congruence; rewrite EM; reflexivity). lia.
    + eapply other_one; [exact Z0|exact DE|discriminate|exact NK].
  - apply strand_sweep; auto.
  - eapply strand_order; eauto.
  - pose proof HJ as H1. cbn [process] in HJ. eapply strand_cancel; [exact HJ|cbv beta; intros * HH; eapply cancel_v2_frame; exact HH|rewrite <- EI; reflexivity|]. intros K0.
    destruct (cancel_v2_effect e EO s k m A L WI SN P c _ _ ms s' H1 K0) as (y & oo & l & K3 & IN & SG & _ & _ & _ & R). do 4 eexists. eauto.
  - pose proof HJ as H1. cbn [process] in HJ. unfold proc_cancel_cid in HJ. apply rbind_ok in HJ. destruct HJ as (? & _ & HJ). eapply strand_cancel; [exact HJ|cbv beta; intros * HH; eapply cancel_cid_frame; exact HH|rewrite <- EI; reflexivity|]. intros K0.
    destruct (cancel_cid_effect e EO s k m A L WI SN P c _ ms s' H1 K0) as (_ & y & oo & sd & l & K3 & IN & SG & _ & _ & _ & R). do 4 eexists. eauto.
  - eapply strand_take; eauto.
  - cbn [process] in HJ. destruct (close_deed e EO _ _ _ W HJ) as (k0 & x0 & w & dest & m0 & oo & oo' & KM & SG & DE & LO & _ & CC & _).
    assert (K3 : key_at ms 3 = Some k0 /\ key_at ms 0 = Some x0) by (rewrite !(key_map _ _ _ KM); split; reflexivity). destruct K3 as [K3 K0]. pose proof LO as (L1 & L2 & L3).
    assert (CL : oo_flags oo' = AF_Closed /\ oo_market oo' = oo_market oo) by (unfold close_core in CC; cbv zeta in CC; repeat (apply rbind_ok in CC; destruct CC as (? & _ & CC)); injection CC as <-; split; reflexivity). destruct CL as [CL CM].
    assert (ST : stranded e k m m' s i ms = if k0 =? k then oo_rebates oo else 0) by (unfold stranded; rewrite <- EI, K3, K0, L1; reflexivity). destruct (Z.eq_dec k0 k) as [EK|NK].
    + rewrite EK in *. clear EK. rewrite Z.eqb_refl in ST. pose proof (de_mkt _ _ _ _ _ _ _ DE) as HM0. assert (m0 = m) by congruence. subst m0. pose proof (de_mkt' _ _ _ _ _ _ _ DE) as HM1. assert (EM : m' = m) by congruence.
      destruct (close_ran e _ _ _ W HJ) as (k1 & x1 & w1 & dest1 & m1 & oo1 & oo1' & sm & KM1 & _ & _ & (LV & _) & _ & _ & _ & _ & ES). assert (x1 = x0) by congruence. subst x1.
      assert (DX : D (put_lamports (put_lamports s dest1 sm) x0 0) x0 = Some (DOO oo1)) by (rewrite !dexd_lam; exact LV).
      assert (V : forall y, y <> x0 -> D s' y = D s y) by (intros y NY; rewrite ES, (dexd_put_owned _ _ _ _ _ _ DX), !dexd_lam; destruct (Z.eqb_spec y x0); [contradiction|reflexivity]).
      pose proof (de_at _ _ _ _ _ _ _ DE _ _ eq_refl) as DA.
      assert (EV : a_evs A' = a_evs A) by (apply same_queue; apply V; exact (queue_there _ _ DA)).
      pose proof (quiet x0 EV) as U. specialize (U ltac:(intros y o N; rewrite V by exact N; reflexivity)).
      rewrite (part_none x0 L') in U by (intros o I; apply (sn_oos _ _ _ _ _ _ SN') in I; destruct I as (I & I2 & _); assert (o = oo') by congruence; subst o; rewrite CL in I2; discriminate).
      rewrite (part_at x0 oo L (sn_once _ _ _ _ _ _ SN)) in U by (apply (sn_oos _ _ _ _ _ _ SN); auto). unfold strands. rewrite ST, EM in *. lia.
    + eapply other_one; [rewrite ST; destruct (Z.eqb_spec k0 k); [contradiction|reflexivity]|exact DE| |exact NK]. intros a o [= <- <-]. split; [congruence|]. right. eauto.
  - cbn [process] in HJ. destruct (init_oo_deed e EO _ _ _ _ W HJ) as (k0 & x0 & w & m0 & oo & rest & KM & SG & _ & DE & LO & _). assert (Z0 : stranded e k m m' s i ms = 0) by (rewrite <- EI; reflexivity).
    assert (LX : D s x0 = Some DZero \/ exists o, D s x0 = Some (DOO o) /\ oo_market o = k0) by (destruct LO as [(L1 & _ & L3)|(L1 & _)]; eauto).
    destruct (Z.eq_dec k0 k) as [EK|NK].
    + subst k0. pose proof (de_mkt _ _ _ _ _ _ _ DE) as HM0. assert (m0 = m) by congruence. subst m0. pose proof (de_mkt' _ _ _ _ _ _ _ DE) as HM1. assert (EM : m' = m) by congruence. pose proof (de_at _ _ _ _ _ _ _ DE _ _ eq_refl) as DA.
      destruct (init_oo_ran e _ _ _ _ W HJ) as (k1 & x1 & w1 & m1 & auth & oo1 & rest1 & KM1 & _ & _ & _ & _ & _ & _ & ES). assert (x1 = x0) by congruence. subst x1.
      assert (DX : exists d, D s x0 = Some d) by (destruct LX as [LX|(o & LX & _)]; eauto). destruct DX as (d & DX).
      assert (V : forall y, y <> x0 -> D s' y = D s y) by (intros y NY; rewrite ES, (dexd_put_owned _ _ _ _ _ _ DX); destruct (Z.eqb_spec y x0); [contradiction|reflexivity]).
      assert (EV : a_evs A' = a_evs A) by (apply same_queue; apply V; exact (queue_there _ _ DA)).
      pose proof (quiet x0 EV) as U. specialize (U ltac:(intros y o N; rewrite V by exact N; reflexivity)). unfold strands. rewrite Z0, EM in *.
      assert (OF : oo_flags oo = OO_FLAGS /\ oo_market oo = k) by (destruct LO as [(_ & L2 & L3)|(_ & _ & ->)]; auto). destruct OF as [OF OM].
      rewrite (part_at x0 oo L' (sn_once _ _ _ _ _ _ SN')) in U by (apply (sn_oos _ _ _ _ _ _ SN'); auto).
      destruct LO as [(L1 & L2 & L3)|(L1 & _ & EF)].
      * rewrite (part_at x0 oo L (sn_once _ _ _ _ _ _ SN)) in U by (apply (sn_oos _ _ _ _ _ _ SN); auto). lia.
      * rewrite (part_none x0 L) in U by (intros o I; apply (sn_oos _ _ _ _ _ _ SN) in I; destruct I as (I & _); congruence). assert (OR : oo_rebates oo = 0) by (rewrite EF; reflexivity). lia.
    + eapply other_one; [exact Z0|exact DE| |exact NK]. intros a o [= <- <-]. split; [destruct LO as [(_ & _ & L3)|(_ & _ & ->)]; [exact L3|reflexivity]|exact LX].
  - eapply strand_prune; eauto.
  - pose proof HJ as H1. cbn [process] in HJ. eapply strand_cancel; [exact HJ|cbv beta; intros * HH; eapply cancel_cids_frame; exact HH|rewrite <- EI; reflexivity|]. intros K0.
    destruct (cancel_cids_effect e EO s k m A L WI SN P c _ ms s' H1 K0) as (y & oo & K3 & IN & SG & R). do 4 eexists. eauto.
  - apply (strand_replace [ix] HJ); [constructor; [exact (wf_order _ WJ)|constructor]|cbn; lia|rewrite <- EI; reflexivity].
  - destruct WJ as [LN F]. apply (strand_replace ixs HJ); [|lia|rewrite <- EI; reflexivity]. eapply Forall_impl; [|exact F]. intros a. apply wf_order.
Qed.
Lemma stranded_nonneg : 0 <= stranded e k m m' s i ms.
Proof.
  assert (TK : forall ix, i = ISendTake ix -> 0 <= stranded e k m m' s i ms).
  { intros ix EI. pose proof H as HJ. rewrite EI in HJ. pose proof WF as WJ. rewrite EI in WJ. unfold stranded. rewrite EI. destruct (key_at ms 0) as [k0|] eqn:K0; [|lia]. destruct (Z.eqb_spec k0 k) as [->|]; [|lia].
    destruct (take_effect e EO s k m A L WI SN P (guard_room e s 1 G ltac:(lia)) c ix ms s' HJ K0 (wf_take_ok _ WJ)) as (w1 & t & cw & pw & _ & _ & _ & _ & TD).
    destruct TD as (m2 & A2 & tr & q' & gs & id & TD). cbv zeta in TD. destruct TD as (_ & SN2 & _ & _ & _ & _ & _ & _ & _ & _ & MM). assert (EM : m2 = m') by (pose proof (sn_mkt _ _ _ _ _ _ SN2); congruence). rewrite EM in MM.
    match type of MM with context [zsum (tr_fifth ?pl ?tk) tr] => assert (N : 0 <= zsum (tr_fifth pl tk) tr) end.
    { apply zsum_nonneg. intros r _. unfold tr_fifth. apply Z.div_pos; [|lia]. unfold tr_fee. destruct (self _ r); [lia|apply taker_fee_nonneg]. }
    destruct (ti_side ix); [destruct MM as (_ & _ & _ & MM)|destruct MM as (_ & _ & MM)]; rewrite MM; cbn [m_rebates set_counters]; lia. }
  destruct i eqn:EI; try (cbn [stranded]; lia); [eapply TK; reflexivity|]. unfold stranded. destruct (key_at ms 3) as [k0|] eqn:K3; [|lia]. destruct (key_at ms 0) as [x|] eqn:K0; [|lia]. destruct (Z.eqb_spec k0 k) as [EK|]; [|lia]. subst k0.
  pose proof H as HJ. cbn [process] in HJ. destruct (close_deed e EO _ _ _ W HJ) as (k0 & x0 & w & dest & m0 & oo & oo' & KM & SG & DE & (L1 & L2 & L3) & _).
  rewrite (key_map _ _ _ KM) in K0. rewrite (key_map _ _ _ KM) in K3. cbn in K0, K3. injection K0 as <-. injection K3 as E3. rewrite L1.
  destruct (seen_state e s k m A L WI SN P) as (seq & o & MS). assert (IX : In (x0, oo) L) by (apply (sn_oos _ _ _ _ _ _ SN); repeat split; congruence).
  pose proof (ao_reb _ _ _ _ _ _ (ci_acct _ _ _ _ (ms_inv _ _ _ _ _ _ _ MS) _ _ IX)) as [? _]. lia.
Qed.
End Step.
Theorem strand_law s c i ms s' k m A L m' A' L' : history e s -> no_overflow e s -> sized s -> legal e ms -> wf_instr i -> process e c s i ms = Ok s' -> seen e s k m A L -> usable m -> seen e s' k m' A' L' ->
  unowed m' A' L' = unowed m A L + stranded e k m m' s i ms /\ 0 <= stranded e k m m' s i ms.
Proof.
  intros HI G SZ LG WF H SN P SN'. destruct (seen_after e EO _ _ _ _ _ _ _ _ _ HI G SZ LG WF H SN P) as (m2 & A2 & L2 & SN2 & SC). destruct (seen_same e _ _ _ _ _ _ _ _ SN2 SN') as (EM & _). subst m2.
  split; [exact (strand_step s s' c i ms k m A L HI G LG WF H SN P m' A' L' SN' SC)|exact (stranded_nonneg s s' c i ms k m A L HI G WF H SN P m' A' L' SN')].
Qed.
Lemma strand_story k s E s' : stretch e k s E s' -> history e s -> forall m A L, seen e s k m A L -> usable m ->
  history e s' /\ exists m' A' L', seen e s' k m' A' L' /\ same_config m m' /\ unowed m A L <= unowed m' A' L'.
Proof.
  intros ST HI m A L SN P. induction ST as [|E s1 c b ms E1 ST IH G SZ HB LG Q|E s1 s2 ST IH R].
  - split; [exact HI|]. exists m, A, L. split; [exact SN|]. split; [apply same_config_refl|lia].
  - destruct IH as (HI1 & m1 & A1 & L1 & SN1 & SC1 & U1). assert (P1 : usable m1) by (destruct SC1 as (? & ? & ? & ? & ? & ->); exact P). split; [apply reach_tx; assumption|].
    destruct (process_bytes e c s1 b ms) as [s2|?|] eqn:PB; [|unfold transact; rewrite PB; eauto 8..].
    pose proof PB as PB1. unfold process_bytes in PB1. apply rbind_ok in PB1. destruct PB1 as (i & U & H). destruct (unpack b) as [i0|] eqn:UB; cbn [ok_or] in U; [|discriminate]. injection U as ->.
    rewrite (did e b i c s1 s2 ms UB H) in *. destruct (unpack_pack _ _ HB UB) as [WF _].
    destruct (seen_after e EO _ _ _ _ _ _ _ _ _ HI1 G SZ LG WF H SN1 P1) as (m2 & A2 & L2 & SN2 & SC2).
    destruct (strand_law _ _ _ _ _ _ _ _ _ _ _ _ HI1 G SZ LG WF H SN1 P1 SN2) as [S1 S2].
    exists m2, A2, L2. split; [exact SN2|]. split; [eapply same_config_trans; eassumption|lia].
  - destruct IH as (HI1 & m1 & A1 & L1 & SN1 & SC1 & U1). assert (P1 : usable m1) by (destruct SC1 as (? & ? & ? & ? & ? & ->); exact P).
    split; [eapply reach_env; eassumption|]. destruct (env_seen e EO _ _ _ _ _ _ HI1 R SN1 P1) as (A2 & L2 & SN2 & EV & SAME). exists m1, A2, L2. split; [exact SN2|]. split; [exact SC1|].
    unfold unowed in *. rewrite EV, (total_same L1 L2); [exact U1|exact (sn_once _ _ _ _ _ _ SN1)|exact (sn_once _ _ _ _ _ _ SN2)|]. intros y o. symmetry. apply SAME.
Qed.
Theorem strand_stays k s E s' m A L m' A' L' : history e s -> stretch e k s E s' -> seen e s k m A L -> usable m -> seen e s' k m' A' L' ->
  0 <= unowed m A L <= unowed m' A' L' /\ holds s' (m_pc_vault m') (m_pc_deposits m' + m_pc_fees m' + (total oo_rebates L' + zsum ev_rebate (a_evs A')) + unowed m A L).
Proof.
  intros HI ST SN P SN'. destruct (strand_story k s E s' ST HI m A L SN P) as (HI' & m2 & A2 & L2 & SN2 & SC & U). assert (EM : m2 = m') by (pose proof (sn_mkt _ _ _ _ _ _ SN2); pose proof (sn_mkt _ _ _ _ _ _ SN'); congruence). subst m2.
  rewrite (unowed_fun _ _ _ _ _ _ _ _ SN' SN2) in U. assert (P' : usable m') by (destruct SC as (? & ? & ? & ? & ? & ->); exact P).
  destruct (pc_conserved e EO s k m A L HI SN P) as (_ & _ & [_ R0] & _). split; [unfold unowed in *; lia|].
  destruct (pc_conserved e EO s' k m' A' L' HI' SN' P') as (_ & _ & _ & (t & T1 & T2) & _). exists t. split; [exact T1|].
  assert (N : 0 <= (if m_coin_vault m' =? m_pc_vault m' then m_coin_deposits m' else 0)). { destruct (_ =? _); [|lia]. destruct (seen_state e s' k m' A' L' (reachable_inv e EO s' HI') SN' P') as (seq & o & MS). pose proof (ci_mkt _ _ _ _ (ms_inv _ _ _ _ _ _ _ MS)) as (U0 & _). rewrite (ms_mkt _ _ _ _ _ _ _ MS) in U0. unfold u64 in U0. destruct (coin_conserved e EO s' k m' A' L' HI' SN' P') as (_ & C & _). lia. }
  unfold unowed in U |- *. lia.
Qed.
Theorem strand_for_ever s c i ms s1 k m A L m1 A1 L1 E s2 m2 A2 L2 : history e s -> no_overflow e s -> sized s -> legal e ms -> forall b, is_bytes b -> unpack b = Some i -> process e c s i ms = Ok s1 -> seen e s k m A L -> usable m -> seen e s1 k m1 A1 L1 ->
  stretch e k s1 E s2 -> seen e s2 k m2 A2 L2 ->
  holds s2 (m_pc_vault m2) (m_pc_deposits m2 + m_pc_fees m2 + (total oo_rebates L2 + zsum ev_rebate (a_evs A2)) + stranded e k m m1 s i ms).
Proof.
  intros HI G SZ LG b HB UB H SN P SN1 ST SN2. destruct (unpack_pack _ _ HB UB) as [WF _]. destruct (strand_law _ _ _ _ _ _ _ _ _ _ _ _ HI G SZ LG WF H SN P SN1) as [S1 S2].
  assert (HI1 : history e s1) by (rewrite <- (did e b i c s s1 ms UB H); apply reach_tx; assumption).
  destruct (seen_after e EO _ _ _ _ _ _ _ _ _ HI G SZ LG WF H SN P) as (m3 & A3 & L3 & SN3 & SC). assert (EM : m3 = m1) by (pose proof (sn_mkt _ _ _ _ _ _ SN3); pose proof (sn_mkt _ _ _ _ _ _ SN1); congruence). subst m3.
  assert (P1 : usable m1) by (destruct SC as (? & ? & ? & ? & ? & ->); exact P). destruct (strand_stays k s1 E s2 _ _ _ _ _ _ HI1 ST SN1 P1 SN2) as [_ (t & T1 & T2)].
  destruct (pc_conserved e EO s k m A L HI SN P) as (_ & _ & [_ R0] & _). exists t. split; [exact T1|]. unfold unowed in *. lia.
Qed.
End Main.
