(** Taking back an order that met nothing undoes it (C81). *)
From Coq Require Import Permutation.
From Verif Require Import Base BaseProofs Fees ListSum Queue Codec Critbit CritbitProofs CritbitSlab Market Matching MatchSteps MatchSpec Ledger Slots Core CoreInv CoreNew Instr InstrProofs Store Process StoreProofs World WorldInv WorldMain WorldSpec WorldFacts
  WorldCancel WorldPay WorldTrade WorldSupply WorldRent LifeProofs PlaceSpec.

(** A round takes something from an order, so if all are still there as they were, there was none. *)
Lemma rounds_less k q bk tr q' bk' : rounds k q bk tr q' bk' -> forall y, In y bk' -> exists l, In l bk /\ l_key l = l_key y /\ l_qty y <= l_qty l.
Proof.
  induction 1 as [q bk|q bk b t tr q' bk' B W T U A1 A2 R IH]; intros y I; [exists y; repeat split; [exact I|lia]|].
  destruct (IH y I) as (l & L1 & L2 & L3). apply take_from_In in L1. destruct L1 as [[L1 _]|(x & X & E & N & ->)]; [exists l; auto|].
  assert (0 <= t) by lia. exists x. cbn [set_qty l_qty l_key] in *. repeat split; [exact X|exact L2|lia].
Qed.
Lemma rounds_none k q bk tr q' bk' : sorted bk -> rounds k q bk tr q' bk' -> (forall y, In y bk -> In y bk') -> tr = [] /\ q' = q /\ bk' = bk.
Proof.
  intros SO R H. destruct R as [q bk|q bk b t tr q' bk' B W T U A1 A2 R]; [auto|exfalso].
  destruct B as [IB _]. destruct (rounds_less _ _ _ _ _ _ R b (H b IB)) as (l & L1 & L2 & L3). apply take_from_In in L1. destruct L1 as [[_ L1]|(x & X & E & N & ->)]; [contradiction|].
  assert (x = b) as -> by (eapply sorted_uniq; [exact SO|exact X|exact IB|exact E]). cbn [set_qty l_qty] in L3. lia.
Qed.
Lemma del_ins l bk : (forall y, In y bk -> l_key y <> l_key l) -> ldel (l_key l) (lins l bk) = bk.
Proof.
  unfold ldel. induction bk as [|y r IH]; intros N; cbn [lins].
  - cbn [filter]. rewrite Z.eqb_refl. reflexivity.
  - pose proof (N y (or_introl eq_refl)) as NY. assert (R : filter (fun x => negb (l_key x =? l_key l)) r = r) by (apply ldel_none; intros z Z; apply N; right; exact Z).
    destruct (l_key l <? l_key y); [|replace (l_key l =? l_key y) with false by lia]; cbn [filter]; rewrite ?Z.eqb_refl; replace (l_key y =? l_key l) with false by lia; cbn [negb]; f_equal; [exact R|].
    apply IH. intros z Z. apply N. right. exact Z.
Qed.

Section Undo.
Variable e : env.
Hypothesis EO : env_ok e.
Notation D := (dexd e).
Theorem taking_back s k m A L : history e s -> no_overflow e s -> sized s -> seen e s k m A L -> usable m ->
  forall c ix ms s1, legal e ms -> wf_instr (INewOrderV3 ix) -> process e c s (INewOrderV3 ix) ms = Ok s1 -> key_at ms 0 = Some k ->
  forall m1 A1 L1 l, seen e s1 k m1 A1 L1 -> (forall sd y, In y (book_of A sd) -> In y (book_of A1 sd)) -> In l (book_of A1 (oi_side ix)) -> ~ In l (book_of A (oi_side ix)) ->
  forall c2 ms2 s2, process e c2 s1 (ICancelV2 (oi_side ix) (l_key l)) ms2 = Ok s2 -> key_at ms2 0 = Some k ->
  forall m2 A2 L2, seen e s2 k m2 A2 L2 ->
  exists x payer dep oo oo2, key_at ms 1 = Some x /\ key_at ms2 3 = Some x /\ key_at ms 6 = Some payer /\
    (In (x, oo) L \/ (D s x = Some DZero /\ blank_for k (oo_owner oo) oo)) /\
    dep = (match oi_side ix with Bid => Z.max 0 (oi_pc ix - oo_pc_free oo) | Ask => Z.max 0 (oi_qty ix * m_coin_lot m - oo_coin_free oo) end) /\
    moves s s2 [(payer, pays_into m (oi_side ix), dep)] /\
    (forall sd, book_of A2 sd = book_of A sd) /\
    (forall y oy, In (y, oy) L2 <-> (y = x /\ oy = oo2) \/ (y <> x /\ In (y, oy) L)) /\
    match oi_side ix with
    | Bid => changed_by oo oo2 0 0 dep dep 0 /\ m2 = set_counters m (m_coin_deposits m) (m_pc_deposits m + dep) (m_pc_fees m) (m_rebates m)
    | Ask => changed_by oo oo2 dep dep 0 0 0 /\ m2 = set_counters m (m_coin_deposits m + dep) (m_pc_deposits m) (m_pc_fees m) (m_rebates m)
    end.
Proof.
  intros HI G SZ SN P c ix ms s1 LG WF H K m1 A1 L1 l S1 KEEP IL NL c2 ms2 s2 H2 K2 m2 A2 L2 S2. pose proof (reachable_inv e EO s HI) as WI.
  pose proof (process_inv e EO c s _ ms s1 WI G SZ LG WF H) as WI1.
  destruct (order_effect e EO s k m A L WI SN P (guard_room e s 1 G ltac:(lia)) c ix ms s1 H K (wf_order _ WF)) as (x & w & t & payer & oo & X1 & _ & X6 & OW & _ & XO & OR).
  unfold orders in OR. destruct OR as (m1' & A1' & L1' & oo1 & tr & q' & n & E & slot & id & dep & OR). cbv zeta in OR. destruct OR as (LIM & (FR & _) & S1' & XL & EV & RP & (I1 & I2 & I3) & _ & _ & _ & BAL).
  destruct (seen_same e _ _ _ _ _ _ _ _ S1' S1) as (EM & EB & _).
  assert (SO : forall sd, sorted (book_of A sd)) by (destruct (seen_state e s k m A L WI SN P) as (seq & o & MS); exact (cinv_sorted _ _ _ _ (ms_inv _ _ _ _ _ _ _ MS))).
  assert (RP' : exists room, report (m_coin_lot m) (m_pc_lot m) (mkTaker (oi_side ix) id x slot t (oi_cid ix) (oi_st ix) false) (Z.to_nat (oi_limit ix)) (ot_post_only (oi_ot ix)) room (ot_post_allowed (oi_ot ix)) (oi_qty ix)
     (match oi_side ix with Bid => oi_pc ix | Ask => 0 end) (book_of A (other (oi_side ix))) (book_of A (oi_side ix)) (book_of A1 (other (oi_side ix))) (book_of A1 (oi_side ix)) E tr q' n).
  { rewrite !EB. destruct (oi_side ix); [destruct (sn_bids _ _ _ _ _ _ SN) as (sl & HS & _)|destruct (sn_asks _ _ _ _ _ _ SN) as (sl & HS & _)]; eexists; exact (RP _ HS). }
  destruct RP' as (room & [R1 _ _ (gs & Eend & _ & _ & FIN) _]). destruct (rounds_none _ _ _ _ _ _ (SO _) R1 (KEEP _)) as (-> & -> & EO1).
  cbn [zsum] in BAL, FIN.
  assert (FN : l = mkLeaf slot (tier_to_u8 t) id x n (oi_cid ix) /\ book_of A1 (oi_side ix) = lins l (book_of A (oi_side ix))).
  { remember (book_of A1 (oi_side ix)) as own'. destruct FIN as [E0 _ _|l0 E0 _ _ _ _ EL _|l0 w0 E0 _ _ _ _ EL WO _].
    - contradiction.
    - cbn [tk_slot tk_tier tk_id tk_owner tk_cid] in EL. apply lins_In in IL. destruct IL as [->|IL]; [|contradiction]. split; [exact EL|reflexivity].
    - exfalso. destruct WO as [WO _]. pose proof (KEEP (oi_side ix) w0 WO) as IW. rewrite <- Heqown' in IW. apply lins_In in IW. destruct IW as [IW|IW]; [|apply ldel_In in IW; destruct IW; congruence].
      cbn [tk_slot tk_tier tk_id tk_owner tk_cid] in EL. apply (FR w0 WO). rewrite IW, EL. reflexivity. }
  destruct FN as [EL EOWN].
  assert (P1 : usable m1) by (destruct (oi_side ix); [destruct BAL as (_ & _ & _ & _ & MB)|destruct BAL as (_ & _ & _ & _ & MB)]; rewrite EM, MB; exact P).
  destruct (cancel_v2_effect e EO s1 k m1 A1 L1 WI1 S1 P1 c2 _ _ _ _ H2 K2) as (x2 & ooc & l2 & Y3 & YI & _ & YL & YK & YO & A2' & oo2 & WD & S2' & ON).
  assert (SO1 : sorted (book_of A1 (oi_side ix))) by (rewrite EOWN; apply lins_sorted; apply SO).
  assert (l2 = l) as -> by (eapply sorted_uniq; eassumption).
  assert (x2 = x) as -> by (rewrite <- YO, EL; reflexivity).
  assert (ooc = oo1) as ->.
  { apply (sn_oos _ _ _ _ _ _ S1) in YI. assert (Z1 : In (x, oo1) L1') by (apply XL; auto). apply (sn_oos _ _ _ _ _ _ S1') in Z1. destruct YI as [YI _], Z1 as [Z1 _]. congruence. }
  destruct (seen_same e _ _ _ _ _ _ _ _ S2' S2) as (EM2 & EB2 & _).
  exists x, payer, dep, oo, oo2. split; [exact X1|]. split; [exact Y3|]. split; [exact X6|]. split; [destruct XO as [XO|(XO & _ & XB)]; [auto|right; rewrite OW; auto]|].
  split; [destruct (oi_side ix); apply BAL|]. split.
  { assert (TK : forall v, token_at s2 v = token_at s1 v).
    { intros v. pose proof (sizes_kept e _ _ _ _ _ H2 v) as (_ & PP & _).
      destruct (in_dec Z.eq_dec v [m_bids m1; m_asks m1; m_event_q m1; x]) as [I|I]; [|unfold token_at; rewrite (ON v I); reflexivity].
      assert (exists d, D s1 v = Some d) as (d & DV).
      { destruct I as [<-|[<-|[<-|[<-|[]]]]]; [destruct (sn_bids _ _ _ _ _ _ S1) as (? & ? & _)|destruct (sn_asks _ _ _ _ _ _ S1) as (? & ? & _)|destruct (sn_evs _ _ _ _ _ _ S1) as (? & ? & _)|apply (sn_oos _ _ _ _ _ _ S1) in YI; destruct YI]; eauto. }
      apply dexd_owned in DV. destruct DV as [DV _]. unfold token_at. rewrite PP, DV. pose proof (eo_spl e EO). destruct (Z.eqb_spec (e_prog e) spl_id); [contradiction|reflexivity]. }
    assert (MV : moves s s1 [(payer, pays_into m (oi_side ix), dep)]) by (unfold pays_into; destruct (oi_side ix); apply BAL).
    intros v. specialize (MV v). rewrite TK. exact MV. }
  split.
  { intros sd. rewrite EB2. pose proof (wd_bids _ _ _ _ _ _ _ _ WD) as WB. pose proof (wd_asks _ _ _ _ _ _ _ _ WD) as WA.
    assert (EW : book_of A2' (oi_side ix) = ldel (l_key l) (book_of A1 (oi_side ix)) /\ book_of A2' (other (oi_side ix)) = book_of A1 (other (oi_side ix))).
    { destruct (oi_side ix); cbn [book_of other] in *; rewrite WB, WA, drop_nil, drop_one; auto. }
    destruct EW as [EW1 EW2]. rewrite EOWN, del_ins in EW1 by (intros y Y; rewrite EL; apply FR; exact Y). rewrite EO1 in EW2. destruct sd, (oi_side ix); cbn [other] in *; assumption. }
  split.
  { intros y oy. rewrite (sn_oos _ _ _ _ _ _ S2). rewrite <- (sn_oos _ _ _ _ _ _ S2'). unfold put_acct. rewrite in_map_iff. split.
    - intros ([y0 o0] & EQ & IN). cbn [fst] in EQ. destruct (Z.eqb_spec y0 x) as [->|NE]; injection EQ as <- <-; [auto|right]. split; [exact NE|].
      apply (sn_oos _ _ _ _ _ _ S1) in IN. apply (sn_oos _ _ _ _ _ _ S1') in IN. apply XL in IN. destruct IN as [[? _]|[_ IN]]; [contradiction|exact IN].
    - intros [[-> ->]|[NE IN]].
      + exists (x, oo1). cbn [fst]. rewrite Z.eqb_refl. auto.
      + exists (y, oy). cbn [fst]. replace (y =? x) with false by lia. split; [reflexivity|]. apply (sn_oos _ _ _ _ _ _ S1). apply (sn_oos _ _ _ _ _ _ S1'). apply XL. auto. }
  assert (LP : l_price l = oi_price ix) by (rewrite EL; exact LIM). assert (LQ : l_qty l = n) by (rewrite EL; reflexivity).
  pose proof (wd_bal _ _ _ _ _ _ _ _ WD) as WB. rewrite EM2.
  assert (CL : m_coin_lot m1 = m_coin_lot m /\ m_pc_lot m1 = m_pc_lot m) by (destruct (oi_side ix); destruct BAL as (_ & _ & _ & _ & MB); rewrite EM, MB; split; reflexivity). destruct CL as [CL1 CL2].
  destruct (oi_side ix); destruct BAL as (DE & _ & CH & _ & MB); cbn [zsum worth] in WB; rewrite ?LP, ?LQ, ?CL1, ?CL2 in WB; unfold changed_by in *.
  - split; [lia|]. rewrite EM, MB. f_equal; lia.
  - split; [lia|]. rewrite EM, MB. f_equal; lia.
Qed.
End Undo.
