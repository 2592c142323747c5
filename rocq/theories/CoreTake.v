(** A SendTake with room in the event queue is accepted, unless it gets less than it asks for. *)
From Verif Require Import Base BaseProofs Fees FeesSpec FeesProofs Critbit CritbitProofs CritbitSlab CritbitOps
  CritbitSpec CritbitRefine ListSum Queue QueueSpec QueueProofs Codec Market Matching MatchSteps MatchRefine
  MatchAsk MatchBid MatchRun Ledger LedgerSteps LedgerSums MatchRoom MatchSpec LedgerRun MatchReport MatchOrder MatchFacts
  Slots Core CoreInv CoreOrder CoreNew PlaceSpec TakeSpec CorePlace.

Lemma nobody_in_reach o seq L A sd lim : cinv o seq L A -> own_in_reach (book_of A (other sd)) sd lim 0 = false.
Proof.
  intros C. unfold own_in_reach. destruct (existsb _ _) eqn:E; [|reflexivity]. exfalso. apply existsb_exists in E. destruct E as (l & Hl & H).
  apply (cinv_leaf_nz _ _ _ _ C (other sd) l Hl). lia.
Qed.

Theorem send_take_accepted o seq L A t sd price qty pc limit : cinv o seq L A ->
  0 < price < B64 -> 0 < qty < B64 -> 0 < pc < B64 -> 0 <= limit < 65536 ->
  let m := ob_mkt o in may_spend sd qty pc (m_coin_lot m) < B64 ->
  zlen (a_evs A) + events_needed (book_of A (other sd)) sd price 0 AbortTransaction limit <= zlen (q_buf (ob_eq o)) ->
  exists o' dep got, 0 <= dep <= may_spend sd qty pc (m_coin_lot m) /\ 0 <= got /\
    0 <= paid_out sd got (m_coin_lot m) <= held m sd /\
    forall mc mp, send_take_core o (0, seq) t (mkTakeIx sd price qty pc mc mp limit) =
      if minimum sd mc mp <=? got then Ok (o', (0, wadd seq 1), dep, paid_out sd got (m_coin_lot m)) else Err EMinAmountNotMet.
Proof.
  intros C HP HQ HC HL m SP RM. pose proof (ci_seq _ _ _ _ C) as SEQ.
  pose proof (ci_mkt _ _ _ _ C) as MU. pose proof MU as (MU1 & MU2 & MU3). pose proof (ci_coin_dep _ _ _ _ C) as MU4. unfold u64 in MU1, MU2, MU3, MU4.
  pose proof (ci_cl _ _ _ _ C) as CLP. pose proof (ci_pl _ _ _ _ C) as PLP. fold m in CLP, PLP.
  set (id := price * B64 + seq_part sd seq). set (pcl := match sd with Bid => pc | Ask => 0 end).
  assert (SPT : 0 <= seq_part sd seq < B64) by (unfold seq_part; destruct sd; lia).
  assert (IDP : id / B64 = price) by (unfold id; rewrite (Z.div_add_l price B64) by lia; rewrite (Z.div_small _ B64) by lia; lia).
  assert (RD : ready o A sd ImmediateOrCancel id 0 qty pcl AbortTransaction).
  { replace o with (set_mkt o (ob_mkt o)) by (destruct o; reflexivity).
    eapply order_ready; try eassumption; try lia; auto.
    - intros E. unfold pcl. rewrite E. split; [reflexivity|lia].
    - intros E. unfold pcl. rewrite E. assumption.
    - apply same_market_refl. }
  destruct (matched o A sd ImmediateOrCancel id 0 0 t qty pcl 0 AbortTransaction (Z.to_nat limit) (ci_rep _ _ _ _ C) RD) as ([[o1 pr] rem] & HN).
  { intros _. eapply nobody_in_reach. exact C. }
  { rewrite IDP, Z2Nat.id by lia. exact RM. }
  pose proof (new_order_result o A _ _ _ _ 0 t _ _ 0 _ (Z.to_nat limit) (ci_rep _ _ _ _ C) RD) as NR. rewrite HN in NR. cbn [outcome] in NR.
  destruct NR as (_ & NR & NB & DB & _).
  assert (SB : spent o sd pr < B64).
  { destruct sd; [apply NB; auto|]. unfold spent. fold m. unfold may_spend in SP. nia. }
  destruct (NR SB) as (A' & tr & q' & n & E & F & R & OR1). clear NR NB.
  pose proof (or_mkt _ _ _ _ _ _ _ _ _ _ _ _ _ _ _ _ _ _ _ _ _ _ OR1) as MK. fold m in MK.
  assert (LOT1 : m_coin_lot (ob_mkt o1) = m_coin_lot m) by (rewrite MK; reflexivity).
  assert (M0 : m_coin_deposits (ob_mkt o1) = m_coin_deposits m) by (rewrite MK; reflexivity).
  assert (M1 : m_pc_deposits (ob_mkt o1) = w64 (m_pc_deposits m - F)) by (rewrite MK; reflexivity).
  pose proof (or_all _ _ _ _ _ _ _ _ _ _ _ _ _ _ _ _ _ _ _ _ _ _ OR1) as ALL.
  pose proof (or_amounts _ _ _ _ _ _ _ _ _ _ _ _ _ _ _ _ _ _ _ _ _ _ OR1) as AM.
  pose proof (rp_rounds _ _ _ _ _ _ _ _ _ _ _ _ _ _ _ _ _ (or_report _ _ _ _ _ _ _ _ _ _ _ _ _ _ _ _ _ _ _ _ _ _ OR1)) as RR.
  pose proof (cinv_sorted _ _ _ _ C) as SO.
  pose proof (cinv_bids_value _ _ _ _ C) as BV. pose proof (cinv_asks_value _ _ _ _ C) as AV. fold m in BV, AV.
  assert (FN1 : 0 <= zsum (fun x : Z * open_orders => oo_pc_free (snd x)) L).
  { apply zsum_nonneg. intros [k' oo'] H'. pose proof (ao_pc _ _ _ _ _ _ (ci_acct _ _ _ _ C _ _ H')). cbn [snd]. lia. }
  assert (FN2 : 0 <= zsum (fun x : Z * open_orders => oo_coin_free (snd x)) L).
  { apply zsum_nonneg. intros [k' oo'] H'. pose proof (ao_coin _ _ _ _ _ _ (ci_acct _ _ _ _ C _ _ H')). cbn [snd]. lia. }
  assert (G : gen_order_id seq price sd = (id, wadd seq 1)) by (apply gen_order_id_spec; unfold u64; lia).
  destruct sd; cbn [other book_of may_spend paid_out minimum held] in *.
  - destruct ALL as [_ _ SU _ _]. fold m in SU. destruct SU as [u1 u2 u3 u4 u5 (u6a & u6b & u6c) u7 u8].
    cbn [pr_zero p_coin_unlocked p_pc_unlocked p_coin_credit p_pc_credit p_coin_debit p_pc_debit] in u6a, u6b, u6c, u7, u8.
    pose proof (bm_credit _ _ _ _ _ _ _ _ _ AM) as CR. cbn [pr_zero p_coin_credit] in CR. rewrite Z.add_0_l in CR.
    pose proof (rounds_coin _ (m_coin_lot m) _ _ _ _ _ CLP (fun b Hb => asks_nonneg _ _ _ (ci_fit _ _ _ _ C) CLP b Hb) (SO Ask) RR) as RC.
    assert (RC' : p_coin_credit pr * m_coin_lot m <= zsum (coin_of (m_coin_lot m)) (a_asks A)) by (rewrite CR; exact RC).
    assert (G0 : 0 <= p_coin_credit pr * m_coin_lot m) by (apply Z.mul_nonneg_nonneg; lia).
    eexists. exists (p_pc_debit pr), (p_coin_credit pr). split; [unfold pcl in u8; lia|]. split; [lia|]. split; [unfold m in *; lia|].
    intros mc mp. unfold send_take_core. cbn [fst snd ti_price ti_side ti_qty ti_pc ti_min_coin ti_min_pc ti_limit]. rewrite G.
    change system_id with 0. change pcl with pc in HN. rewrite HN. cbn [rbind]. cbv zeta. rewrite LOT1, M0.
    destruct (mc <=? p_coin_credit pr); cbn [check rbind]; [|reflexivity]. unfold cmul.
    replace (p_coin_credit pr * m_coin_lot m <? B64) with true by (unfold m in *; lia). cbn [rbind].
    replace (p_coin_credit pr * m_coin_lot m <=? m_coin_deposits m) with true by (unfold m in *; lia). cbn [check rbind]. reflexivity.
  - destruct ALL as [_ _ SU _ _]. fold m in SU. destruct SU as [u1 u2 u3 u4 u5 (u6a & u6b & u6c) u7 u8].
    cbn [pr_zero p_coin_unlocked p_pc_unlocked p_coin_credit p_pc_credit p_coin_debit p_pc_debit] in u6a, u6b, u6c, u7, u8.
    pose proof (am_credit _ _ _ _ _ _ _ _ _ AM) as CR. cbn [pr_zero p_pc_credit] in CR. rewrite Z.add_0_l in CR. fold m in CR.
    assert (NP : forall b, In b (a_bids A) -> 0 <= l_price b).
    { intros b Hb. destruct (f_bids _ _ _ (ci_fit _ _ _ _ C) b Hb) as (X1 & X2 & X3). lia. }
    pose proof (rounds_value _ (m_pc_lot m) _ _ _ _ _ PLP (fun b Hb => bids_nonneg _ _ _ (ci_fit _ _ _ _ C) PLP b Hb) NP (SO Bid) RR) as RC.
    assert (RC' : p_pc_credit pr + F <= zsum (pc_of (m_pc_lot m)) (a_bids A)).
    { rewrite CR. change (tk_of (params ImmediateOrCancel id 0 0 t 0 AbortTransaction) Ask) with (the_taker Ask id 0 0 t 0 AbortTransaction). lia. }
    assert (LE : 0 <= p_coin_debit pr * m_coin_lot m <= qty * m_coin_lot m) by nia.
    eexists. exists (p_coin_debit pr * m_coin_lot m), (p_pc_credit pr). split; [exact LE|]. split; [lia|]. split; [unfold m in *; lia|].
    intros mc mp. unfold send_take_core. cbn [fst snd ti_price ti_side ti_qty ti_pc ti_min_coin ti_min_pc ti_limit]. rewrite G.
    change system_id with 0. change pcl with 0 in HN. rewrite HN. cbn [rbind]. cbv zeta. rewrite LOT1, M1.
    destruct (mp <=? p_pc_credit pr); cbn [check rbind]; [|reflexivity]. unfold cmul.
    replace (p_coin_debit pr * m_coin_lot m <? B64) with true by lia. cbn [rbind].
    rewrite (w64_small (m_pc_deposits m - F)) by (unfold m in *; lia).
    replace (p_pc_credit pr <=? m_pc_deposits m - F) with true by (unfold m in *; lia). cbn [check rbind]. reflexivity.
Qed.
