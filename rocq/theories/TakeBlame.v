(** A SendTake on one market: accepted, or the reason it is refused. *)
From Verif Require Import Base BaseProofs Fees FeesSpec FeesProofs Critbit CritbitProofs CritbitSlab CritbitOps
  CritbitSpec CritbitRefine ListSum Queue QueueSpec QueueProofs Codec Market Matching MatchSteps MatchRefine
  MatchAsk MatchBid MatchRun Ledger LedgerSteps LedgerSums MatchRoom MatchSpec LedgerRun MatchReport MatchOrder MatchFacts
  Slots Core CoreInv CoreOrder CoreNew WorldSpec PlaceSpec TakeSpec TakeErrorSpec CorePlace CoreTake MatchBlame MatchTwin MatchFull.

Definition take_ix_ok (ix : take_ix) : Prop :=
  0 < ti_price ix < B64 /\ 0 < ti_qty ix < B64 /\ 0 < ti_pc ix < B64 /\ 0 <= ti_limit ix < 65536.

Lemma nothing_posted cl pl k limit po room q L opp own opp' own' E tr q' n :
  report cl pl k limit po room false q L opp own opp' own' E tr q' n -> own' = own.
Proof. intros [_ _ _ (gs & Ee & _ & _ & FI) _]. inversion FI; [reflexivity|discriminate|discriminate]. Qed.

Theorem send_take_judged o seq L A t ix : cinv o seq L A -> take_ix_ok ix ->
  let sd := ti_side ix in let m := ob_mkt o in let k := taking ix t seq in may_spend sd (ti_qty ix) (ti_pc ix) (m_coin_lot m) < B64 ->
  (send_take_core o (0, seq) t ix = Err EEventQueueFull /\
     zlen (q_buf (ob_eq o)) < zlen (a_evs A) + events_needed (book_of A (other sd)) sd (ti_price ix) 0 AbortTransaction (ti_limit ix) /\
     (zlen (q_buf (ob_eq o)) < 4611686018427387904 -> exists tr E, would_trade m A ix t seq tr E /\ zlen (q_buf (ob_eq o)) < zlen (a_evs A) + zlen E)) \/
  (exists o' tr E, would_trade m A ix t seq tr E /\ 0 <= costs m k tr /\ 0 <= paid_out sd (brings m k tr) (m_coin_lot m) <= held m sd /\
     send_take_core o (0, seq) t ix =
       if minimum sd (ti_min_coin ix) (ti_min_pc ix) <=? brings m k tr
       then Ok (o', (0, wadd seq 1), costs m k tr, paid_out sd (brings m k tr) (m_coin_lot m)) else Err EMinAmountNotMet).
Proof.
  intros C IXO. cbv zeta. destruct ix as [sd price qty pc mc mp limit]. destruct IXO as (HP & HQ & HC & HL).
  cbn [ti_side ti_price ti_qty ti_pc ti_min_coin ti_min_pc ti_limit] in *.
  set (m := ob_mkt o). set (k := taking (mkTakeIx sd price qty pc mc mp limit) t seq). intros SP. pose proof (ci_seq _ _ _ _ C) as SEQ.
  pose proof (ci_mkt _ _ _ _ C) as MU. pose proof MU as (MU1 & MU2 & MU3). pose proof (ci_coin_dep _ _ _ _ C) as MU4. unfold u64 in MU1, MU2, MU3, MU4.
  pose proof (ci_cl _ _ _ _ C) as CLP. pose proof (ci_pl _ _ _ _ C) as PLP. fold m in CLP, PLP.
  set (id := price * B64 + seq_part sd seq). set (pcl := match sd with Bid => pc | Ask => 0 end).
  assert (IDN : numbered sd price seq = id) by (unfold numbered, id, seq_part; destruct sd; reflexivity).
  assert (SPT : 0 <= seq_part sd seq < B64) by (unfold seq_part; destruct sd; lia).
  assert (IDP : id / B64 = price) by (unfold id; rewrite (Z.div_add_l price B64) by lia; rewrite (Z.div_small _ B64) by lia; lia).
  assert (RD : ready o A sd ImmediateOrCancel id 0 qty pcl AbortTransaction).
  { replace o with (set_mkt o (ob_mkt o)) by (destruct o; reflexivity).
    eapply order_ready; try eassumption; try lia; auto.
    - intros E. unfold pcl. rewrite E. split; [reflexivity|lia].
    - intros E. unfold pcl. rewrite E. assumption.
    - apply same_market_refl. }
  assert (LIM : Z.of_nat (Z.to_nat limit) = limit) by (apply Z2Nat.id; lia).
  assert (NOBODY : forall a b c d, ~ meets_own (book_of A (other sd)) sd a 0 b c d limit).
  { intros a b c d (l & Hl & H & _). exact (cinv_leaf_nz _ _ _ _ C (other sd) l Hl H). }
  assert (EK : k = the_taker sd id 0 0 t 0 AbortTransaction) by (unfold k, taking, the_taker; cbn [ti_side ti_price]; rewrite IDN; reflexivity).
  assert (G : gen_order_id seq price sd = (id, wadd seq 1)) by (apply gen_order_id_spec; unfold u64; lia).
  assert (CORE : send_take_core o (0, seq) t (mkTakeIx sd price qty pc mc mp limit) =
    ('(o1, pr, _) <- new_order o sd ImmediateOrCancel id 0 0 t qty pcl 0 AbortTransaction (Z.to_nat limit) ;;
     _ <- check (match sd with Bid => mc <=? p_coin_credit pr | Ask => mp <=? p_pc_credit pr end) EMinAmountNotMet ;;
     match sd with
     | Bid => withdraw <- cmul (p_coin_credit pr) (m_coin_lot (ob_mkt o1)) ;; _ <- check (withdraw <=? m_coin_deposits (ob_mkt o1)) EAssert ;;
         Ok (set_mkt o1 (set_counters (ob_mkt o1) (m_coin_deposits (ob_mkt o1) - withdraw) (wadd (m_pc_deposits (ob_mkt o1)) (p_pc_debit pr)) (m_pc_fees (ob_mkt o1)) (m_rebates (ob_mkt o1))), (0, wadd seq 1), p_pc_debit pr, withdraw)
     | Ask => deposit <- cmul (p_coin_debit pr) (m_coin_lot (ob_mkt o1)) ;; _ <- check (p_pc_credit pr <=? m_pc_deposits (ob_mkt o1)) EAssert ;;
         Ok (set_mkt o1 (set_counters (ob_mkt o1) (wadd (m_coin_deposits (ob_mkt o1)) deposit) (m_pc_deposits (ob_mkt o1) - p_pc_credit pr) (m_pc_fees (ob_mkt o1)) (m_rebates (ob_mkt o1))), (0, wadd seq 1), deposit, p_pc_credit pr)
     end)).
  { unfold send_take_core. cbn [fst snd ti_price ti_side ti_qty ti_pc ti_min_coin ti_min_pc ti_limit]. rewrite G. reflexivity. }
  rewrite CORE. clear CORE.
  destruct (new_order o sd ImmediateOrCancel id 0 0 t qty pcl 0 AbortTransaction (Z.to_nat limit)) as [[[o1 pr] rem]|er|] eqn:HN.
  2: { left. cbn [rbind]. destruct (order_blame o A _ _ _ _ _ _ _ _ _ _ _ er (ci_rep _ _ _ _ C) RD HN) as [(_ & _ & _ & X)|(-> & X)].
    { exfalso. rewrite LIM in X. exact (NOBODY _ _ _ _ X). }
    split; [reflexivity|]. rewrite IDP, LIM in X. split; [exact X|]. intros CAP.
    destruct (order_full o A sd ImmediateOrCancel id 0 0 t qty pcl 0 AbortTransaction (Z.to_nat limit) (ci_rep _ _ _ _ C) RD) as [(_ & _ & Y)|(opp' & own' & E & tr & q' & n & Y1 & Y2)]; [right; intros E; rewrite E in SP; exact SP|lia|exact HN| |].
    { exfalso. rewrite LIM in Y. exact (NOBODY _ _ _ _ Y). }
    exists tr, E. split; [|exact Y2]. exists opp', q', n, (room o A sd). cbv zeta. cbn [ti_side ti_limit ti_qty ti_pc]. fold k. rewrite EK. fold pcl.
    pose proof (nothing_posted _ _ _ _ _ _ _ _ _ _ _ _ _ _ _ _ Y1) as EW. rewrite EW in Y1. exact Y1. }
  2: { exfalso. exact (order_calm _ _ _ _ _ _ _ _ _ _ _ _ _ (ci_rep _ _ _ _ C) RD HN). }
  right. cbn [rbind].
  pose proof (new_order_result o A _ _ _ _ 0 t _ _ 0 _ (Z.to_nat limit) (ci_rep _ _ _ _ C) RD) as NR. rewrite HN in NR. cbn [outcome] in NR.
  destruct NR as (_ & NR & NB & DB & _).
  assert (SB : spent o sd pr < B64).
  { destruct sd; [apply NB; auto|]. unfold spent. fold m. unfold may_spend in SP. nia. }
  destruct (NR SB) as (A' & tr & q' & n & E & F & R & OR1). clear NR NB.
  pose proof (or_mkt _ _ _ _ _ _ _ _ _ _ _ _ _ _ _ _ _ _ _ _ _ _ OR1) as MK. fold m in MK.
  assert (LOT1 : m_coin_lot (ob_mkt o1) = m_coin_lot m) by (rewrite MK; reflexivity).
  assert (M0 : m_coin_deposits (ob_mkt o1) = m_coin_deposits m) by (rewrite MK; reflexivity).
  assert (M1 : m_pc_deposits (ob_mkt o1) = w64 (m_pc_deposits m - F)) by (rewrite MK; reflexivity).
  pose proof (or_all _ _ _ _ _ _ _ _ _ _ _ _ _ _ _ _ _ _ _ _ _ _ OR1) as ALL.
  pose proof (or_amounts _ _ _ _ _ _ _ _ _ _ _ _ _ _ _ _ _ _ _ _ _ _ OR1) as AM.
  pose proof (or_report _ _ _ _ _ _ _ _ _ _ _ _ _ _ _ _ _ _ _ _ _ _ OR1) as RP.
  pose proof (rp_rounds _ _ _ _ _ _ _ _ _ _ _ _ _ _ _ _ _ RP) as RR.
  assert (WT : would_trade m A (mkTakeIx sd price qty pc mc mp limit) t seq tr E).
  { exists (book_of A' (other sd)), q', n, (room o A sd). cbv zeta. cbn [ti_side ti_limit ti_qty ti_pc]. fold k. rewrite EK. fold pcl.
    pose proof (nothing_posted _ _ _ _ _ _ _ _ _ _ _ _ _ _ _ _ RP) as EW. rewrite EW in RP. exact RP. }
  rewrite <- EK in RR.
  pose proof (cinv_sorted _ _ _ _ C) as SO.
  pose proof (cinv_bids_value _ _ _ _ C) as BV. pose proof (cinv_asks_value _ _ _ _ C) as AV. fold m in BV, AV.
  assert (FN1 : 0 <= zsum (fun x : Z * open_orders => oo_pc_free (snd x)) L).
  { apply zsum_nonneg. intros [k' oo'] H'. pose proof (ao_pc _ _ _ _ _ _ (ci_acct _ _ _ _ C _ _ H')). cbn [snd]. lia. }
  assert (FN2 : 0 <= zsum (fun x : Z * open_orders => oo_coin_free (snd x)) L).
  { apply zsum_nonneg. intros [k' oo'] H'. pose proof (ao_coin _ _ _ _ _ _ (ci_acct _ _ _ _ C _ _ H')). cbn [snd]. lia. }
  destruct sd; cbn [other book_of may_spend paid_out minimum held] in *.
  - destruct ALL as [_ _ SU _ _]. fold m in SU. destruct SU as [u1 u2 u3 u4 u5 (u6a & u6b & u6c) u7 u8].
    cbn [pr_zero p_coin_unlocked p_pc_unlocked p_coin_credit p_pc_credit p_coin_debit p_pc_debit] in u6a, u6b, u6c, u7, u8.
    pose proof (bm_credit _ _ _ _ _ _ _ _ _ AM) as CR. cbn [pr_zero p_coin_credit] in CR. rewrite Z.add_0_l in CR.
    pose proof (bm_debit _ _ _ _ _ _ _ _ _ AM) as DE. cbn [pr_zero p_pc_debit] in DE. rewrite Z.add_0_l, (bm_fee _ _ _ _ _ _ _ _ _ AM) in DE. fold m in DE.
    change (tk_of (params ImmediateOrCancel id 0 0 t 0 AbortTransaction) Bid) with (the_taker Bid id 0 0 t 0 AbortTransaction) in CR, DE. rewrite <- EK in CR, DE.
    pose proof (rounds_coin _ (m_coin_lot m) _ _ _ _ _ CLP (fun b Hb => asks_nonneg _ _ _ (ci_fit _ _ _ _ C) CLP b Hb) (SO Ask) RR) as RC.
    assert (RC' : p_coin_credit pr * m_coin_lot m <= zsum (coin_of (m_coin_lot m)) (a_asks A)) by (rewrite CR; exact RC).
    assert (G0 : 0 <= p_coin_credit pr * m_coin_lot m) by (apply Z.mul_nonneg_nonneg; lia).
    eexists. exists tr, E. split; [exact WT|]. unfold costs, brings. change (tk_side k) with Bid. cbv iota. rewrite <- DE, <- CR.
    split; [lia|]. split; [unfold m in *; lia|].
    rewrite LOT1, M0. destruct (mc <=? p_coin_credit pr); cbn [check rbind]; [|reflexivity]. unfold cmul.
    replace (p_coin_credit pr * m_coin_lot m <? B64) with true by (unfold m in *; lia). cbn [rbind].
    replace (p_coin_credit pr * m_coin_lot m <=? m_coin_deposits m) with true by (unfold m in *; lia). cbn [check rbind]. reflexivity.
  - destruct ALL as [_ _ SU _ _]. fold m in SU. destruct SU as [u1 u2 u3 u4 u5 (u6a & u6b & u6c) u7 u8].
    cbn [pr_zero p_coin_unlocked p_pc_unlocked p_coin_credit p_pc_credit p_coin_debit p_pc_debit] in u6a, u6b, u6c, u7, u8.
    pose proof (am_credit _ _ _ _ _ _ _ _ _ AM) as CR. cbn [pr_zero p_pc_credit] in CR. rewrite Z.add_0_l in CR. fold m in CR.
    pose proof (am_debit _ _ _ _ _ _ _ _ _ AM) as DE. cbn [pr_zero p_coin_debit] in DE. rewrite Z.add_0_l in DE. pose proof (am_fee _ _ _ _ _ _ _ _ _ AM) as FE. fold m in FE.
    change (tk_of (params ImmediateOrCancel id 0 0 t 0 AbortTransaction) Ask) with (the_taker Ask id 0 0 t 0 AbortTransaction) in CR, DE, FE. rewrite <- EK in CR, DE, FE.
    assert (NP : forall b, In b (a_bids A) -> 0 <= l_price b).
    { intros b Hb. destruct (f_bids _ _ _ (ci_fit _ _ _ _ C) b Hb) as (X1 & X2 & X3). lia. }
    pose proof (rounds_value _ (m_pc_lot m) _ _ _ _ _ PLP (fun b Hb => bids_nonneg _ _ _ (ci_fit _ _ _ _ C) PLP b Hb) NP (SO Bid) RR) as RC.
    assert (RC' : p_pc_credit pr + F <= zsum (pc_of (m_pc_lot m)) (a_bids A)) by (rewrite CR; lia).
    assert (LE : 0 <= p_coin_debit pr * m_coin_lot m <= qty * m_coin_lot m) by nia.
    eexists. exists tr, E. split; [exact WT|]. unfold costs, brings. change (tk_side k) with Ask. cbv iota. rewrite <- FE, <- CR, <- DE.
    split; [lia|]. split; [unfold m in *; lia|].
    rewrite LOT1, M1. destruct (mp <=? p_pc_credit pr); cbn [check rbind]; [|reflexivity]. unfold cmul.
    replace (p_coin_debit pr * m_coin_lot m <? B64) with true by lia. cbn [rbind].
    rewrite (w64_small (m_pc_deposits m - F)) by (unfold m in *; lia).
    replace (p_pc_credit pr <=? m_pc_deposits m - F) with true by (unfold m in *; lia). cbn [check rbind]. reflexivity.
Qed.
