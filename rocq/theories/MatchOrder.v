(** [new_order] on a well-formed book: it never panics, and its result is fully described. *)
From Verif Require Import Base BaseProofs Fees FeesSpec FeesProofs Critbit CritbitProofs CritbitSlab CritbitOps
  CritbitSpec CritbitRefine ListSum Queue QueueSpec QueueProofs Codec Market Matching MatchSteps MatchRefine
  MatchAsk MatchBid MatchRun Ledger LedgerSteps LedgerSums MatchSpec LedgerRun MatchReport.

(** The market, the books and the order are such as the instructions produce them; the world
    invariant shows every reachable state to be like this. *)
Record ready (o : obs) (A : astate) (sd : side) (ot : order_type) (id owner qty pc : Z) (st : self_trade) : Prop := mkReady {
  rd_cl : 0 < m_coin_lot (ob_mkt o); rd_pl : 0 < m_pc_lot (ob_mkt o);
  rd_capb : 2 < slab_cap (ob_bids o); rd_capa : 2 < slab_cap (ob_asks o);
  rd_mkt : mkt_u64 (ob_mkt o);
  rd_fit : books_fit (m_coin_lot (ob_mkt o)) (m_pc_lot (ob_mkt o)) A;
  rd_qty : 0 < qty < B64;
  rd_price : 0 < id / B64; rd_id : u128 id;
  rd_fresh : forall l, In l (book_of A sd) -> l_key l <> id;
  rd_st : owner = 0 -> ot = ImmediateOrCancel /\ st = AbortTransaction;
  rd_ask : sd = Ask -> pc = 0 /\ (owner <> 0 -> qty * m_coin_lot (ob_mkt o) < B64) /\
           zsum (pc_of (m_pc_lot (ob_mkt o))) (a_bids A) < B64;
  rd_bid : sd = Bid -> 0 < pc < B64
}.

Section Result.
Variables (o : obs) (A : astate) (sd : side) (ot : order_type) (id owner slot : Z) (t : tier)
  (qty pc cid : Z) (st : self_trade) (limit : nat).
Let cl := m_coin_lot (ob_mkt o). Let pl := m_pc_lot (ob_mkt o).
Definition params : order_params := mkParams id owner slot t cid st (ot_post_allowed ot).
Definition the_taker : taker := mkTaker sd id owner slot t cid st (owner =? 0).
Definition room : Prop := has_room (slab_cap (orders_of o sd)) (book_of A sd).
Definition spent (pr : proceeds) : Z := match sd with Ask => p_coin_debit pr * cl | Bid => p_pc_debit pr end.

Record order_result (o' : obs) (pr : proceeds) (A' : astate) (tr : list round) (q' n : Z) (E : list event_view) (F R : Z) : Prop := mkRes {
  or_rep : rep o' A'; or_keeps : keeps o o'; or_mkt : ob_mkt o' = mkt_after (ob_mkt o) F R;
  or_evs : a_evs A' = a_evs A ++ E;
  or_report : report cl pl the_taker limit (ot_post_only ot) room (ot_post_allowed ot) qty pc
     (book_of A (other sd)) (book_of A sd) (book_of A' (other sd)) (book_of A' sd) E tr q' n;
  or_amounts : match sd with
     | Ask => ask_amounts pl params qty pr_zero pr F R tr n
     | Bid => bid_amounts pl params pc pr_zero pr F R tr n
     end;
  or_all : match sd with
     | Ask => ask_all cl pl params A pr_zero qty A' pr F R
     | Bid => bid_all cl pl params A pr_zero qty pc A' pr F R
     end
}.

End Result.

Theorem new_order_result o A sd ot id owner slot t qty pc cid st limit : rep o A -> ready o A sd ot id owner qty pc st ->
  outcome (new_order o sd ot id owner slot t qty pc cid st limit)
    (fun x => let '(o', pr, rem) := x in rem = None /\
       (spent o sd pr < B64 -> exists A' tr q' n E F R, order_result o A sd ot id owner slot t qty pc cid st limit o' pr A' tr q' n E F R) /\
       (owner <> 0 \/ sd = Bid -> spent o sd pr < B64) /\ 0 <= p_coin_debit pr <= qty /\
       exists F R, ob_mkt o' = mkt_after (ob_mkt o) F R)
    match_err.
Proof.
  intros R0 RD. set (cl := m_coin_lot (ob_mkt o)). set (pl := m_pc_lot (ob_mkt o)).
  set (params := params ot id owner slot t cid st). destruct RD as [r1 r2 r3 r4 r5 r6 r7 r8 r9 r10 r11 r12 r13].
  assert (C : ctx cl pl (slab_cap (ob_bids o)) (slab_cap (ob_asks o)) o) by (constructor; auto).
  destruct (rep_sorted o A R0) as [SB SA].
  assert (B : books_ok cl pl A) by (split; auto).
  assert (FR : lfind id (book_of A sd) = None) by (apply lfind_None; assumption).
  assert (ZP : forall p, is_send_take p = true <-> op_owner p = 0) by (intros p; unfold is_send_take, system_id; lia).
  unfold new_order. fold (MatchOrder.params ot id owner slot t cid st). fold params. unfold spent. destruct sd; cbn [other book_of] in *.
  - assert (W : bid_wf cl pl params A pr_zero qty pc).
    { constructor; cbn [p_pc_unlocked p_pc_debit p_coin_credit pr_zero]; try assumption; try lia; try (apply r13; reflexivity).
      - intros X. apply ZP in X. destruct (r11 X) as [Y _]. unfold params, MatchOrder.params. cbn. rewrite Y. reflexivity. }
    assert (ST : is_send_take params = true -> op_st params = AbortTransaction).
    { intros X. apply ZP in X. apply r11. exact X. }
    eapply outcome_weaken; [apply (bid_loop cl pl _ _ params limit o A pr_zero qty pc (ot_post_only ot) C R0 W)| |auto].
    intros [[o' pr] rem] (-> & A' & F & R & HR & R1 & K1 & M1).
    pose proof (bid_run_all cl pl _ params r1 r2 limit ST _ _ _ _ _ _ _ _ _ B W HR) as AL.
    destruct (bid_report_run cl pl _ params r1 r2 ST limit _ _ _ _ _ _ _ _ _ B W HR) as (tr & q' & n & E & I1 & I2 & I3).
    split; [reflexivity|]. split; [|split].
    + intros _. exists A', tr, q', n, E, F, R. constructor; [exact R1|exact K1|exact M1|exact I1|exact I3|exact I2|exact AL].
    + intros _. destruct AL as [_ _ [_ _ _ _ _ _ S7 S8] _ _]. destruct S8 as (_ & _ & S8 & _).
      cbn [pr_zero p_pc_unlocked p_pc_debit] in S7, S8. pose proof (r13 eq_refl). lia.
    + split; [|exists F, R; exact M1]. destruct AL as [_ _ [_ _ _ _ _ S6 _ _] _ _]. destruct S6 as (_ & _ & ->). cbn. lia.
  - destruct (r12 eq_refl) as (-> & QC & SUM).
    assert (W : ask_wf cl pl params A pr_zero qty).
    { constructor; cbn [p_coin_unlocked p_coin_debit p_pc_credit pr_zero]; try assumption; try lia.
      - intros X. apply QC. intros Y. assert (is_send_take params = true) by (apply ZP; exact Y). congruence.
      - intros X. apply ZP in X. destruct (r11 X) as [Y1 Y2]. unfold params, MatchOrder.params. cbn. rewrite Y1, Y2. split; reflexivity. }
    eapply outcome_weaken; [apply (ask_loop cl pl _ _ params limit o A pr_zero qty (ot_post_only ot) C R0 W)| |auto].
    intros [[o' pr] rem] (-> & A' & F & R & HR & R1 & K1 & M1).
    assert (MO : 0 <= p_coin_debit pr <= qty).
    { split; [apply (ask_run_mono cl pl _ params r1 r2 _ _ _ _ _ _ _ _ _ B W HR)|].
      apply (ask_run_le cl pl _ params r1 r2 _ _ _ _ _ _ _ _ _ B W HR). }
    split; [reflexivity|]. split; [|split; [|split; [assumption|exists F, R; exact M1]]].
    + intros NW.
      pose proof (ask_run_all cl pl _ params r1 r2 limit _ _ _ _ _ _ _ _ B W HR NW) as AL.
      destruct (ask_report_run cl pl _ params r1 r2 limit _ _ _ _ _ _ _ _ B W HR NW) as (tr & q' & n & E & I1 & I2 & I3).
      exists A', tr, q', n, E, F, R. constructor; [exact R1|exact K1|exact M1|exact I1|exact I3|exact I2|exact AL].
    + intros [X|X]; [|discriminate]. specialize (QC X). fold cl in QC. nia.
Qed.
