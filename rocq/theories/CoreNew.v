(** NewOrderV3 and SendTake keep the market invariant. *)
From Coq Require Import Permutation.
From Verif Require Import Base BaseProofs Fees FeesSpec FeesProofs Critbit CritbitProofs CritbitSlab CritbitOps
  CritbitSpec CritbitRefine ListSum Queue QueueSpec QueueProofs Codec Market Matching MatchSteps MatchRefine
  MatchAsk MatchBid MatchRun Ledger LedgerSteps LedgerSums MatchSpec LedgerRun MatchReport MatchOrder MatchFacts
  Slots Core CoreInv CoreOrder.

(** Ranges of decoded instructions. *)
Record order_ix_ok (ix : order_ix) : Prop := mkOix {
  ok_price : 0 < oi_price ix < B64; ok_qty : 0 < oi_qty ix < B64; ok_pc : 0 < oi_pc ix < B64;
  ok_cid : u64 (oi_cid ix); ok_limit : 0 <= oi_limit ix < 65536;
  ok_ts : - 9223372036854775808 <= oi_max_ts ix < 9223372036854775808 }.
Record take_ix_ok (ix : take_ix) : Prop := mkTix {
  tk_price : 0 < ti_price ix < B64; tk_qty : 0 < ti_qty ix < B64; tk_pc : 0 < ti_pc ix < B64;
  tk_min_coin : u64 (ti_min_coin ix); tk_min_pc : u64 (ti_min_pc ix); tk_limit_ok : 0 <= ti_limit ix < 65536 }.

(** Two market records differ at most in the four counters. *)
Definition same_market (m m' : market) : Prop :=
  m' = set_counters m (m_coin_deposits m') (m_pc_deposits m') (m_pc_fees m') (m_rebates m').
Definition pc_owed (m : market) : Z := m_pc_deposits m + m_pc_fees m + m_rebates m.
(** Two open-orders records have the same identity. *)
Definition same_id (a b : open_orders) : Prop :=
  oo_flags b = oo_flags a /\ oo_market b = oo_market a /\ oo_owner b = oo_owner a.
Lemma same_market_refl m : same_market m m.
Proof. destruct m; reflexivity. Qed.
Lemma same_market_trans a b c : same_market a b -> same_market b c -> same_market a c.
Proof. unfold same_market. intros -> ->. reflexivity. Qed.
Lemma same_market_set m cd pd pf rr : same_market m (set_counters m cd pd pf rr).
Proof. reflexivity. Qed.
Lemma same_id_refl a : same_id a a. Proof. repeat split. Qed.
Lemma same_id_trans a b c : same_id a b -> same_id b c -> same_id a c.
Proof. unfold same_id. intuition congruence. Qed.

(** ** Arithmetic of the account updates *)
Ltac steps H := repeat (apply rbind_ok in H; destruct H as (? & ? & H)).
Record balances (oo : open_orders) (cf ct pf pt : Z) : Prop := mkBal {
  bl_cf : oo_coin_free oo = cf; bl_ct : oo_coin_total oo = ct; bl_pf : oo_pc_free oo = pf; bl_pt : oo_pc_total oo = pt }.
Definition keeps_slots (a b : open_orders) : Prop :=
  oo_flags b = oo_flags a /\ oo_market b = oo_market a /\ oo_owner b = oo_owner a /\ oo_free_bits b = oo_free_bits a /\
  oo_bid_bits b = oo_bid_bits a /\ oo_orders b = oo_orders a /\ oo_cids b = oo_cids a /\ oo_rebates b = oo_rebates a.
Lemma apply_proceeds_ok oo cl pr oo' : apply_proceeds oo cl pr = Ok oo' ->
  keeps_slots oo oo' /\
  oo_coin_free oo' = oo_coin_free oo + p_coin_credit pr * cl + p_coin_unlocked pr * cl /\
  oo_coin_total oo' = oo_coin_total oo + p_coin_credit pr * cl - p_coin_debit pr * cl /\
  oo_pc_free oo' = oo_pc_free oo + p_pc_credit pr + p_pc_unlocked pr /\
  oo_pc_total oo' = oo_pc_total oo + p_pc_credit pr - p_pc_debit pr /\
  oo_coin_free oo' <= oo_coin_total oo' /\ oo_pc_free oo' <= oo_pc_total oo' /\
  p_coin_credit pr * cl < B64 /\ oo_coin_total oo + p_coin_credit pr * cl < B64 /\ oo_pc_total oo + p_pc_credit pr < B64.
Proof.
  intros H. unfold apply_proceeds in H.
  apply rbind_ok in H. destruct H as (cu & H1 & H). apply cmul_ok in H1. destruct H1 as [-> H1].
  apply rbind_ok in H. destruct H as (cc & H2 & H). apply cmul_ok in H2. destruct H2 as [-> H2].
  apply rbind_ok in H. destruct H as (cd & H3 & H). apply cmul_ok in H3. destruct H3 as [-> H3].
  apply rbind_ok in H. destruct H as (oo1 & H4 & H). unfold credit_locked_coin in H4. apply rbind_ok in H4.
  destruct H4 as (t1 & E1 & [= <-]). apply cadd_ok in E1. destruct E1 as [-> E1].
  apply rbind_ok in H. destruct H as (oo2 & H4 & H). unfold unlock_coin in H4. apply rbind_ok in H4.
  destruct H4 as (t2 & E2 & H4). apply rbind_ok in H4. destruct H4 as (? & P2 & [= <-]). apply cadd_ok in E2. destruct E2 as [-> E2].
  apply rbind_ok in H. destruct H as (oo3 & H4 & H). unfold unlock_coin in H4. apply rbind_ok in H4.
  destruct H4 as (t3 & E3 & H4). apply rbind_ok in H4. destruct H4 as (? & P3 & [= <-]). apply cadd_ok in E3. destruct E3 as [-> E3].
  apply rbind_ok in H. destruct H as (oo4 & H4 & H). unfold credit_locked_pc in H4. apply rbind_ok in H4.
  destruct H4 as (t4 & E4 & [= <-]). apply cadd_ok in E4. destruct E4 as [-> E4].
  apply rbind_ok in H. destruct H as (oo5 & H4 & H). unfold unlock_pc in H4. apply rbind_ok in H4.
  destruct H4 as (t5 & E5 & H4). apply rbind_ok in H4. destruct H4 as (? & P5 & [= <-]). apply cadd_ok in E5. destruct E5 as [-> E5].
  apply rbind_ok in H. destruct H as (oo6 & H4 & H). unfold unlock_pc in H4. apply rbind_ok in H4.
  destruct H4 as (t6 & E6 & H4). apply rbind_ok in H4. destruct H4 as (? & P6 & [= <-]). apply cadd_ok in E6. destruct E6 as [-> E6].
  apply rbind_ok in H. destruct H as (ct & E7 & H). apply csub_ok in E7. destruct E7 as [-> E7].
  apply rbind_ok in H. destruct H as (pt & E8 & H). apply csub_ok in E8. destruct E8 as [-> E8].
  apply rbind_ok in H. destruct H as (? & E9 & H). apply check_ok in E9.
  apply rbind_ok in H. destruct H as (? & E10 & [= <-]). apply check_ok in E10.
  cbn [oo_coin_free oo_coin_total oo_pc_free oo_pc_total set_balances set_coin_free set_coin_total set_pc_free set_pc_total] in *.
  split; [repeat split|]. repeat (match goal with |- _ /\ _ => split end); lia.
Qed.
Lemma lock_funds_ok o oo ix bal o1 oo1 dep lk : 0 <= oo_coin_free oo -> 0 <= oo_pc_free oo ->
  0 < oi_qty ix -> 0 < oi_pc ix -> 0 < m_coin_lot (ob_mkt o) ->
  lock_funds o oo ix bal = Ok (o1, oo1, dep, lk) ->
  keeps_slots oo oo1 /\ 0 <= dep <= bal /\ ob_bids o1 = ob_bids o /\ ob_asks o1 = ob_asks o /\ ob_eq o1 = ob_eq o /\
  match oi_side ix with
  | Bid => lk = oi_pc ix /\ 
      exists fl, (0 <= fl <= oo_pc_free oo /\ fl = Z.min (oi_pc ix) (oo_pc_free oo)) /\ fl + dep = oi_pc ix /\ oo_pc_free oo1 = oo_pc_free oo - fl /\
        oo_pc_total oo1 = oo_pc_total oo + dep /\ oo_pc_total oo1 < B64 /\
        oo_coin_free oo1 = oo_coin_free oo /\ oo_coin_total oo1 = oo_coin_total oo /\
        ob_mkt o1 = set_pc_deposits (ob_mkt o) (m_pc_deposits (ob_mkt o) + dep) /\ m_pc_deposits (ob_mkt o) + dep < B64
  | Ask => lk = 0 /\ oi_qty ix * m_coin_lot (ob_mkt o) < B64 /\
      exists fl, (0 <= fl <= oo_coin_free oo /\ fl = Z.min (oi_qty ix * m_coin_lot (ob_mkt o)) (oo_coin_free oo)) /\ fl + dep = oi_qty ix * m_coin_lot (ob_mkt o) /\
        oo_coin_free oo1 = oo_coin_free oo - fl /\
        oo_coin_total oo1 = oo_coin_total oo + dep /\ oo_coin_total oo1 < B64 /\
        oo_pc_free oo1 = oo_pc_free oo /\ oo_pc_total oo1 = oo_pc_total oo /\
        ob_mkt o1 = set_coin_deposits (ob_mkt o) (m_coin_deposits (ob_mkt o) + dep) /\ m_coin_deposits (ob_mkt o) + dep < B64
  end.
Proof.
  intros F1 F2 Q1 Q2 CL H. unfold lock_funds in H. destruct (oi_side ix).
  - apply rbind_ok in H. destruct H as (? & E1 & H). apply check_ok in E1.
    apply rbind_ok in H. destruct H as (oa & E2 & H). unfold lock_free_pc in E2. apply rbind_ok in E2. destruct E2 as (f & E2 & [= <-]).
    apply csub_ok in E2. destruct E2 as [-> E2].
    apply rbind_ok in H. destruct H as (ob & E3 & H). unfold credit_locked_pc in E3. apply rbind_ok in E3. destruct E3 as (g & E3 & [= <-]).
    apply cadd_ok in E3. destruct E3 as [-> E3].
    apply rbind_ok in H. destruct H as (d & E4 & [= <- <- <- <-]). apply cadd_ok in E4. destruct E4 as [-> E4].
    cbn [oo_coin_free oo_coin_total oo_pc_free oo_pc_total set_balances set_coin_free set_coin_total set_pc_free set_pc_total
         ob_bids ob_asks ob_eq ob_mkt set_mkt] in *.
    split; [repeat split|]. split; [lia|]. split; [reflexivity|]. split; [reflexivity|]. split; [reflexivity|].
    split; [reflexivity|]. exists (Z.min (oi_pc ix) (oo_pc_free oo)).
    repeat (match goal with |- _ /\ _ => split end); try reflexivity; lia.
  - apply rbind_ok in H. destruct H as (lock & E0 & H). destruct (oi_qty ix * m_coin_lot (ob_mkt o) <? B64) eqn:EQ; [|discriminate].
    injection E0 as <-.
    apply rbind_ok in H. destruct H as (? & E1 & H). apply check_ok in E1.
    apply rbind_ok in H. destruct H as (oa & E2 & H). unfold lock_free_coin in E2. apply rbind_ok in E2. destruct E2 as (f & E2 & [= <-]).
    apply csub_ok in E2. destruct E2 as [-> E2].
    apply rbind_ok in H. destruct H as (ob & E3 & H). unfold credit_locked_coin in E3. apply rbind_ok in E3. destruct E3 as (g & E3 & [= <-]).
    apply cadd_ok in E3. destruct E3 as [-> E3].
    apply rbind_ok in H. destruct H as (d & E4 & [= <- <- <- <-]). apply cadd_ok in E4. destruct E4 as [-> E4].
    cbn [oo_coin_free oo_coin_total oo_pc_free oo_pc_total set_balances set_coin_free set_coin_total set_pc_free set_pc_total
         ob_bids ob_asks ob_eq ob_mkt set_mkt] in *.
    assert (0 < oi_qty ix * m_coin_lot (ob_mkt o)) by nia.
    split; [repeat split|]. split; [lia|]. split; [reflexivity|]. split; [reflexivity|]. split; [reflexivity|].
    split; [reflexivity|]. split; [lia|]. exists (Z.min (oi_qty ix * m_coin_lot (ob_mkt o)) (oo_coin_free oo)).
    repeat (match goal with |- _ /\ _ => split end); try reflexivity; lia.
Qed.

(** ** The market after matching *)
Lemma mkt_after_exact m F R : mkt_u64 m -> 0 <= R <= F -> F <= m_pc_deposits m -> pc_owed m < B64 ->
  m_pc_deposits (mkt_after m F R) = m_pc_deposits m - F /\ m_pc_fees (mkt_after m F R) = m_pc_fees m + F - R /\
  m_rebates (mkt_after m F R) = m_rebates m + R /\ m_coin_deposits (mkt_after m F R) = m_coin_deposits m.
Proof.
  unfold mkt_u64, u64, pc_owed. intros (H1 & H2 & H3) HR HF HO. unfold mkt_after. cbn.
  rewrite !w64_small by lia. auto.
Qed.

Lemma obs_same a b : ob_bids b = ob_bids a -> ob_asks b = ob_asks a -> ob_eq b = ob_eq a -> b = set_mkt a (ob_mkt b).
Proof. destruct a as [a1 a2 a3 a4], b as [b1 b2 b3 b4]. unfold set_mkt. cbn. intros -> -> ->. reflexivity. Qed.

Section Step.
Variables (o : obs) (seq : Z) (A : astate).
(** What matching leaves of the market-wide part of the invariant. *)
Lemma rep_other_mkt m : rep o A -> rep (set_mkt o m) A.
Proof. intros []. constructor; assumption. Qed.
End Step.

Lemma order_ready o A seq L sd ot owner qty pc st p : cinv o seq L A -> 0 < p < B64 -> 0 < qty < B64 ->
  (owner = 0 -> ot = ImmediateOrCancel /\ st = AbortTransaction) ->
  (sd = Ask -> pc = 0 /\ (owner <> 0 -> qty * m_coin_lot (ob_mkt o) < B64)) -> (sd = Bid -> 0 < pc < B64) ->
  forall m, same_market (ob_mkt o) m -> mkt_u64 m ->
  ready (set_mkt o m) A sd ot (p * B64 + seq_part sd seq) owner qty pc st.
Proof.
  intros C HP HQ HO HA HB m SM MU. pose proof (cinv_bids_value _ _ _ _ C) as BV.
  assert (FN : 0 <= zsum (fun x => oo_pc_free (snd x)) L).
  { apply zsum_nonneg. intros [k' oo'] H'. pose proof (ao_pc _ _ _ _ _ _ (ci_acct _ _ _ _ C _ _ H')). cbn. lia. }
  assert (SP : 0 <= seq_part sd seq < B64) by (pose proof (ci_seq _ _ _ _ C); unfold seq_part; destruct sd; lia).
  unfold same_market in SM. destruct C. cbn [ob_mkt set_mkt ob_bids ob_asks].
  assert (L1 : m_coin_lot m = m_coin_lot (ob_mkt o)) by (rewrite SM; reflexivity).
  assert (L2 : m_pc_lot m = m_pc_lot (ob_mkt o)) by (rewrite SM; reflexivity).
  constructor; cbn [ob_mkt set_mkt ob_bids ob_asks]; rewrite ?L1, ?L2; try assumption.
  - rewrite (Z.div_add_l p B64) by lia. rewrite (Z.div_small _ B64) by lia. lia.
  - unfold u128. nia.
  - intros l Hl. intros E. eapply next_fresh; [exact ci_seq|exact HP|eapply ci_keys; exact Hl|]. exact E.
  - intros E. destruct (HA E) as [-> X]. split; [reflexivity|]. split; [assumption|]. unfold mkt_u64, u64 in *. lia.
Qed.

Lemma cinv_sorted o seq L A : cinv o seq L A -> both_sorted A.
Proof. intros C s. destruct (rep_sorted o A (ci_rep _ _ _ _ C)) as [SB SA]. destruct s; assumption. Qed.
Lemma cinv_leaf_nz o seq L A : cinv o seq L A -> forall s l, In l (book_of A s) -> l_owner l <> 0.
Proof. intros C s l Hl E. apply (ci_nz _ _ _ _ C). rewrite <- E. eapply ci_own; eassumption. Qed.

Lemma fresh_id seq sd p : 0 <= seq < B64 -> 0 < p < B64 -> forall id', issued seq sd id' -> id' <> p * B64 + seq_part sd seq.
Proof. intros. eapply next_fresh; eassumption. Qed.
Lemma issued_next seq sd p : 0 <= seq -> 0 < p < B64 -> issued (seq + 1) sd (p * B64 + seq_part sd seq).
Proof. intros. exists p, seq. repeat split; lia. Qed.

(** What NewOrderV3 does to the account, in terms of what matching reports. *)
Record placed (oo oo' : open_orders) (ix : order_ix) (cl dep slot id : Z) (pr : proceeds) : Prop := mkPlaced {
  pl_cf : oo_coin_free oo' = oo_coin_free oo + p_coin_credit pr * cl + p_coin_unlocked pr * cl - (match oi_side ix with Ask => oi_qty ix * cl - dep | Bid => 0 end);
  pl_ct : oo_coin_total oo' = oo_coin_total oo + p_coin_credit pr * cl - p_coin_debit pr * cl + (match oi_side ix with Ask => dep | Bid => 0 end);
  pl_pf : oo_pc_free oo' = oo_pc_free oo + p_pc_credit pr + p_pc_unlocked pr - (match oi_side ix with Bid => oi_pc ix - dep | Ask => 0 end);
  pl_pt : oo_pc_total oo' = oo_pc_total oo + p_pc_credit pr - p_pc_debit pr + (match oi_side ix with Bid => dep | Ask => 0 end);
  pl_rb : oo_rebates oo' = oo_rebates oo;
  pl_dep : dep = match oi_side ix with Bid => oi_pc ix - Z.min (oi_pc ix) (oo_pc_free oo) | Ask => oi_qty ix * cl - Z.min (oi_qty ix * cl) (oo_coin_free oo) end;
  pl_slot : 0 <= slot < 128 /\ is_free oo slot = true /\ is_free oo' slot = false /\ order_at oo' slot = id /\ side_at oo' slot = oi_side ix /\ cid_at oo' slot = oi_cid ix;
  pl_others : forall j, 0 <= j < 128 -> j <> slot -> is_free oo' j = is_free oo j /\ order_at oo' j = order_at oo j /\ side_at oo' j = side_at oo j /\ cid_at oo' j = cid_at oo j }.
(** What NewOrderV3 does to the rest of the state. *)
Record order_done (o o' : obs) (oo oo' : open_orders) (ix : order_ix) (dep : Z) : Prop := mkDone {
  od_mkt : same_market (ob_mkt o) (ob_mkt o'); od_keeps : keeps o o'; od_id : same_id oo oo';
  od_dep : 0 <= dep;
  od_coin : m_coin_deposits (ob_mkt o') = m_coin_deposits (ob_mkt o) + (match oi_side ix with Ask => dep | Bid => 0 end);
  od_pc : pc_owed (ob_mkt o') = pc_owed (ob_mkt o) + (match oi_side ix with Bid => dep | Ask => 0 end);
  od_fees : m_pc_fees (ob_mkt o) <= m_pc_fees (ob_mkt o')
}.

Theorem new_order_inv o cnt seq oo k L A t ix bal now o' rq' oo' dep :
  cinv o seq ((k, oo) :: L) A -> order_ix_ok ix -> seq + 1 < B64 ->
  new_order_core o (cnt, seq) oo k t ix bal now = Ok (o', rq', oo', dep) ->
  pc_owed (ob_mkt o) + (match oi_side ix with Bid => dep | Ask => 0 end) < B64 ->
  exists A', cinv o' (seq + 1) ((k, oo') :: L) A' /\ rq' = (cnt, seq + 1) /\ order_done o o' oo oo' ix dep /\ dep <= bal /\
    exists o1 slot lk pr tr q' n E F R, same_market (ob_mkt o) (ob_mkt o1) /\
      order_result o1 A (oi_side ix) (oi_ot ix) (oi_price ix * B64 + seq_part (oi_side ix) seq) k slot t (oi_qty ix) lk (oi_cid ix)
        (oi_st ix) (Z.to_nat (oi_limit ix)) o' pr A' tr q' n E F R /\
      placed oo oo' ix (m_coin_lot (ob_mkt o)) dep slot (oi_price ix * B64 + seq_part (oi_side ix) seq) pr /\
      lk = (match oi_side ix with Bid => oi_pc ix | Ask => 0 end) /\
      ob_mkt o' = set_counters (ob_mkt o) (m_coin_deposits (ob_mkt o) + match oi_side ix with Ask => dep | Bid => 0 end)
        (m_pc_deposits (ob_mkt o) + (match oi_side ix with Bid => dep | Ask => 0 end) - F) (m_pc_fees (ob_mkt o) + F - R) (m_rebates (ob_mkt o) + R).
Proof.
  intros C IX SQ H OW. destruct IX.
  pose proof (ci_acct _ _ _ _ C k oo (or_introl eq_refl)) as AO.
  assert (KNZ : k <> 0) by (intros ->; apply (ci_nz _ _ _ _ C); left; reflexivity).
  unfold new_order_core in H. apply rbind_ok in H. destruct H as (? & _ & H). apply rbind_ok in H. destruct H as (? & _ & H).
  apply rbind_ok in H. destruct H as ([[[o1 oo1] dep1] lk] & HL & H).
  destruct (lock_funds_ok _ _ _ _ _ _ _ _ (proj1 (ao_coin _ _ _ _ _ _ AO)) (proj1 (ao_pc _ _ _ _ _ _ AO)) (proj1 ok_qty0) (proj1 ok_pc0)
    (ci_cl _ _ _ _ C) HL) as (KS & DEP & OB1 & OB2 & OB3 & LK).
  cbn [fst snd] in H. rewrite gen_order_id_spec in H by (unfold u64; pose proof (ci_seq _ _ _ _ C); lia).
  apply rbind_ok in H. destruct H as ([oo2 slot] & HA & H).
  assert (W1 : oo_wf oo1).
  { destruct KS as (_ & _ & _ & K4 & K5 & K6 & K7 & _). destruct (ao_wf _ _ _ _ _ _ AO). constructor; congruence. }
  assert (NF : oo_free_bits oo1 <> 0).
  { intros E. rewrite (add_order_full _ _ _ E) in HA. discriminate. }
  destruct (add_order_ok oo1 (oi_price ix * B64 + seq_part (oi_side ix) seq) (oi_side ix) W1 NF)
    as (oo2' & slot' & HA' & W2 & SB & SL & FR1 & FR2 & OR & SI & CI & REST).
  rewrite HA in HA'. injection HA' as <- <-.
  apply rbind_ok in H. destruct H as (? & _ & H).
  apply rbind_ok in H. destruct H as ([[o2 pr] rem] & HN & H).
  apply rbind_ok in H. destruct H as (? & _ & H).
  apply rbind_ok in H. destruct H as (oo4 & HP & [= <- <- <- <-]).
  assert (SM1 : same_market (ob_mkt o) (ob_mkt o1)).
  { destruct (oi_side ix); [destruct LK as (_ & ? & _ & _ & _ & _ & _ & _ & _ & LM & _)|destruct LK as (_ & _ & ? & _ & _ & _ & _ & _ & _ & _ & LM & _)]; rewrite LM; reflexivity. }
  assert (O1 : o1 = set_mkt o (ob_mkt o1)) by (apply obs_same; assumption).
  pose proof (ci_mkt _ _ _ _ C) as MU. pose proof MU as (MU1 & MU2 & MU3). pose proof (ci_coin_dep _ _ _ _ C) as MU4.
  assert (MU1' : mkt_u64 (ob_mkt o1)).
  { destruct (oi_side ix); [destruct LK as (_ & ? & _ & _ & _ & _ & _ & _ & _ & LM & LB)|destruct LK as (_ & _ & ? & _ & _ & _ & _ & _ & _ & _ & LM & LB)];
    rewrite LM; unfold mkt_u64, u64 in *; cbn; lia. }
  assert (RD : ready o1 A (oi_side ix) (oi_ot ix) (oi_price ix * B64 + seq_part (oi_side ix) seq) k (oi_qty ix) lk (oi_st ix)).
  { rewrite O1. eapply order_ready; try eassumption; try lia.
    - intros E. rewrite E in LK. destruct LK as (-> & LQ & _). auto.
    - intros E. rewrite E in LK. destruct LK as (-> & _). assumption. }
  assert (R1 : rep o1 A) by (rewrite O1; apply rep_other_mkt; apply C).
  destruct (result o1 A _ _ _ _ _ _ _ _ _ _ _ _ _ _ R1 RD HN (or_introl KNZ)) as (_ & A' & tr & q' & n & E & F & R & OR1).
  pose proof (or_mkt _ _ _ _ _ _ _ _ _ _ _ _ _ _ _ _ _ _ _ _ _ _ OR1) as MK.
  assert (LOT1 : m_coin_lot (ob_mkt o1) = m_coin_lot (ob_mkt o)) by (rewrite SM1; reflexivity).
  assert (LOT2 : m_pc_lot (ob_mkt o1) = m_pc_lot (ob_mkt o)) by (rewrite SM1; reflexivity).
  assert (LOT3 : m_coin_lot (ob_mkt o2) = m_coin_lot (ob_mkt o)) by (rewrite MK; exact LOT1).
  assert (LOT4 : m_pc_lot (ob_mkt o2) = m_pc_lot (ob_mkt o)) by (rewrite MK; exact LOT2).
  rewrite LOT3 in HP. destruct (apply_proceeds_ok _ _ _ _ HP) as (KS4 & A1 & A2 & A3 & A4 & A5 & A6 & A7 & A8 & A9).
  set (oo3 := set_cid oo2 slot (oi_cid ix)) in *.
  assert (CIDL : zlen (oo_cids oo2) = 128) by (apply W2).
  assert (S3 : forall j, 0 <= j < 128 -> is_free oo4 j = is_free oo2 j /\ order_at oo4 j = order_at oo2 j /\ side_at oo4 j = side_at oo2 j /\
     cid_at oo4 j = if j =? slot then oi_cid ix else cid_at oo2 j).
  { intros j Hj. destruct KS4 as (_ & _ & _ & K4 & K5 & K6 & K7 & _). unfold is_free, order_at, side_at, cid_at. rewrite K4, K5, K6, K7.
    unfold oo3, set_cid, set_slots. cbn [oo_free_bits oo_bid_bits oo_orders oo_cids].
    split; [reflexivity|]. split; [reflexivity|]. split; [reflexivity|].
    rewrite znth_zupd by lia. destruct (Z.eqb_spec j slot), (Z.eqb_spec slot j); try lia; reflexivity. }
  assert (W4 : oo_wf oo4).
  { destruct KS4 as (_ & _ & _ & K4 & K5 & K6 & K7 & _). destruct W2. constructor; rewrite ?K4, ?K5, ?K6, ?K7;
    unfold oo3, set_cid, set_slots; cbn [oo_free_bits oo_bid_bits oo_orders oo_cids]; rewrite ?zupd_len; assumption. }
  assert (OO1 : forall j, is_free oo1 j = is_free oo j /\ order_at oo1 j = order_at oo j /\ side_at oo1 j = side_at oo j /\ cid_at oo1 j = cid_at oo j).
  { intros j. destruct KS as (_ & _ & _ & K4 & K5 & K6 & K7 & _). unfold is_free, order_at, side_at, cid_at. rewrite K4, K5, K6, K7. auto. }
  assert (B3 : oo_coin_free oo3 = oo_coin_free oo1 /\ oo_coin_total oo3 = oo_coin_total oo1 /\ oo_pc_free oo3 = oo_pc_free oo1 /\
     oo_pc_total oo3 = oo_pc_total oo1 /\ oo_rebates oo3 = oo_rebates oo).
  { destruct SB as (_ & _ & _ & X1 & X2 & X3 & X4 & X5). unfold oo3, set_cid, set_slots. cbn [oo_coin_free oo_coin_total oo_pc_free oo_pc_total oo_rebates].
    destruct KS as (_ & _ & _ & _ & _ & _ & _ & K8). repeat split; congruence. }
  destruct B3 as (C1 & C2 & C3 & C4 & C5). rewrite C1, C2, C3, C4 in *.
  assert (ID4 : same_id oo oo4 /\ oo_rebates oo4 = oo_rebates oo).
  { destruct KS4 as (K1 & K2 & K3 & _ & _ & _ & _ & K8). destruct KS as (J1 & J2 & J3 & _). destruct SB as (X1 & X2 & X3 & _).
    split; [split; [|split]|]; [rewrite K1|rewrite K2|rewrite K3|congruence]; unfold oo3, set_cid, set_slots; cbn [oo_flags oo_market oo_owner]; congruence. }
  destruct ID4 as [ID4 RB4].
  pose proof (cinv_sorted _ _ _ _ C) as SO. pose proof (cinv_leaf_nz _ _ _ _ C) as NZ.
  pose proof (ci_seq _ _ _ _ C) as SEQ.
  pose proof (or_all _ _ _ _ _ _ _ _ _ _ _ _ _ _ _ _ _ _ _ _ _ _ OR1) as ALL.
  set (id := oi_price ix * B64 + seq_part (oi_side ix) seq) in *.
  pose proof (order_leaves _ _ _ _ _ _ _ _ _ _ _ _ _ _ _ _ _ _ _ _ _ _ OR1) as LV.
  pose proof (order_events _ _ _ _ _ _ _ _ _ _ _ _ _ _ _ _ _ _ _ _ _ _ OR1 NZ) as EVS.
  assert (ST : is_send_take (params (oi_ot ix) id k slot t (oi_cid ix) (oi_st ix)) = false) by (unfold is_send_take, system_id; cbn; lia).
  assert (ME : forall z k', me (params (oi_ot ix) id k slot t (oi_cid ix) (oi_st ix)) k' z = if k =? k' then z else 0).
  { intros z k'. unfold me, LedgerSums.st. rewrite ST. reflexivity. }
  set (cl := m_coin_lot (ob_mkt o)) in *. set (pl := m_pc_lot (ob_mkt o)) in *.
  (* the numbers *)
  assert (NUM : (forall k', k' <> k -> locked_coin cl k' A' = locked_coin cl k' A /\ locked_pc pl k' A' = locked_pc pl k' A) /\
    oo_coin_total oo4 - oo_coin_free oo4 = locked_coin cl k A' /\ oo_pc_total oo4 - oo_pc_free oo4 = locked_pc pl k A' /\
    0 <= oo_coin_free oo4 /\ 0 <= oo_pc_free oo4 /\ oo_coin_total oo4 < B64 /\ oo_pc_total oo4 < B64 /\
    oo_coin_total oo4 + zsum ev_coin (a_evs A') = oo_coin_total oo + zsum ev_coin (a_evs A) + (match oi_side ix with Ask => dep1 | Bid => 0 end) /\
    oo_pc_total oo4 + zsum ev_pc (a_evs A') = oo_pc_total oo + zsum ev_pc (a_evs A) + (match oi_side ix with Bid => dep1 | Ask => 0 end) - F /\
    zsum ev_rebate (a_evs A') = zsum ev_rebate (a_evs A) + R /\ 0 <= R <= F /\
    m_coin_deposits (ob_mkt o1) = m_coin_deposits (ob_mkt o) + (match oi_side ix with Ask => dep1 | Bid => 0 end) /\
    m_coin_deposits (ob_mkt o1) < B64 /\
    m_pc_deposits (ob_mkt o1) = m_pc_deposits (ob_mkt o) + (match oi_side ix with Bid => dep1 | Ask => 0 end) /\
    m_pc_fees (ob_mkt o1) = m_pc_fees (ob_mkt o) /\ m_rebates (ob_mkt o1) = m_rebates (ob_mkt o)).
  { pose proof (ao_coin _ _ _ _ _ _ AO) as P1. pose proof (ao_pc _ _ _ _ _ _ AO) as P2.
    pose proof (ao_coin_max _ _ _ _ _ _ AO) as P3. pose proof (ao_pc_max _ _ _ _ _ _ AO) as P4.
    pose proof (ao_lcoin _ _ _ _ _ _ AO) as P5. pose proof (ao_lpc _ _ _ _ _ _ AO) as P6. fold cl in P5. fold pl in P6.
    destruct (oi_side ix) eqn:SD.
    - destruct LK as (-> & fl & L1 & L2 & L3 & L4 & L5 & L6 & L7 & L8 & L9).
      destruct ALL as [_ _ SU _ _]. rewrite LOT1, LOT2 in SU. destruct SU as [u1 u2 u3 u4 u5 (u6a & u6b & u6c) u7 u8].
      cbn [pr_zero p_coin_unlocked p_pc_unlocked p_coin_credit p_pc_credit p_coin_debit p_pc_debit] in *. unfold LedgerSums.st in u5. rewrite ST in u5.
      rewrite L8. cbn [m_coin_deposits m_pc_deposits m_pc_fees m_rebates set_pc_deposits set_counters].
      unfold u64 in *. rewrite u6a, u6b, u6c in *.
      split. { intros k' N. rewrite u1, u2, ME. replace (k =? k') with false by lia. split; lia. }
      rewrite u1, u2, ME, Z.eqb_refl.
      replace (cl * (p_coin_credit pr - 0)) with (p_coin_credit pr * cl) in u3 by ring.
      assert (G0 : 0 <= p_coin_credit pr * cl) by (apply Z.mul_nonneg_nonneg; unfold cl; pose proof (ci_cl _ _ _ _ C); lia).
      rewrite !Z.mul_0_l in *. remember (p_coin_credit pr * cl) as CC eqn:ECC.
      clear - A1 A2 A3 A4 A5 A6 A7 A8 A9 L1 L2 L3 L4 L5 L6 L7 L9 u2 u3 u4 u5 u7 u8 P1 P2 P3 P4 P5 P6 MU1 MU4 DEP G0.
      repeat (match goal with |- _ /\ _ => split end); try reflexivity; lia.
    - destruct LK as (-> & LQ & fl & L1 & L2 & L3 & L4 & L5 & L6 & L7 & L8 & L9).
      destruct ALL as [_ _ SU _ _]. rewrite LOT1, LOT2 in SU. destruct SU as [u1 u2 u3 u4 u5 (u6a & u6b & u6c) u7 u8].
      cbn [pr_zero p_coin_unlocked p_pc_unlocked p_coin_credit p_pc_credit p_coin_debit p_pc_debit] in *. unfold LedgerSums.st in u5. rewrite ST in u5.
      rewrite L8. cbn [m_coin_deposits m_pc_deposits m_pc_fees m_rebates set_coin_deposits set_counters].
      unfold u64 in *. rewrite u6a, u6b, u6c in *.
      split. { intros k' N. rewrite u1, u2, ME. replace (k =? k') with false by lia. split; lia. }
      rewrite u1, u2, ME, Z.eqb_refl.
      replace (cl * (p_coin_debit pr - 0)) with (p_coin_debit pr * cl) in u3 by ring.
      replace (cl * (oi_qty ix - (p_coin_unlocked pr - 0) - (p_coin_debit pr - 0) - 0))
        with (oi_qty ix * cl - p_coin_unlocked pr * cl - p_coin_debit pr * cl) by ring.
      assert (CLP : 0 < cl) by apply (ci_cl _ _ _ _ C).
      assert (G0 : 0 <= p_coin_debit pr * cl) by (apply Z.mul_nonneg_nonneg; lia).
      assert (G1 : 0 <= p_coin_unlocked pr * cl) by (apply Z.mul_nonneg_nonneg; lia).
      rewrite !Z.mul_0_l in *. remember (p_coin_debit pr * cl) as CC eqn:ECC. remember (p_coin_unlocked pr * cl) as CU eqn:ECU.
      remember (oi_qty ix * cl) as CQ eqn:ECQ.
      clear - A1 A2 A3 A4 A5 A6 A7 A8 A9 L1 L2 L3 L4 L5 L6 L7 L9 u2 u3 u4 u5 u7 u8 P1 P2 P3 P4 P5 P6 MU1 MU4 DEP G0 G1.
      repeat (match goal with |- _ /\ _ => split end); try reflexivity; lia. }
  destruct NUM as (N1 & N2 & N3 & N4 & N5 & N6 & N7 & N8 & N9 & N10 & N11 & N12 & N13 & N14 & N15 & N16).
  (* the accounts *)
  assert (ACC : forall k' oo', In (k', oo') ((k, oo4) :: L) -> acct_ok cl pl (seq + 1) k' oo' A').
  { intros k' oo' [[= <- <-]|HIN].
    - rewrite <- LOT1, <- LOT2. rewrite <- LOT1 in N2. rewrite <- LOT2 in N3.
      eapply (order_account _ _ _ _ _ _ _ _ _ _ _ _ _ _ _ _ _ _ _ _ _ _ OR1 NZ SO seq oo oo4); try assumption; try lia.
      + apply fresh_id; assumption.
      + apply issued_next; [lia|assumption].
      + rewrite LOT1, LOT2. exact AO.
      + rewrite <- (proj1 (OO1 slot)). assumption.
      + rewrite (proj1 (S3 slot SL)). assumption.
      + destruct (S3 slot SL) as (_ & X & _). rewrite X. assumption.
      + destruct (S3 slot SL) as (_ & _ & X & _). rewrite X. assumption.
      + destruct (S3 slot SL) as (_ & _ & _ & X). rewrite X, Z.eqb_refl. reflexivity.
      + intros j Hj NJ. destruct (S3 j Hj) as (X1 & X2 & X3 & X4). destruct (REST j Hj NJ) as (Y1 & Y2 & Y3). destruct (OO1 j) as (Z1 & Z2 & Z3 & Z4).
        rewrite X1, X2, X3, X4. replace (j =? slot) with false by lia. replace (cid_at oo2 j) with (cid_at oo1 j) by (unfold cid_at; rewrite CI; reflexivity). repeat split; congruence.
      + intros l Hl. eapply ci_keys; eassumption.
      + intros s l Hl. eapply ci_own; eassumption.
      + intros v Hv. eapply ci_evown; eassumption.
      + rewrite RB4. apply AO.
    - assert (k' <> k).
      { intros ->. pose proof (ci_nodup _ _ _ _ C) as ND. cbn [map fst] in ND. inversion ND; subst. apply H1.
        change k with (fst (k, oo')). apply in_map. assumption. }
      destruct (N1 k' H) as [H0 H1]. rewrite <- LOT1 in H0 |- *. rewrite <- LOT2 in H1 |- *.
      eapply (order_frame _ _ _ _ _ _ _ _ _ _ _ _ _ _ _ _ _ _ _ _ _ _ OR1 NZ SO seq); try assumption; try lia.
      + apply fresh_id; assumption.
      + rewrite LOT1, LOT2. apply (ci_acct _ _ _ _ C). right. assumption. }
  assert (BK : books_ok cl pl A' /\ unx A' /\ evs_ok A').
  { pose proof (ci_unx _ _ _ _ C). pose proof (ci_evs _ _ _ _ C). destruct (oi_side ix); destruct ALL; rewrite LOT1, LOT2 in *; auto. }
  destruct BK as ((BF & _) & UX & EO).
  assert (NDL : NoDup (map fst ((k, oo4) :: L))) by exact (ci_nodup _ _ _ _ C).
  assert (OWN : forall s l, In l (book_of A' s) -> In (l_owner l) (map fst ((k, oo4) :: L)) /\ 0 <= l_slot l < 128).
  { intros s l Hl. destruct (LV s l Hl) as [(l0 & H0 & X1 & X2 & X3 & _)|(_ & _ & X2 & X3 & _)].
    - rewrite <- X2, <- X3. exact (ci_own _ _ _ _ C s l0 H0).
    - rewrite X2, X3. split; [left; reflexivity|assumption]. }
  assert (EVO : forall v, In v (a_evs A') -> In (ev_owner v) (map fst ((k, oo4) :: L)) /\ 0 <= ev_slot v < 128).
  { intros v Hv. destruct (EVS v Hv) as [H0|[(_ & X1 & X2 & _)|(s & b & H0 & X1 & X2 & _)]].
    - exact (ci_evown _ _ _ _ C v H0).
    - rewrite X1, X2. split; [left; reflexivity|assumption].
    - rewrite X1, X2. exact (ci_own _ _ _ _ C s b H0). }
  assert (SUMC : sum_coin ((k, oo4) :: L) + zsum ev_coin (a_evs A') = m_coin_deposits (ob_mkt o1)).
  { pose proof (ci_coin _ _ _ _ C) as X. unfold sum_coin in *. cbn [zsum snd] in *. lia. }
  assert (SUMP : sum_pc ((k, oo4) :: L) + zsum ev_pc (a_evs A') = m_pc_deposits (ob_mkt o1) - F).
  { pose proof (ci_pc _ _ _ _ C) as X. unfold sum_pc in *. cbn [zsum snd] in *. lia. }
  pose proof (ci_cl _ _ _ _ C) as CL. pose proof (ci_pl _ _ _ _ C) as PL. fold cl in CL. fold pl in PL.
  pose proof (pc_deposits_nonneg cl pl (seq + 1) ((k, oo4) :: L) A' NDL EO BF PL ACC OWN EVO) as PN. rewrite SUMP in PN.
  pose proof (coin_deposits_nonneg cl pl (seq + 1) ((k, oo4) :: L) A' NDL EO BF CL ACC OWN EVO) as CN. rewrite SUMC in CN.
  destruct (mkt_after_exact (ob_mkt o1) F R MU1' N11) as (M1 & M2 & M3 & M4).
  { lia. } { unfold pc_owed in *. rewrite N14, N15, N16. lia. }
  rewrite <- MK in M1, M2, M3, M4.
  pose proof (or_keeps _ _ _ _ _ _ _ _ _ _ _ _ _ _ _ _ _ _ _ _ _ _ OR1) as KP. 
  assert (SM2 : same_market (ob_mkt o) (ob_mkt o2)) by (eapply same_market_trans; [exact SM1|]; rewrite MK; reflexivity).
  assert (MKE : ob_mkt o2 = set_counters (ob_mkt o) (m_coin_deposits (ob_mkt o) + match oi_side ix with Ask => dep1 | Bid => 0 end)
        (m_pc_deposits (ob_mkt o) + (match oi_side ix with Bid => dep1 | Ask => 0 end) - F) (m_pc_fees (ob_mkt o) + F - R) (m_rebates (ob_mkt o) + R)).
  { rewrite SM2. rewrite M1, M2, M3, M4, N12, N14, N15, N16. reflexivity. }
  assert (PLD : placed oo oo4 ix cl dep1 slot id pr).
  { constructor; try assumption.
    1-4: rewrite ?A1, ?A2, ?A3, ?A4; destruct (oi_side ix); [destruct LK as (_ & fl & _ & L2 & L3 & L4 & _ & L6 & L7 & _)|destruct LK as (_ & _ & fl & _ & L2 & L3 & L4 & _ & L6 & L7 & _)];
      rewrite ?L3, ?L4, ?L6, ?L7; fold cl in L2; lia.
    - destruct (oi_side ix); [destruct LK as (_ & fl & (_ & L1) & L2 & _)|destruct LK as (_ & _ & fl & (_ & L1) & L2 & _)]; fold cl in L1, L2; lia.
    - destruct (S3 slot SL) as (X1 & X2 & X3 & X4). rewrite X1, X2, X3, X4, Z.eqb_refl, <- (proj1 (OO1 slot)). auto 10.
    - intros j Hj NJ. destruct (S3 j Hj) as (X1 & X2 & X3 & X4). destruct (REST j Hj NJ) as (Y1 & Y2 & Y3). destruct (OO1 j) as (Z1 & Z2 & Z3 & Z4).
      rewrite X1, X2, X3, X4. replace (j =? slot) with false by lia. replace (cid_at oo2 j) with (cid_at oo1 j) by (unfold cid_at; rewrite CI; reflexivity). repeat split; congruence. }
  exists A'. split; [|split; [|split; [|split; [|exists o1, slot, lk, pr, tr, q', n, E, F, R; split; [assumption|]; split; [assumption|]; split; [exact PLD|]; split; [destruct (oi_side ix); apply LK|exact MKE]]]]].
  - constructor; rewrite ?LOT3, ?LOT4; try assumption; fold cl; fold pl; try assumption.
    + apply OR1.
    + destruct KP as (-> & _ & _). rewrite OB1. apply C.
    + destruct KP as (_ & -> & _). rewrite OB2. apply C.
    + unfold u64 in *. rewrite M4. lia.
    + unfold mkt_u64, u64, pc_owed in *. rewrite M1, M2, M3. lia.
    + lia.
    + intros s l Hl. destruct (LV s l Hl) as [(l0 & H0 & X1 & _)|(X0 & X1 & _)].
      * rewrite <- X1. eapply issued_weaken; [|eapply ci_keys; eassumption]. lia.
      * rewrite X0, X1. apply issued_next; [lia|assumption].
    + exact (ci_nz _ _ _ _ C).
    + rewrite M4. assumption.
    + rewrite M1. assumption.
    + rewrite M3, N16. pose proof (ci_reb _ _ _ _ C) as X. unfold sum_reb in *. cbn [zsum snd] in *. rewrite RB4. lia.
  - f_equal. rewrite wadd_small by lia. reflexivity.
  - constructor; try assumption; try lia.
    + destruct KP as (K1 & K2 & K3). unfold keeps. rewrite K1, K2, K3, OB1, OB2, OB3. auto.
    + unfold pc_owed. rewrite M1, M2, M3, N14, N15, N16. lia.
  - lia.
Qed.

(** What SendTake does to the rest of the state. *)
Record take_done (o o' : obs) (ix : take_ix) (dep wd : Z) : Prop := mkTDone {
  td_mkt : same_market (ob_mkt o) (ob_mkt o'); td_keeps : keeps o o'; td_dep : 0 <= dep; td_wd : 0 <= wd;
  td_coin : m_coin_deposits (ob_mkt o') = m_coin_deposits (ob_mkt o) + (match ti_side ix with Ask => dep | Bid => - wd end);
  td_pc : pc_owed (ob_mkt o') = pc_owed (ob_mkt o) + (match ti_side ix with Bid => dep | Ask => - wd end);
  td_fees : m_pc_fees (ob_mkt o) <= m_pc_fees (ob_mkt o')
}.
Theorem send_take_inv o cnt seq L A t ix o' rq' dep wd :
  cinv o seq L A -> take_ix_ok ix -> seq + 1 < B64 ->
  send_take_core o (cnt, seq) t ix = Ok (o', rq', dep, wd) ->
  m_coin_deposits (ob_mkt o) + (match ti_side ix with Ask => dep | Bid => 0 end) < B64 ->
  pc_owed (ob_mkt o) + (match ti_side ix with Bid => dep | Ask => 0 end) < B64 ->
  exists A', cinv o' (seq + 1) L A' /\ rq' = (cnt, seq + 1) /\ take_done o o' ix dep wd /\
    exists o1 pr tr q' n E F R, same_market (ob_mkt o1) (ob_mkt o') /\
      order_result o A (ti_side ix) ImmediateOrCancel (ti_price ix * B64 + seq_part (ti_side ix) seq) 0 0 t (ti_qty ix)
        (match ti_side ix with Bid => ti_pc ix | Ask => 0 end) 0 AbortTransaction (Z.to_nat (ti_limit ix)) o1 pr A' tr q' n E F R /\
      match ti_side ix with
      | Bid => dep = p_pc_debit pr /\ wd = p_coin_credit pr * m_coin_lot (ob_mkt o) /\ ti_min_coin ix <= p_coin_credit pr
      | Ask => dep = p_coin_debit pr * m_coin_lot (ob_mkt o) /\ wd = p_pc_credit pr /\ ti_min_pc ix <= p_pc_credit pr
      end /\
      ob_mkt o' = set_counters (ob_mkt o) (m_coin_deposits (ob_mkt o) + match ti_side ix with Ask => dep | Bid => - wd end)
        (m_pc_deposits (ob_mkt o) + (match ti_side ix with Bid => dep | Ask => - wd end) - F) (m_pc_fees (ob_mkt o) + F - R) (m_rebates (ob_mkt o) + R).
Proof.
  intros C IX SQ H OWC OWP. destruct IX. pose proof (ci_seq _ _ _ _ C) as SEQ.
  unfold send_take_core in H. cbn [fst snd] in H. rewrite gen_order_id_spec in H by (unfold u64; lia).
  apply rbind_ok in H. destruct H as ([[o1 pr] rem] & HN & H).
  apply rbind_ok in H. destruct H as (? & HM & H). apply check_ok in HM.
  set (id := ti_price ix * B64 + seq_part (ti_side ix) seq) in *.
  set (pc := match ti_side ix with Bid => ti_pc ix | Ask => 0 end) in *.  change system_id with 0 in HN.
  pose proof (ci_mkt _ _ _ _ C) as MU. pose proof MU as (MU1 & MU2 & MU3). pose proof (ci_coin_dep _ _ _ _ C) as MU4.
  assert (RD : ready o A (ti_side ix) ImmediateOrCancel id 0 (ti_qty ix) pc AbortTransaction).
  { replace o with (set_mkt o (ob_mkt o)) by (destruct o; reflexivity).
    eapply order_ready; try eassumption; try lia; auto.
    - intros E. unfold pc. rewrite E. split; [reflexivity|lia].
    - intros E. unfold pc. rewrite E. assumption.
    - apply same_market_refl. }
  pose proof (new_order_result o A _ _ _ _ 0 t _ _ 0 _ (Z.to_nat (ti_limit ix)) (ci_rep _ _ _ _ C) RD) as NR. rewrite HN in NR. cbn [outcome] in NR.
  destruct NR as (_ & NR & NB & DB & F0 & R0 & MK0).
  assert (LOT1 : m_coin_lot (ob_mkt o1) = m_coin_lot (ob_mkt o)) by (rewrite MK0; reflexivity).
  assert (LOT2 : m_pc_lot (ob_mkt o1) = m_pc_lot (ob_mkt o)) by (rewrite MK0; reflexivity).
  rewrite LOT1 in H.
  assert (SP : spent o (ti_side ix) pr < B64).
  { destruct (ti_side ix) eqn:SD; [apply NB; auto|]. unfold spent. apply rbind_ok in H. destruct H as (d & H1 & _). apply cmul_ok in H1. lia. }
  destruct (NR SP) as (A' & tr & q' & n & E & F & R & OR1). clear NR NB F0 R0 MK0.
  pose proof (or_mkt _ _ _ _ _ _ _ _ _ _ _ _ _ _ _ _ _ _ _ _ _ _ OR1) as MK.
  pose proof (or_keeps _ _ _ _ _ _ _ _ _ _ _ _ _ _ _ _ _ _ _ _ _ _ OR1) as KP.
  pose proof (cinv_sorted _ _ _ _ C) as SO. pose proof (cinv_leaf_nz _ _ _ _ C) as NZ.
  pose proof (or_all _ _ _ _ _ _ _ _ _ _ _ _ _ _ _ _ _ _ _ _ _ _ OR1) as ALL.
  pose proof (order_leaves _ _ _ _ _ _ _ _ _ _ _ _ _ _ _ _ _ _ _ _ _ _ OR1) as LV.
  pose proof (order_events _ _ _ _ _ _ _ _ _ _ _ _ _ _ _ _ _ _ _ _ _ _ OR1 NZ) as EVS.
  assert (ST : is_send_take (params ImmediateOrCancel id 0 0 t 0 AbortTransaction) = true) by reflexivity.
  assert (ME : forall z k', me (params ImmediateOrCancel id 0 0 t 0 AbortTransaction) k' z = 0).
  { intros z k'. unfold me, LedgerSums.st. rewrite ST. reflexivity. }
  set (cl := m_coin_lot (ob_mkt o)) in *. set (pl := m_pc_lot (ob_mkt o)) in *.
  assert (M0 : m_coin_deposits (ob_mkt o1) = m_coin_deposits (ob_mkt o)) by (rewrite MK; reflexivity).
  assert (M1 : m_pc_deposits (ob_mkt o1) = w64 (m_pc_deposits (ob_mkt o) - F)) by (rewrite MK; reflexivity).
  assert (M2 : m_pc_fees (ob_mkt o1) = w64 (m_pc_fees (ob_mkt o) + F - R)) by (rewrite MK; reflexivity).
  assert (M3 : m_rebates (ob_mkt o1) = w64 (m_rebates (ob_mkt o) + R)) by (rewrite MK; reflexivity).
  assert (FREE : forall k' oo', In (k', oo') L -> k' <> 0).
  { intros k' oo' HI ->. apply (ci_nz _ _ _ _ C). change 0 with (fst (0, oo')). apply in_map. assumption. }
  assert (BK : books_ok cl pl A' /\ unx A' /\ evs_ok A').
  { pose proof (ci_unx _ _ _ _ C). pose proof (ci_evs _ _ _ _ C). destruct (ti_side ix); destruct ALL; auto. }
  destruct BK as ((BF & _) & UX & EO).
  assert (OWN : forall s l, In l (book_of A' s) -> In (l_owner l) (map fst L) /\ 0 <= l_slot l < 128).
  { intros s l Hl. destruct (LV s l Hl) as [(l0 & H0 & X1 & X2 & X3 & _)|(_ & _ & _ & _ & _ & X)]; [|discriminate].
    rewrite <- X2, <- X3. exact (ci_own _ _ _ _ C s l0 H0). }
  assert (EVO : forall v, In v (a_evs A') -> In (ev_owner v) (map fst L) /\ 0 <= ev_slot v < 128).
  { intros v Hv. destruct (EVS v Hv) as [H0|[(X & _)|(s & b & H0 & X1 & X2 & _)]].
    - exact (ci_evown _ _ _ _ C v H0).
    - contradiction.
    - rewrite X1, X2. exact (ci_own _ _ _ _ C s b H0). }
  assert (LOCK : forall k, locked_coin cl k A' = locked_coin cl k A /\ locked_pc pl k A' = locked_pc pl k A).
  { intros k. destruct (ti_side ix); destruct ALL as [_ _ SU _ _]; destruct SU as [u1 u2 _ _ _ _ _ _]; rewrite u1, u2, ME; lia. }
  assert (ACC : forall k oo, In (k, oo) L -> acct_ok cl pl (seq + 1) k oo A').
  { intros k oo HI. destruct (LOCK k) as [H0 H1].
    eapply (order_frame _ _ _ _ _ _ _ _ _ _ _ _ _ _ _ _ _ _ _ _ _ _ OR1 NZ SO seq k oo (FREE k oo HI)); [lia|apply fresh_id; assumption|exact H0|exact H1|exact (ci_acct _ _ _ _ C k oo HI)]. }
  pose proof (ci_cl _ _ _ _ C) as CL. pose proof (ci_pl _ _ _ _ C) as PL. fold cl in CL. fold pl in PL.
  pose proof (pc_deposits_nonneg cl pl (seq + 1) L A' (ci_nodup _ _ _ _ C) EO BF PL ACC OWN EVO) as PN.
  pose proof (coin_deposits_nonneg cl pl (seq + 1) L A' (ci_nodup _ _ _ _ C) EO BF CL ACC OWN EVO) as CN.
  pose proof (ci_coin _ _ _ _ C) as SC. pose proof (ci_pc _ _ _ _ C) as SPC. pose proof (ci_reb _ _ _ _ C) as SR.
  assert (NUM : rq' = (cnt, seq + 1) /\ 0 <= dep /\ 0 <= wd /\ ob_bids o' = ob_bids o1 /\ ob_asks o' = ob_asks o1 /\ ob_eq o' = ob_eq o1 /\
     same_market (ob_mkt o1) (ob_mkt o') /\
     m_coin_deposits (ob_mkt o') = m_coin_deposits (ob_mkt o) + (match ti_side ix with Ask => dep | Bid => - wd end) /\
     m_pc_deposits (ob_mkt o') = m_pc_deposits (ob_mkt o) - F + (match ti_side ix with Bid => dep | Ask => - wd end) /\
     m_pc_fees (ob_mkt o') = m_pc_fees (ob_mkt o) + F - R /\ m_rebates (ob_mkt o') = m_rebates (ob_mkt o) + R /\ 0 <= R <= F /\
     sum_coin L + zsum ev_coin (a_evs A') = m_coin_deposits (ob_mkt o') /\
     sum_pc L + zsum ev_pc (a_evs A') = m_pc_deposits (ob_mkt o') /\ zsum ev_rebate (a_evs A') = zsum ev_rebate (a_evs A) /\
     match ti_side ix with
      | Bid => dep = p_pc_debit pr /\ wd = p_coin_credit pr * cl /\ ti_min_coin ix <= p_coin_credit pr
      | Ask => dep = p_coin_debit pr * cl /\ wd = p_pc_credit pr /\ ti_min_pc ix <= p_pc_credit pr
      end).
  { unfold pc_owed, u64 in *. destruct (ti_side ix); destruct ALL as [_ _ SU _ _]; destruct SU as [_ _ u3 u4 u5 (u6a & u6b & u6c) u7 u8];
    cbn [pr_zero p_coin_unlocked p_pc_unlocked p_coin_credit p_pc_credit p_coin_debit p_pc_debit] in *; unfold LedgerSums.st in u5; rewrite ST in u5.
    - apply rbind_ok in H. destruct H as (w & H1 & H). apply cmul_ok in H1. destruct H1 as [-> H1].
      apply rbind_ok in H. destruct H as (? & H2 & H). apply check_ok in H2. injection H as <- <- <- <-.
      cbn [ob_mkt set_mkt m_coin_deposits m_pc_deposits m_pc_fees m_rebates set_counters ob_bids ob_asks ob_eq].
      replace (cl * (p_coin_credit pr - 0)) with (p_coin_credit pr * cl) in u3 by ring.
      assert (G0 : 0 <= p_coin_credit pr * cl) by (apply Z.mul_nonneg_nonneg; lia).
      remember (p_coin_credit pr * cl) as CC eqn:ECC.
      rewrite (wadd_small seq 1) by lia. rewrite M0, M1, M2, M3. rewrite !(w64_small (_ + _)), !(w64_small (_ - R)) by lia.
      assert (PD : wadd (w64 (m_pc_deposits (ob_mkt o) - F)) (p_pc_debit pr) = m_pc_deposits (ob_mkt o) - F + p_pc_debit pr).
      { unfold wadd, w64. rewrite Zplus_mod_idemp_l. apply Z.mod_small. lia. }
      rewrite PD. split; [reflexivity|]. split; [lia|]. split; [lia|]. split; [reflexivity|]. split; [reflexivity|]. split; [reflexivity|].
      split; [reflexivity|]. clear ECC. repeat (match goal with |- _ /\ _ => split end); try reflexivity; lia.
    - apply rbind_ok in H. destruct H as (w & H1 & H). apply cmul_ok in H1. destruct H1 as [-> H1].
      apply rbind_ok in H. destruct H as (? & H2 & H). apply check_ok in H2. injection H as <- <- <- <-.
      cbn [ob_mkt set_mkt m_coin_deposits m_pc_deposits m_pc_fees m_rebates set_counters ob_bids ob_asks ob_eq].
      replace (cl * (p_coin_debit pr - 0)) with (p_coin_debit pr * cl) in u3 by ring.
      assert (G0 : 0 <= p_coin_debit pr * cl) by (apply Z.mul_nonneg_nonneg; lia).
      remember (p_coin_debit pr * cl) as CC eqn:ECC.
      rewrite (wadd_small seq 1) by lia. rewrite M0, M1, M2, M3. rewrite !(w64_small (_ + _)), !(w64_small (_ - _)) by lia.
      rewrite wadd_small by lia.
      split; [reflexivity|]. split; [lia|]. split; [lia|]. split; [reflexivity|]. split; [reflexivity|]. split; [reflexivity|].
      split; [reflexivity|]. clear ECC. repeat (match goal with |- _ /\ _ => split end); try reflexivity; lia. }
  destruct NUM as (N0 & N1 & N2 & N3 & N4 & N5 & N6 & N7 & N8 & N9 & N10 & N11 & N12 & N13 & N14 & N15).
  assert (SMO : same_market (ob_mkt o) (ob_mkt o')) by (eapply same_market_trans; [|exact N6]; rewrite MK; reflexivity).
  assert (L1 : m_coin_lot (ob_mkt o') = cl) by (rewrite SMO; reflexivity).
  assert (L2 : m_pc_lot (ob_mkt o') = pl) by (rewrite SMO; reflexivity).
  exists A'. split; [|split; [assumption|split]].
  - pose proof (or_rep _ _ _ _ _ _ _ _ _ _ _ _ _ _ _ _ _ _ _ _ _ _ OR1) as RP.
    constructor; rewrite ?L1, ?L2; try assumption.
    + rewrite (obs_same o1 o') by assumption. apply rep_other_mkt. assumption.
    + rewrite N3. destruct KP as (-> & _ & _). apply C.
    + rewrite N4. destruct KP as (_ & -> & _). apply C.
    + rewrite N12 in CN. unfold u64 in *. split; [assumption|]. rewrite N7. clear - OWC MU4 N2. destruct (ti_side ix); lia.
    + rewrite N13, N8 in PN. unfold mkt_u64, u64, pc_owed in *. rewrite N8, N9, N10. clear - OWP N1 N2 N11 MU1 MU2 MU3 PN.
      destruct (ti_side ix); lia.
    + lia.
    + intros s l Hl. destruct (LV s l Hl) as [(l0 & H0 & X1 & _)|(_ & _ & _ & _ & _ & X)]; [|discriminate].
      rewrite <- X1. eapply issued_weaken; [|eapply ci_keys; eassumption]. lia.
    + apply C.
    + apply C.
    + lia.
  - constructor; try assumption.
    + unfold keeps. rewrite N3, N4, N5. destruct KP as (K1 & K2 & K3). auto.
    + unfold pc_owed. rewrite N8, N9, N10. lia.
    + lia.
  - exists o1, pr, tr, q', n, E, F, R. split; [assumption|]. split; [assumption|]. split; [exact N15|].
    rewrite SMO. rewrite N7, N8, N9, N10. f_equal. destruct (ti_side ix); lia.
Qed.
