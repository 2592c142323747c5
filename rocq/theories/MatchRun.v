(** Whole orders: the loop of new_order performs [ask_run] / [bid_run]. *)
From Verif Require Import Base BaseProofs Fees FeesSpec FeesProofs Critbit CritbitProofs CritbitSlab CritbitOps
  CritbitSpec CritbitRefine ListSum Queue QueueSpec QueueProofs Codec Market Matching MatchSteps MatchRefine
  MatchAsk MatchBid.

(** ** The reduced book *)
Lemma shrink_In b left bk y : In y (shrink b left bk) ->
  (left <> 0 /\ y = set_qty b left) \/ (In y bk /\ l_key y <> l_key b).
Proof.
  unfold shrink. destruct (left =? 0) eqn:E.
  - rewrite ldel_In. tauto.
  - intros H. apply lset_In in H. cbn in H. destruct H as [->|H]; [left; split; [lia|reflexivity]|right; exact H].
Qed.
Lemma shrink_In_other b left bk y : In y bk -> l_key y <> l_key b -> In y (shrink b left bk).
Proof.
  intros H K. unfold shrink. destruct (left =? 0).
  - rewrite ldel_In. tauto.
  - unfold lset. apply in_map_iff. exists y. split; [|assumption]. cbn. replace (l_key y =? l_key b) with false by lia. reflexivity.
Qed.
Lemma shrink_In_self b left bk : In b bk -> left <> 0 -> In (set_qty b left) (shrink b left bk).
Proof.
  intros H K. unfold shrink. replace (left =? 0) with false by lia.
  unfold lset. apply in_map_iff. exists b. split; [|assumption]. cbn. rewrite Z.eqb_refl. reflexivity.
Qed.
Lemma shrink_sorted b left bk : sorted bk -> sorted (shrink b left bk).
Proof. intros. unfold shrink. destruct (left =? 0); [apply ldel_sorted|apply lset_sorted]; assumption. Qed.
Lemma zsum_shrink f b left bk : sorted bk -> In b bk -> f (set_qty b 0) = 0 ->
  zsum f (shrink b left bk) = zsum f bk - f b + f (set_qty b left).
Proof.
  intros S H F. unfold shrink. destruct (left =? 0) eqn:E.
  - replace left with 0 by lia. rewrite F, zsum_ldel by assumption. lia.
  - apply zsum_lset; auto.
Qed.
Lemma shrink_fresh b left bk k : In b bk -> lfind k bk = None -> lfind k (shrink b left bk) = None.
Proof.
  intros Hb H. rewrite lfind_None in *. intros x Hx E. apply shrink_In in Hx.
  destruct Hx as [[_ ->]|[Hx _]]; [apply (H b Hb E)|apply (H x Hx E)].
Qed.

Lemma best_bid_In A b : best_bid A = Some b -> In b (a_bids A).
Proof. apply first_leaf_In. Qed.
Lemma best_ask_In A b : best_ask A = Some b -> In b (a_asks A).
Proof. apply first_leaf_In. Qed.

Ltac name_step :=
  repeat match goal with
  | H : best_bid _ = Some _ |- _ => progress (rename H into HBest)
  | H : best_ask _ = Some _ |- _ => progress (rename H into HBest)
  | H : self_qty _ _ _ = Some _ |- _ => progress (rename H into HSelf)
  | H : (if _ then None else Some _) = Some _ |- _ => progress (rename H into HRem)
  | H : (_, _) = (if _ then _ else _) |- _ => progress (rename H into HUnl)
  end.

Section Run.
Variables (cl pl capb capa : Z) (p : order_params).
Let lim := price_of_id (op_order_id p).

Definition books_ok (A : astate) : Prop := books_fit cl pl A /\ sorted (a_bids A) /\ sorted (a_asks A).

Lemma bid_fit_part b n : bid_fit pl b -> 0 < pl -> 0 < n <= l_qty b -> bid_fit pl (set_qty b n).
Proof.
  intros (F1 & F2 & F3 & F4) Hpl Hn. unfold bid_fit, bid_val in *. cbn [set_qty l_qty].
  change (l_price (set_qty b n)) with (l_price b). change (tier_ok (set_qty b n)) with (tier_ok b).
  pose proof (part_bounds n (l_qty b) (l_price b) pl B64). intuition lia.
Qed.
Lemma ask_fit_part b n : ask_fit cl b -> 0 < cl -> 0 < n <= l_qty b -> ask_fit cl (set_qty b n).
Proof.
  intros (F1 & F2 & F3 & F4) Hcl Hn. unfold ask_fit, ask_val in *. cbn [set_qty l_qty].
  change (l_price (set_qty b n)) with (l_price b). change (tier_ok (set_qty b n)) with (tier_ok b).
  pose proof (part_bounds1 n (l_qty b) cl B64). intuition lia.
Qed.
Lemma my_tier_ok q : tier_ok (my_leaf p q).
Proof. unfold tier_ok, my_leaf. cbn. destruct (op_tier p); discriminate. Qed.
Lemma self_qty_bounds b t cprov ctake :
  self_qty p t (l_qty b) = Some (cprov, ctake) -> 0 < t <= l_qty b ->
  0 < cprov <= l_qty b /\ 0 <= ctake <= t.
Proof. unfold self_qty. destruct (op_st p); intros H ?; inversion H; subst; lia. Qed.

Lemma fit_bids_shrink bk b n : (forall l, In l bk -> bid_fit pl l) -> In b bk -> 0 < pl ->
  0 <= n <= l_qty b -> forall l, In l (shrink b n bk) -> bid_fit pl l.
Proof.
  intros F Hb Hpl Hn l Hl. apply shrink_In in Hl. destruct Hl as [[H ->]|[Hl _]]; [|auto].
  apply bid_fit_part; auto. lia.
Qed.
Lemma fit_asks_shrink bk b n : (forall l, In l bk -> ask_fit cl l) -> In b bk -> 0 < cl ->
  0 <= n <= l_qty b -> forall l, In l (shrink b n bk) -> ask_fit cl l.
Proof.
  intros F Hb Hpl Hn l Hl. apply shrink_In in Hl. destruct Hl as [[H ->]|[Hl _]]; [|auto].
  apply ask_fit_part; auto. lia.
Qed.

Lemma ask_step_books po A pr q A' pr' fee rq :
  0 < cl -> 0 < pl -> 0 < q -> (is_send_take p = false -> q * cl < B64) -> 0 < lim -> books_ok A ->
  ask_step cl pl capa p lim po A pr q A' pr' fee rq -> books_ok A'.
Proof.
  intros Hcl Hpl Hq Hqc Hlim ([FB FA] & SB & SA) H.
  assert (MY : is_send_take p = false -> ask_fit cl (my_leaf p q)).
  { intros ES. specialize (Hqc ES). unfold ask_fit, ask_val. cbn [my_leaf l_qty]. change (l_price (my_leaf p q)) with lim.
    pose proof (my_tier_ok q). auto. }
  destruct H; unfold books_ok; cbn [a_bids a_asks].
  - split; [|split; [assumption|apply lins_sorted; assumption]]. constructor; cbn [a_bids a_asks]; [assumption|].
    intros l Hl. apply lins_In in Hl. destruct Hl as [->|Hl]; auto.
  - split; [|split; [assumption|apply lins_sorted, ldel_sorted; assumption]]. constructor; cbn [a_bids a_asks]; [assumption|].
    intros l Hl. apply lins_In in Hl. destruct Hl as [->|Hl]; auto. apply ldel_In in Hl. apply FA. tauto.
  - split; [|auto]. constructor; assumption.
  - pose proof (best_bid_In _ _ H) as Hb. destruct (FB b Hb) as (F1 & _).
    destruct (self_qty_bounds _ _ _ _ H3) as [B1 B2]; [lia|].
    split; [|split; [apply shrink_sorted|]; assumption]. constructor; cbn [a_bids a_asks]; [|assumption].
    apply fit_bids_shrink; auto. lia.
  - pose proof (best_bid_In _ _ H) as Hb. destruct (FB b Hb) as (F1 & _).
    split; [|split; [apply shrink_sorted|]; assumption]. constructor; cbn [a_bids a_asks]; [|assumption].
    apply fit_bids_shrink; auto. lia.
Qed.

Lemma bid_step_books po A pr q L A' pr' fee rq :
  0 < cl -> 0 < pl -> 0 < q -> 0 < L < B64 -> 0 < lim -> books_ok A ->
  bid_step cl pl capb p lim po A pr q L A' pr' fee rq -> books_ok A'.
Proof.
  intros Hcl Hpl Hq HL Hlim ([FB FA] & SB & SA) H.
  assert (MY : 0 < bid_post_qty pl lim q L -> bid_fit pl (my_leaf p (bid_post_qty pl lim q L))).
  { intros HN. unfold bid_fit, bid_val. cbn [my_leaf l_qty]. change (l_price (my_leaf p _)) with lim.
    destruct (post_qty_bounds pl p q L) as (N1 & N2 & N3 & N4); try assumption; [apply HL|]. fold lim in N3.
    pose proof (my_tier_ok (bid_post_qty pl lim q L)). repeat split; auto. cbn. lia. }
  destruct H; unfold books_ok; cbn [a_bids a_asks].
  - subst n. split; [|split; [apply lins_sorted|]; assumption]. constructor; cbn [a_bids a_asks]; [|assumption].
    intros l Hl. apply lins_In in Hl. destruct Hl as [->|Hl]; auto.
  - subst n. split; [|split; [apply lins_sorted, ldel_sorted|]; assumption]. constructor; cbn [a_bids a_asks]; [|assumption].
    intros l Hl. apply lins_In in Hl. destruct Hl as [->|Hl]; auto. apply ldel_In in Hl. apply FB. tauto.
  - split; [|auto]. constructor; assumption.
  - pose proof (best_ask_In _ _ H) as Hb. destruct (FA b Hb) as (F1 & _).
    destruct (self_qty_bounds _ _ _ _ H5) as [B1 B2]; [lia|].
    split; [|split; [|apply shrink_sorted]; assumption]. constructor; cbn [a_bids a_asks]; [assumption|].
    apply fit_asks_shrink; auto. lia.
  - pose proof (best_ask_In _ _ H) as Hb. destruct (FA b Hb) as (F1 & _).
    split; [|split; [|apply shrink_sorted]; assumption]. constructor; cbn [a_bids a_asks]; [assumption|].
    apply fit_asks_shrink; auto. lia.
Qed.

Lemma bid_val_qty b n : bid_val pl (set_qty b n) = n * l_price b * pl.
Proof. reflexivity. Qed.
Lemma fee_bounds t v : u64 v -> 0 <= taker_fee t v <= v.
Proof. apply taker_fee_le. Qed.

Lemma ask_step_wf po A pr q A' pr' fee q1 :
  0 < cl -> 0 < pl -> books_ok A -> ask_wf cl pl p A pr q ->
  ask_step cl pl capa p lim po A pr q A' pr' fee (Some q1) -> ask_wf cl pl p A' pr' q1 /\ q1 <= q /\ po = false.
Proof.
  intros Hcl Hpl BO W H. pose proof BO as (BF & SB & SA).
  assert (BO' : books_ok A') by (destruct W; apply (ask_step_books po A pr q A' pr' fee (Some q1)); assumption).
  pose proof W as W0. destruct W0 as [WF Wq Wqc Wlim Wid Wfr Wst W1 W2 W3 W4 W5].
  inversion H; subst; name_step.
  - pose proof (best_bid_In _ _ HBest) as Hb. destruct (f_bids _ _ _ BF b Hb) as (F1 & F2 & F3 & F4).
    destruct (q - ctake =? 0) eqn:EQ; [discriminate|]. inversion HRem; subst q1. clear HRem.
    destruct (self_qty_bounds _ _ _ _ HSelf) as [B1 B2]; [lia|].
    assert (M1 : is_send_take p = false -> (q - ctake) * cl < B64).
    { intros ES. specialize (Wqc ES). destruct (part_bounds1 (q - ctake) q cl B64) as (M1 & M2 & M3); lia. }
    split; [|split; [lia|reflexivity]]. constructor; cbn [a_bids a_asks add_coin_unlocked p_coin_unlocked p_coin_debit p_pc_credit];
      try assumption; try lia; [apply BO'|].
    rewrite zsum_shrink by (auto; reflexivity). rewrite bid_val_qty.
    destruct (part_bounds (l_qty b - cprov) (l_qty b) (l_price b) pl B64) as (_ & _ & _ & M5); try lia; [exact F3|].
    unfold bid_val at 2. lia.
  - pose proof (best_bid_In _ _ HBest) as Hb. destruct (f_bids _ _ _ BF b Hb) as (F1 & F2 & F3 & F4).
    set (t := Z.min (l_qty b) q) in *. assert (T : 0 < t <= l_qty b /\ t <= q) by (unfold t; lia). clearbody t.
    destruct (q - t =? 0) eqn:EQ; [discriminate|]. inversion HRem; subst q1. clear HRem.
    assert (M1 : is_send_take p = false -> (q - t) * cl < B64).
    { intros ES. specialize (Wqc ES). destruct (part_bounds1 (q - t) q cl B64) as (M1 & M2 & M3); lia. }
    destruct (part_bounds t (l_qty b) (l_price b) pl B64) as (M4 & M5 & M6 & M7); try lia; [exact F3|].
    pose proof (fee_bounds (op_tier p) (t * l_price b * pl) M6) as FE.
    split; [|split; [lia|reflexivity]]. constructor; cbn [a_bids a_asks add_ask_fill p_coin_unlocked p_coin_debit p_pc_credit];
      try assumption; try lia; [apply BO'|].
    rewrite zsum_shrink by (auto; reflexivity). rewrite bid_val_qty. unfold bid_val at 2.
    replace ((l_qty b - t) * l_price b * pl) with (l_qty b * l_price b * pl - t * l_price b * pl) by ring. lia.
Qed.

Lemma bid_step_wf po A pr q L A' pr' fee q1 L1 :
  0 < cl -> 0 < pl -> books_ok A -> bid_wf cl pl p A pr q L ->
  bid_step cl pl capb p lim po A pr q L A' pr' fee (Some (q1, L1)) ->
  bid_wf cl pl p A' pr' q1 L1 /\ q1 <= q /\ L1 <= L /\ po = false.
Proof.
  intros Hcl Hpl BO W H. pose proof BO as (BF & SB & SA).
  assert (BO' : books_ok A') by (destruct W; apply (bid_step_books po A pr q L A' pr' fee (Some (q1, L1))); try assumption; lia).
  pose proof W as W0. destruct W0 as [WF Wq WL Wlim Wid Wfr Wst W1 W2 W3 W4 W5].
  destruct (budget_spec pl p L WL Hpl) as (nn & EN & EB & BB & BS).
  inversion H; subst; name_step.
  - pose proof (best_ask_In _ _ HBest) as Hb. destruct (f_asks _ _ _ BF b Hb) as (F1 & F2 & F3 & F4).
    destruct ((q - ctake =? 0) || (L - ctake * l_price b * pl =? 0)) eqn:EQ; [discriminate|].
    apply orb_false_iff in EQ. destruct EQ as [EQ1 EQ2].
    inversion HRem; subst q1 L1. clear HRem. injection HUnl as -> ->.
    set (t := Z.min (Z.min (l_qty b) q) (bid_budget pl p L / l_price b)) in *.
    assert (T : t <= l_qty b /\ t <= q /\ t <= bid_budget pl p L / l_price b) by (unfold t; lia). clearbody t.
    assert (TP : 0 <= t * l_price b <= bid_budget pl p L).
    { split; [nia|]. transitivity (bid_budget pl p L / l_price b * l_price b); [apply mul_le_r; lia|].
      rewrite Z.mul_comm. apply Z.mul_div_le. lia. }
    destruct (BS _ TP) as [TF TV].
    destruct (self_qty_bounds _ _ _ _ HSelf) as [B1 B2]; [lia|].
    destruct (part_bounds ctake t (l_price b) pl B64) as (M4 & M5 & M6 & M7); try lia.
    split; [|split; [lia|split; [lia|reflexivity]]].
    constructor; cbn [a_bids a_asks add_pc_unlocked p_pc_unlocked p_pc_debit p_coin_credit];
      try assumption; try lia; apply BO'.
  - pose proof (best_ask_In _ _ HBest) as Hb. destruct (f_asks _ _ _ BF b Hb) as (F1 & F2 & F3 & F4).
    set (t := Z.min (Z.min (l_qty b) q) (bid_budget pl p L / l_price b)) in *.
    assert (T : t <= l_qty b /\ t <= q /\ t <= bid_budget pl p L / l_price b) by (unfold t; lia). clearbody t.
    remember (t * l_price b * pl) as v eqn:Ev.
    destruct ((q - t =? 0) || (L - v - taker_fee (op_tier p) v =? 0)) eqn:EQ; [discriminate|].
    apply orb_false_iff in EQ. destruct EQ as [EQ1 EQ2].
    inversion HRem; subst q1 L1. clear HRem.
    assert (TP : 0 <= t * l_price b <= bid_budget pl p L).
    { split; [nia|]. transitivity (bid_budget pl p L / l_price b * l_price b); [apply mul_le_r; lia|].
      rewrite Z.mul_comm. apply Z.mul_div_le. lia. }
    destruct (BS _ TP) as [TF TV]. rewrite <- Ev in TF, TV.
    assert (UV : u64 v) by (unfold u64; lia). pose proof (fee_bounds (op_tier p) v UV) as FE.
    split; [|split; [lia|split; [lia|reflexivity]]].
    constructor; cbn [a_bids a_asks add_pc_unlocked add_bid_fill p_pc_unlocked p_pc_debit p_coin_credit andb];
      try assumption; try lia; apply BO'.
Qed.

(** ** Fee accounting over a run *)
Definition mkt_after (m : market) (F R : Z) : market :=
  set_counters m (m_coin_deposits m) (w64 (m_pc_deposits m - F)) (w64 (m_pc_fees m + F - R)) (w64 (m_rebates m + R)).
Lemma accrue_after m fee : accrue m fee 0 = mkt_after m fee (fee / 5).
Proof.
  unfold accrue, mkt_after, referrer_rebate, wsub, wadd, w64. rewrite Z.sub_0_r. f_equal.
  - rewrite Zminus_mod_idemp_r. reflexivity.
  - rewrite Zminus_mod_idemp_l, Zplus_mod_idemp_r. f_equal. lia.
Qed.
Lemma after_after m F R F' R' : mkt_after (mkt_after m F R) F' R' = mkt_after m (F + F') (R + R').
Proof.
  unfold mkt_after, set_counters, w64. cbn. f_equal.
  - rewrite Zminus_mod_idemp_l. f_equal. lia.
  - rewrite <- (Zminus_mod_idemp_l (_ + F')), Zplus_mod_idemp_l, Zminus_mod_idemp_l. f_equal. lia.
  - rewrite Zplus_mod_idemp_l. f_equal. lia.
Qed.
Lemma ctx_after o o' F R : ctx cl pl capb capa o -> ob_mkt o' = mkt_after (ob_mkt o) F R -> keeps o o' ->
  ctx cl pl capb capa o'.
Proof.
  intros C E (K1 & K2 & _). destruct C. constructor; try congruence; try (rewrite E; assumption).
  rewrite E. unfold mkt_u64, mkt_after, u64. cbn. unfold w64. repeat split; apply Z.mod_pos_bound; lia.
Qed.

Definition run_post (side_run : astate -> proceeds -> Z -> Z -> Prop) (o : obs)
    (x : obs * proceeds * remaining) : Prop :=
  let '(o', pr', rem) := x in
  rem = None /\ exists A' F R, side_run A' pr' F R /\ rep o' A' /\ keeps o o' /\
    ob_mkt o' = mkt_after (ob_mkt o) F R.

Lemma rep_sorted o A : rep o A -> sorted (a_bids A) /\ sorted (a_asks A).
Proof. intros R. split; [apply (rep_sorted_book o A Bid R)|apply (rep_sorted_book o A Ask R)]. Qed.

Theorem ask_loop n : forall o A pr q po,
  ctx cl pl capb capa o -> rep o A -> ask_wf cl pl p A pr q ->
  outcome (new_order_loop n o pr p Ask po q 0)
    (run_post (ask_run cl pl capa p lim n po A pr q) o) match_err.
Proof.
  induction n as [|n IH]; intros o A pr q po C R W.
  - cbn [new_order_loop]. cbn [passert rbind Z.eqb].
    change (0 =? 0) with true. cbn [passert rbind].
    replace (price_of_id (op_order_id p) =? 0) with false by (destruct W; lia). cbn [negb passert rbind].
    eapply outcome_bind; [apply (new_ask_step cl pl capb capa p); [exact C|exact R|exact W]|].
    intros [[o1 pr1] rem] (A' & fee & rq & H & -> & R1 & K1 & M1). cbn [outcome].
    destruct rq as [q1|].
    { destruct (rep_sorted o A R) as [SB SA]. exfalso.
      destruct (ask_step_wf _ _ _ _ _ _ _ _ (c_clp _ _ _ _ _ C) (c_plp _ _ _ _ _ C) (conj (aw_fit _ _ _ _ _ _ W) (conj SB SA)) W H) as (_ & _ & E). discriminate. }
    split; [reflexivity|]. exists A', fee, (fee / 5). split; [apply (AR_last _ _ _ _ _ O po); exact H|].
    split; [assumption|]. split; [assumption|]. rewrite M1. apply accrue_after.
  - cbn [new_order_loop]. change (0 =? 0) with true. cbn [passert rbind].
    replace (price_of_id (op_order_id p) =? 0) with false by (destruct W; lia). cbn [negb passert rbind].
    eapply outcome_bind; [apply (new_ask_step cl pl capb capa p); [exact C|exact R|exact W]|].
    intros [[o1 pr1] rem] (A' & fee & rq & H & -> & R1 & K1 & M1).
    rewrite accrue_after in M1.
    destruct rq as [q1|]; cbn [option_map].
    + destruct (rep_sorted o A R) as [SB SA].
      destruct (ask_step_wf _ _ _ _ _ _ _ _ (c_clp _ _ _ _ _ C) (c_plp _ _ _ _ _ C) (conj (aw_fit _ _ _ _ _ _ W) (conj SB SA)) W H) as (W1 & _ & E). subst po.
      pose proof (ctx_after _ _ _ _ C M1 K1) as C1.
      eapply outcome_weaken; [apply (IH o1 A' pr1 q1 false C1 R1 W1)| |auto].
      intros [[o2 pr2] rem2] (-> & A2 & F & RR & H2 & R2 & K2 & M2).
      split; [reflexivity|]. exists A2, (fee + F), (fee / 5 + RR). split; [eapply AR_more; eauto|].
      split; [assumption|]. split; [eapply keeps_trans; eauto|]. rewrite M2, M1. apply after_after.
    + cbn [outcome]. split; [reflexivity|]. exists A', fee, (fee / 5). split; [apply (AR_last _ _ _ _ _ (S n) po); exact H|].
      split; [assumption|]. split; assumption.
Qed.

Theorem bid_loop n : forall o A pr q L po,
  ctx cl pl capb capa o -> rep o A -> bid_wf cl pl p A pr q L ->
  outcome (new_order_loop n o pr p Bid po q L)
    (run_post (bid_run cl pl capb p lim n po A pr q L) o) match_err.
Proof.
  induction n as [|n IH]; intros o A pr q L po C R W.
  - cbn [new_order_loop]. replace (L =? 0) with false by (destruct W; lia). cbn [negb passert rbind].
    eapply outcome_bind; [apply (new_bid_step cl pl capb capa p); [exact C|exact R|exact W]|].
    intros [[o1 pr1] rem] (A' & fee & H & R1 & K1 & M1). cbn [outcome].
    destruct rem as [[q1 L1]|].
    { destruct (rep_sorted o A R) as [SB SA]. exfalso.
      destruct (bid_step_wf _ _ _ _ _ _ _ _ _ _ (c_clp _ _ _ _ _ C) (c_plp _ _ _ _ _ C) (conj (bw_fit _ _ _ _ _ _ _ W) (conj SB SA)) W H) as (_ & _ & _ & E). discriminate. }
    split; [reflexivity|]. exists A', fee, (fee / 5). split; [apply (BR_last _ _ _ _ _ O po); exact H|].
    split; [assumption|]. split; [assumption|]. rewrite M1. apply accrue_after.
  - cbn [new_order_loop]. replace (L =? 0) with false by (destruct W; lia). cbn [negb passert rbind].
    eapply outcome_bind; [apply (new_bid_step cl pl capb capa p); [exact C|exact R|exact W]|].
    intros [[o1 pr1] rem] (A' & fee & H & R1 & K1 & M1).
    rewrite accrue_after in M1.
    destruct rem as [[q1 L1]|].
    + destruct (rep_sorted o A R) as [SB SA].
      destruct (bid_step_wf _ _ _ _ _ _ _ _ _ _ (c_clp _ _ _ _ _ C) (c_plp _ _ _ _ _ C) (conj (bw_fit _ _ _ _ _ _ _ W) (conj SB SA)) W H) as (W1 & _ & _ & E). subst po.
      pose proof (ctx_after _ _ _ _ C M1 K1) as C1.
      eapply outcome_weaken; [apply (IH o1 A' pr1 q1 L1 false C1 R1 W1)| |auto].
      intros [[o2 pr2] rem2] (-> & A2 & F & RR & H2 & R2 & K2 & M2).
      split; [reflexivity|]. exists A2, (fee + F), (fee / 5 + RR). split; [eapply BR_more; eauto|].
      split; [assumption|]. split; [eapply keeps_trans; eauto|]. rewrite M2, M1. apply after_after.
    + cbn [outcome]. split; [reflexivity|]. exists A', fee, (fee / 5). split; [apply (BR_last _ _ _ _ _ (S n) po); exact H|].
      split; [assumption|]. split; assumption.
Qed.
End Run.
