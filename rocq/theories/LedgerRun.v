(** Whole orders: the moves, the amounts and the rounds of [ask_run] and [bid_run]. *)
From Verif Require Import Base BaseProofs Fees FeesSpec FeesProofs Critbit CritbitProofs CritbitSlab CritbitOps
  CritbitSpec CritbitRefine ListSum Queue QueueSpec QueueProofs Codec Market Matching MatchSteps MatchRefine
  MatchAsk MatchBid MatchRun Ledger LedgerSteps LedgerSums MatchSpec.

(** ** Spec vocabulary versus the step vocabulary *)
Lemma sorted_lt l a b : sorted l -> In a l -> In b l -> l_key a <> l_key b -> a <> b.
Proof. intros _ _ _ H ->. congruence. Qed.
Lemma shrink_take b t bk : sorted bk -> In b bk -> shrink b (l_qty b - t) bk = take_from (l_key b) t bk.
Proof.
  intros S Hb. unfold shrink, take_from.
  assert (G : forall x, In x bk -> l_key x = l_key b -> x = b) by (intros; eapply sorted_uniq; eauto).
  clear S. destruct (l_qty b - t =? 0) eqn:E.
  - unfold ldel. clear Hb. induction bk as [|x bk IH]; [reflexivity|]. cbn [filter flat_map].
    rewrite IH by (intros; apply G; [right; assumption|assumption]).
    destruct (l_key x =? l_key b) eqn:K; cbn [negb]; [|reflexivity].
    rewrite (G x (or_introl eq_refl)) by lia. replace (l_qty b =? t) with true by lia. reflexivity.
  - unfold lset. clear Hb. induction bk as [|x bk IH]; [reflexivity|]. cbn [map flat_map].
    rewrite IH by (intros; apply G; [right; assumption|assumption]). cbn [set_qty l_key].
    destruct (l_key x =? l_key b) eqn:K; [|reflexivity].
    rewrite (G x (or_introl eq_refl)) by lia. replace (l_qty b =? t) with false by lia. reflexivity.
Qed.
Lemma first_leaf_max l b x : sorted l -> first_leaf true l = Some b -> In x l -> x = b \/ l_key x < l_key b.
Proof.
  intros S H Hx. pose proof (first_leaf_In _ _ _ H) as Hb.
  destruct (Z.eq_dec (l_key x) (l_key b)) as [E|E]; [left; eapply sorted_uniq; eauto|right].
  unfold first_leaf in H. assert (G : exists l', l = l' ++ [b]).
  { exists (rev (tl (rev l))). rewrite <- (rev_involutive l) at 1. destruct (rev l) as [|y r]; [discriminate|].
    cbn in *. inversion H; subst. reflexivity. }
  destruct G as [l' ->]. apply in_app_or in Hx. destruct Hx as [Hx|[->|[]]]; [|congruence].
  clear -S Hx. induction l' as [|y l' IH]; [destruct Hx|]. cbn in S. inversion S as [|? ? S' F]; subst.
  destruct Hx as [->|Hx]; [|auto]. rewrite Forall_forall in F. apply F. apply in_or_app. right. left. reflexivity.
Qed.
Lemma first_leaf_least l b x : sorted l -> first_leaf false l = Some b -> In x l -> x = b \/ l_key b < l_key x.
Proof.
  intros S H Hx. destruct l as [|y l]; [discriminate|]. cbn in H. inversion H; subst.
  destruct Hx as [->|Hx]; [left; reflexivity|right]. inversion S as [|? ? S' F]; subst.
  rewrite Forall_forall in F. apply F. assumption.
Qed.
Lemma best_bid_best A b : sorted (a_bids A) -> best_bid A = Some b -> best_of Bid b (a_bids A).
Proof.
  intros S H. split; [apply best_bid_In; assumption|]. intros x Hx. apply (first_leaf_max _ _ _ S H Hx).
Qed.
Lemma best_ask_best A b : sorted (a_asks A) -> best_ask A = Some b -> best_of Ask b (a_asks A).
Proof.
  intros S H. split; [apply best_ask_In; assumption|]. intros x Hx. apply (first_leaf_least _ _ _ S H Hx).
Qed.
Lemma price_mono a b : l_key a <= l_key b -> l_price a <= l_price b.
Proof. intros H. unfold l_price. apply Z.div_le_mono; [lia|assumption]. Qed.

(** ** Events have natural amounts and books stay uncrossed *)
Definition ev_ok (v : event_view) : Prop :=
  match v with
  | EvFill _ m paid received fee _ _ _ _ _ => 0 <= paid /\ 0 <= received /\ 0 <= fee /\ (m = true -> fee = 0)
  | EvOut _ _ unlocked still _ _ _ _ => 0 <= unlocked /\ 0 <= still
  end.
Definition evs_ok (A : astate) : Prop := Forall ev_ok (a_evs A).
Definition unx (A : astate) : Prop := uncrossed (a_bids A) (a_asks A).

Section Whole.
Variables (cl pl capb capa : Z) (p : order_params).
Let lim := price_of_id (op_order_id p).
Hypothesis (Hcl : 0 < cl) (Hpl : 0 < pl).

Lemma evs_app A l B L : evs_ok A -> Forall ev_ok l -> evs_ok (mkA B L (a_evs A ++ l)).
Proof. intros. apply Forall_app. split; assumption. Qed.

Lemma ask_step_evs po A pr q A' pr' fee rq :
  books_ok cl pl A -> ask_wf cl pl p A pr q -> ask_step cl pl capa p lim po A pr q A' pr' fee rq ->
  evs_ok A -> evs_ok A'.
Proof.
  intros ([FB FA] & SB & SA) W H E. destruct W as [_ Wq Wqc Wlim Wid Wfr Wst W1 W2 W3 W4 W5].
  inversion H; subst; name_step.
  - exact E.
  - match goal with G : first_leaf true _ = Some _ |- _ => pose proof (first_leaf_In _ _ _ G) as Hw end.
    destruct (FA w Hw) as (F1 & _). apply evs_app; [exact E|]. repeat constructor; cbn; nia.
  - apply evs_app; [exact E|]. unfold vis. destruct (is_send_take p); repeat constructor; cbn; nia.
  - pose proof (best_bid_In _ _ HBest) as Hb. destruct (FB b Hb) as (F1 & F2 & _).
    destruct (self_qty_bounds _ _ _ _ _ HSelf) as [B1 B2]; [lia|].
    apply evs_app; [exact E|]. repeat constructor; cbn;
      first [lia | apply Z.mul_nonneg_nonneg; [apply Z.mul_nonneg_nonneg|]; lia | nia].
  - pose proof (best_bid_In _ _ HBest) as Hb. destruct (FB b Hb) as (F1 & F2 & F3 & _). unfold bid_val in F3.
    set (t := Z.min (l_qty b) q) in *. assert (T : 0 < t <= l_qty b /\ t <= q) by (unfold t; lia). clearbody t.
    destruct (part_bounds t (l_qty b) (l_price b) pl B64) as (M1 & M2 & M3 & M4); try lia.
    pose proof (fee_bounds (op_tier p) _ M3) as FE. unfold u64 in M3.
    assert (WT : 0 <= w64 (t * cl)) by (unfold w64; apply Z.mod_pos_bound; lia).
    apply evs_app; [exact E|]. apply Forall_app. split.
    + constructor; [cbn; repeat split; lia|]. destruct (l_qty b - t =? 0); repeat constructor; cbn; lia.
    + unfold vis. destruct (is_send_take p); [constructor|]. constructor; [cbn; repeat split; try nia; discriminate|].
      destruct (q - t =? 0); repeat constructor; cbn; lia.
Qed.

Lemma budget_t q L b t : 0 < L < B64 -> 0 < l_price b ->
  t = Z.min (Z.min (l_qty b) q) (bid_budget pl p L / l_price b) -> 0 < l_qty b -> 0 < q ->
  0 <= t /\ t <= l_qty b /\ t <= q /\ 0 <= t * l_price b * pl <= L /\
  t * l_price b * pl + taker_fee (op_tier p) (t * l_price b * pl) <= L.
Proof.
  intros HL HP Et Hb Hq. destruct (budget_spec pl p L HL Hpl) as (nn & EN & EB & BB & BS).
  assert (D : 0 <= bid_budget pl p L / l_price b) by (apply Z.div_pos; lia).
  assert (T : 0 <= t /\ t <= l_qty b /\ t <= q /\ t <= bid_budget pl p L / l_price b) by lia. clear Et.
  assert (TP : 0 <= t * l_price b <= bid_budget pl p L).
  { split; [nia|]. transitivity (bid_budget pl p L / l_price b * l_price b); [apply mul_le_r; lia|].
    rewrite Z.mul_comm. apply Z.mul_div_le. lia. }
  destruct (BS _ TP) as [TF TV]. intuition lia.
Qed.

Lemma bid_step_evs po A pr q L A' pr' fee rq :
  books_ok cl pl A -> bid_wf cl pl p A pr q L -> bid_step cl pl capb p lim po A pr q L A' pr' fee rq ->
  evs_ok A -> evs_ok A'.
Proof.
  intros ([FB FA] & SB & SA) W H E. destruct W as [_ Wq WL Wlim Wid Wfr Wst W1 W2 W3 W4 W5].
  inversion H; subst; name_step.
  - destruct (post_qty_bounds pl p q L) as (N1 & N2 & N3 & N4); try assumption; try lia. fold lim in N2, N3, N4.
    apply evs_app; [exact E|]. repeat constructor; cbn; lia.
  - destruct (post_qty_bounds pl p q L) as (N1 & N2 & N3 & N4); try assumption; try lia. fold lim in N2, N3, N4.
    match goal with G : first_leaf false _ = Some _ |- _ => pose proof (first_leaf_In _ _ _ G) as Hw end.
    destruct (FB w Hw) as (F1 & F2 & _). apply evs_app; [exact E|]. repeat constructor; cbn;
      first [lia | apply Z.mul_nonneg_nonneg; [apply Z.mul_nonneg_nonneg|]; lia].
  - apply evs_app; [exact E|]. unfold vis. destruct (is_send_take p); repeat constructor; cbn; lia.
  - pose proof (best_ask_In _ _ HBest) as Hb. destruct (FA b Hb) as (F1 & F2 & _).
    destruct (budget_t q L b _ WL F2 eq_refl) as (T1 & T2 & T3 & T4 & T5); [lia..|].
    remember (Z.min (Z.min (l_qty b) q) (bid_budget pl p L / l_price b)) as t eqn:Et. clear Et.
    destruct (self_qty_bounds _ _ _ _ _ HSelf) as [B1 B2]; [lia|].
    destruct (part_bounds ctake t (l_price b) pl B64) as (M4 & M5 & M6 & M7); try lia.
    apply evs_app; [exact E|]. constructor; [cbn; nia|]. constructor; [|constructor].
    destruct ((q - ctake =? 0) || (L - ctake * l_price b * pl =? 0)); injection HUnl as -> ->; cbn; lia.
  - pose proof (best_ask_In _ _ HBest) as Hb. destruct (FA b Hb) as (F1 & F2 & _).
    destruct (budget_t q L b _ WL F2 eq_refl) as (T1 & T2 & T3 & T4 & T5); [lia..|].
    remember (Z.min (Z.min (l_qty b) q) (bid_budget pl p L / l_price b)) as t eqn:Et. clear Et.
    remember (t * l_price b * pl) as v eqn:Ev.
    assert (UV : u64 v) by (unfold u64; lia). pose proof (fee_bounds (op_tier p) v UV) as FE.
    apply evs_app; [exact E|]. apply Forall_app. split.
    + constructor; [cbn; repeat split; nia|]. destruct (l_qty b - t =? 0); repeat constructor; cbn; lia.
    + unfold vis. destruct (is_send_take p); [constructor|]. constructor; [cbn; repeat split; try nia; discriminate|].
      destruct ((q - t =? 0) || (L - v - taker_fee (op_tier p) v =? 0)); repeat constructor; cbn; lia.
Qed.

Lemma unx_less B L E B' L' E' :
  unx (mkA B L E) -> (forall l, In l B' -> exists l0, In l0 B /\ l_key l0 = l_key l) ->
  (forall l, In l L' -> exists l0, In l0 L /\ l_key l0 = l_key l) -> unx (mkA B' L' E').
Proof.
  intros U HB HL b a Hb Ha. destruct (HB b Hb) as (b0 & Hb0 & E1). destruct (HL a Ha) as (a0 & Ha0 & E2).
  unfold l_price. rewrite <- E1, <- E2. exact (U b0 a0 Hb0 Ha0).
Qed.
Lemma shrink_less b n bk : In b bk -> forall l, In l (shrink b n bk) -> exists l0, In l0 bk /\ l_key l0 = l_key l.
Proof. intros Hb l Hl. apply shrink_In in Hl. destruct Hl as [[_ ->]|[Hl _]]; [exists b|exists l]; auto. Qed.
Lemma same_less bk : forall l : leaf, In l bk -> exists l0, In l0 bk /\ l_key l0 = l_key l.
Proof. intros l Hl. exists l. auto. Qed.

Lemma no_cross_bids A b : sorted (a_bids A) -> ~ ask_crosses lim A -> In b (a_bids A) -> l_price b < lim.
Proof.
  intros S NC Hb. destruct (best_bid A) as [w|] eqn:EB.
  - destruct (Z_lt_le_dec (l_price w) lim) as [L|L]; [|exfalso; apply NC; exists w; auto].
    destruct (first_leaf_max _ _ _ S EB Hb) as [->|K]; [assumption|].
    pose proof (price_mono b w). lia.
  - unfold best_bid, first_leaf in EB. destruct (rev (a_bids A)) eqn:ER; [|discriminate].
    apply in_rev in Hb. rewrite ER in Hb. destruct Hb.
Qed.
Lemma no_cross_asks A a : sorted (a_asks A) -> ~ bid_crosses lim A -> In a (a_asks A) -> lim < l_price a.
Proof.
  intros S NC Ha. destruct (best_ask A) as [w|] eqn:EB.
  - destruct (Z_lt_le_dec lim (l_price w)) as [L|L]; [|exfalso; apply NC; exists w; auto].
    destruct (first_leaf_least _ _ _ S EB Ha) as [->|K]; [assumption|].
    pose proof (price_mono w a). lia.
  - unfold best_ask, first_leaf in EB. destruct (a_asks A); [destruct Ha|discriminate].
Qed.

Lemma ask_step_unx po A pr q A' pr' fee rq :
  books_ok cl pl A -> ask_step cl pl capa p lim po A pr q A' pr' fee rq -> unx A -> unx A'.
Proof.
  intros (_ & SB & SA) H U. destruct A as [B L E]. cbn [a_bids a_asks a_evs] in *.
  inversion H; subst; name_step.
  - intros b a Hb Ha. cbn [a_bids a_asks] in *. apply lins_In in Ha. destruct Ha as [->|Ha]; [|apply U; assumption].
    apply (no_cross_bids (mkA B L E)); assumption.
  - intros b a Hb Ha. cbn [a_bids a_asks] in *. apply lins_In in Ha.
    destruct Ha as [->|Ha]; [|apply ldel_In in Ha; apply U; tauto].
    apply (no_cross_bids (mkA B L E)); assumption.
  - exact U.
  - apply (unx_less B L E); [exact U|apply shrink_less, (best_bid_In _ _ HBest)|apply same_less].
  - apply (unx_less B L E); [exact U|apply shrink_less, (best_bid_In _ _ HBest)|apply same_less].
Qed.
Lemma bid_step_unx po A pr q L0 A' pr' fee rq :
  books_ok cl pl A -> bid_step cl pl capb p lim po A pr q L0 A' pr' fee rq -> unx A -> unx A'.
Proof.
  intros (_ & SB & SA) H U. destruct A as [B L E]. cbn [a_bids a_asks a_evs] in *.
  inversion H; subst; name_step.
  - intros b a Hb Ha. cbn [a_bids a_asks] in *. apply lins_In in Hb. destruct Hb as [->|Hb]; [|apply U; assumption].
    apply (no_cross_asks (mkA B L E)); assumption.
  - intros b a Hb Ha. cbn [a_bids a_asks] in *. apply lins_In in Hb.
    destruct Hb as [->|Hb]; [|apply ldel_In in Hb; apply U; tauto].
    apply (no_cross_asks (mkA B L E)); assumption.
  - exact U.
  - apply (unx_less B L E); [exact U|apply same_less|apply shrink_less, (best_ask_In _ _ HBest)].
  - apply (unx_less B L E); [exact U|apply same_less|apply shrink_less, (best_ask_In _ _ HBest)].
Qed.

Lemma me_add k x y : me p k (x + y) = me p k x + me p k y.
Proof. unfold me. destruct (st p), (op_owner p =? k); lia. Qed.
Lemma me_eq k x y : x = y -> me p k x = me p k y.
Proof. intros ->. reflexivity. Qed.
Lemma ask_sums_trans A pr q A1 pr1 f1 r1 q1 A2 pr2 f2 r2 q2 :
  ask_sums cl pl p A pr q A1 pr1 f1 r1 q1 -> ask_sums cl pl p A1 pr1 q1 A2 pr2 f2 r2 q2 ->
  ask_sums cl pl p A pr q A2 pr2 (f1 + f2) (r1 + r2) q2.
Proof.
  intros [a1 a2 a3 a4 a5 a6 a7 a8] [b1 b2 b3 b4 b5 b6 b7 b8]. constructor.
  - intros k. rewrite b1, a1. reflexivity.
  - intros k. rewrite b2, a2, <- Z.add_assoc, <- me_add. f_equal. apply me_eq. lia.
  - lia.
  - lia.
  - destruct (st p); lia.
  - intuition congruence.
  - lia.
  - lia.
Qed.
Lemma bid_sums_trans A pr q L A1 pr1 f1 r1 q1 L1 A2 pr2 f2 r2 q2 L2 :
  bid_sums cl pl p A pr q L A1 pr1 f1 r1 q1 L1 -> bid_sums cl pl p A1 pr1 q1 L1 A2 pr2 f2 r2 q2 L2 ->
  bid_sums cl pl p A pr q L A2 pr2 (f1 + f2) (r1 + r2) q2 L2.
Proof.
  intros [a1 a2 a3 a4 a5 a6 a7 a8] [b1 b2 b3 b4 b5 b6 b7 b8]. constructor.
  - intros k. rewrite b1, a1. reflexivity.
  - intros k. rewrite b2, a2, <- Z.add_assoc, <- me_add. f_equal. apply me_eq. lia.
  - lia.
  - lia.
  - destruct (st p); lia.
  - intuition congruence.
  - lia.
  - lia.
Qed.

Lemma ask_step_mono po A pr q A' pr' fee rq :
  books_ok cl pl A -> ask_wf cl pl p A pr q -> ask_step cl pl capa p lim po A pr q A' pr' fee rq ->
  p_coin_debit pr <= p_coin_debit pr'.
Proof.
  intros ([FB FA] & SB & SA) W H. pose proof (aw_q _ _ _ _ _ _ W).
  inversion H; subst; name_step; try lia.
  - destruct (is_send_take p); cbn; lia.
  - cbn. lia.
  - pose proof (best_bid_In _ _ HBest) as Hb. destruct (FB b Hb) as (F1 & _). cbn. lia.
Qed.
Lemma ask_step_bk po A pr q A' pr' fee rq :
  books_ok cl pl A -> ask_wf cl pl p A pr q -> ask_step cl pl capa p lim po A pr q A' pr' fee rq -> books_ok cl pl A'.
Proof. intros B W H. destruct W. apply (ask_step_books cl pl capa p po A pr q A' pr' fee rq); assumption. Qed.
Lemma ask_run_mono n : forall po A pr q A' pr' F R,
  books_ok cl pl A -> ask_wf cl pl p A pr q -> ask_run cl pl capa p lim n po A pr q A' pr' F R ->
  p_coin_debit pr <= p_coin_debit pr'.
Proof.
  induction n as [|n IH]; intros po A pr q A' pr' F R B W H; inversion H; subst.
  - eapply ask_step_mono; eauto.
  - eapply ask_step_mono; eauto.
  - match goal with
    | S1 : ask_step _ _ _ _ _ _ _ _ _ ?A1 ?p1 ?f1 (Some ?q1), R1 : ask_run _ _ _ _ _ _ _ _ _ _ _ _ _ _ |- _ =>
        rename S1 into HS; rename R1 into HR
    end.
    pose proof (ask_step_mono _ _ _ _ _ _ _ _ B W HS).
    destruct (ask_step_wf _ _ _ _ _ _ _ _ _ _ _ _ Hcl Hpl B W HS) as (W1 & _ & _).
    pose proof (IH _ _ _ _ _ _ _ _ (ask_step_bk _ _ _ _ _ _ _ _ B W HS) W1 HR). lia.
Qed.

Lemma ask_step_le po A pr q A' pr' fee rq :
  books_ok cl pl A -> ask_wf cl pl p A pr q -> ask_step cl pl capa p lim po A pr q A' pr' fee rq ->
  p_coin_debit pr' + oz rq <= p_coin_debit pr + q.
Proof.
  intros ([FB FA] & SB & SA) W H. pose proof (aw_q _ _ _ _ _ _ W).
  inversion H; subst; name_step; cbn [oz]; try lia.
  - destruct (is_send_take p); cbn; lia.
  - pose proof (best_bid_In _ _ HBest) as Hb. destruct (FB b Hb) as (F1 & _).
    destruct (self_qty_bounds _ _ _ _ _ HSelf) as [B1 B2]; [lia|].
    destruct (q - ctake =? 0); cbn; lia.
  - destruct (q - Z.min (l_qty b) q =? 0) eqn:E; cbn; lia.
Qed.
Lemma ask_run_le n : forall po A pr q A' pr' F R,
  books_ok cl pl A -> ask_wf cl pl p A pr q -> ask_run cl pl capa p lim n po A pr q A' pr' F R ->
  p_coin_debit pr' <= p_coin_debit pr + q.
Proof.
  induction n as [|n IH]; intros po A pr q A' pr' F R B W H; inversion H; subst.
  - match goal with S1 : ask_step _ _ _ _ _ _ _ _ _ _ _ _ _ |- _ => pose proof (ask_step_le _ _ _ _ _ _ _ _ B W S1) as X end.
    cbn [oz] in X. lia.
  - match goal with S1 : ask_step _ _ _ _ _ _ _ _ _ _ _ _ _ |- _ => pose proof (ask_step_le _ _ _ _ _ _ _ _ B W S1) as X end.
    cbn [oz] in X. lia.
  - match goal with
    | S1 : ask_step _ _ _ _ _ _ _ _ _ ?A1 ?p1 ?f1 (Some ?q1), R1 : ask_run _ _ _ _ _ _ _ _ _ _ _ _ _ _ |- _ =>
        rename S1 into HS; rename R1 into HR
    end.
    pose proof (ask_step_le _ _ _ _ _ _ _ _ B W HS) as X. cbn [oz] in X.
    destruct (ask_step_wf _ _ _ _ _ _ _ _ _ _ _ _ Hcl Hpl B W HS) as (W1 & _ & _).
    pose proof (IH _ _ _ _ _ _ _ _ (ask_step_bk _ _ _ _ _ _ _ _ B W HS) W1 HR). lia.
Qed.

Record ask_all (A : astate) (pr : proceeds) (q : Z) (A' : astate) (pr' : proceeds) (F R : Z) : Prop := mkAA {
  aa_books : books_ok cl pl A';
  aa_end : step_end p Ask A A';
  aa_sums : ask_sums cl pl p A pr q A' pr' F R 0;
  aa_unx : unx A -> unx A';
  aa_evs : evs_ok A -> evs_ok A'
}.
Lemma ask_run_all n : forall po A pr q A' pr' F R,
  books_ok cl pl A -> ask_wf cl pl p A pr q -> ask_run cl pl capa p lim n po A pr q A' pr' F R ->
  p_coin_debit pr' * cl < B64 -> ask_all A pr q A' pr' F R.
Proof.
  assert (LAST : forall po A pr q A' pr' fee, books_ok cl pl A -> ask_wf cl pl p A pr q ->
    ask_step cl pl capa p lim po A pr q A' pr' fee None -> p_coin_debit pr' * cl < B64 ->
    ask_all A pr q A' pr' fee (fee / 5)).
  { intros po A pr q A' pr' fee B W H NW. constructor.
    - eapply ask_step_bk; eauto.
    - apply (ask_step_evo cl pl capa p Hpl po A pr q A' pr' fee None B W H).
    - apply (ask_step_sums cl pl capa p Hcl Hpl po A pr q A' pr' fee None B W H NW).
    - apply (ask_step_unx po A pr q A' pr' fee None B H).
    - apply (ask_step_evs po A pr q A' pr' fee None B W H). }
  induction n as [|n IH]; intros po A pr q A' pr' F R B W H NW; inversion H; subst.
  - eapply LAST; eauto.
  - eapply LAST; eauto.
  - match goal with
    | S1 : ask_step _ _ _ _ _ _ _ _ _ ?A1 ?p1 ?f1 (Some ?q1), R1 : ask_run _ _ _ _ _ _ _ _ _ _ _ _ _ _ |- _ =>
        rename S1 into HS; rename R1 into HR
    end.
    destruct (ask_step_wf _ _ _ _ _ _ _ _ _ _ _ _ Hcl Hpl B W HS) as (W1 & _ & _).
    pose proof (ask_step_bk _ _ _ _ _ _ _ _ B W HS) as B1.
    pose proof (ask_run_mono _ _ _ _ _ _ _ _ _ B1 W1 HR) as MO.
    destruct (IH _ _ _ _ _ _ _ _ B1 W1 HR NW) as [x1 (A2 & x2 & x2') x3 x4 x5].
    constructor.
    + assumption.
    + exists A2. split; [|assumption]. eapply evo_trans; [|exact x2].
      apply (ask_step_evo cl pl capa p Hpl _ _ _ _ _ _ _ _ B W HS).
    + eapply ask_sums_trans; [|exact x3].
      apply (ask_step_sums cl pl capa p Hcl Hpl _ _ _ _ _ _ _ _ B W HS). nia.
    + intros U. apply x4. apply (ask_step_unx _ _ _ _ _ _ _ _ B HS U).
    + intros U. apply x5. apply (ask_step_evs _ _ _ _ _ _ _ _ B W HS U).
Qed.

Record bid_all (A : astate) (pr : proceeds) (q L : Z) (A' : astate) (pr' : proceeds) (F R : Z) : Prop := mkBA {
  ba_books : books_ok cl pl A';
  ba_end : step_end p Bid A A';
  ba_sums : bid_sums cl pl p A pr q L A' pr' F R 0 0;
  ba_unx : unx A -> unx A';
  ba_evs : evs_ok A -> evs_ok A'
}.
Lemma bid_run_all n : (is_send_take p = true -> op_st p = AbortTransaction) -> forall po A pr q L A' pr' F R,
  books_ok cl pl A -> bid_wf cl pl p A pr q L -> bid_run cl pl capb p lim n po A pr q L A' pr' F R ->
  bid_all A pr q L A' pr' F R.
Proof.
  intros ST.
  assert (BK : forall po A pr q L A' pr' fee rq, books_ok cl pl A -> bid_wf cl pl p A pr q L ->
    bid_step cl pl capb p lim po A pr q L A' pr' fee rq -> books_ok cl pl A').
  { intros po A pr q L A' pr' fee rq B W H. destruct W. apply (bid_step_books cl pl capb p po A pr q L A' pr' fee rq); try assumption; lia. }
  assert (LAST : forall po A pr q L A' pr' fee, books_ok cl pl A -> bid_wf cl pl p A pr q L ->
    bid_step cl pl capb p lim po A pr q L A' pr' fee None ->
    bid_all A pr q L A' pr' fee (fee / 5)).
  { intros po A pr q L A' pr' fee B W H. constructor.
    - eapply BK; eauto.
    - apply (bid_step_evo cl pl capb p Hcl Hpl po A pr q L A' pr' fee None B W ST H).
    - apply (bid_step_sums cl pl capb p Hpl po A pr q L A' pr' fee None B W ST H).
    - apply (bid_step_unx po A pr q L A' pr' fee None B H).
    - apply (bid_step_evs po A pr q L A' pr' fee None B W H). }
  induction n as [|n IH]; intros po A pr q L A' pr' F R B W H; inversion H; subst.
  - eapply LAST; eauto.
  - eapply LAST; eauto.
  - match goal with
    | S1 : bid_step _ _ _ _ _ _ _ _ _ _ ?A1 ?p1 ?f1 (Some (?q1, ?L1)), R1 : bid_run _ _ _ _ _ _ _ _ _ _ _ _ _ _ _ |- _ =>
        rename S1 into HS; rename R1 into HR
    end.
    destruct (bid_step_wf _ _ _ _ _ _ _ _ _ _ _ _ _ _ Hcl Hpl B W HS) as (W1 & _ & _ & _).
    pose proof (BK _ _ _ _ _ _ _ _ _ B W HS) as B1.
    destruct (IH _ _ _ _ _ _ _ _ _ B1 W1 HR) as [x1 (A2 & x2 & x2') x3 x4 x5].
    constructor.
    + assumption.
    + exists A2. split; [|assumption]. eapply evo_trans; [|exact x2].
      apply (bid_step_evo cl pl capb p Hcl Hpl _ _ _ _ _ _ _ _ _ B W ST HS).
    + eapply bid_sums_trans; [|exact x3].
      apply (bid_step_sums cl pl capb p Hpl _ _ _ _ _ _ _ _ _ B W ST HS).
    + intros U. apply x4. apply (bid_step_unx _ _ _ _ _ _ _ _ _ B HS U).
    + intros U. apply x5. apply (bid_step_evs _ _ _ _ _ _ _ _ _ B W HS U).
Qed.
End Whole.
