(** Every successful order gives a [report]. *)
From Verif Require Import Base BaseProofs Fees FeesSpec FeesProofs Critbit CritbitProofs CritbitSlab CritbitOps
  CritbitSpec CritbitRefine ListSum Queue QueueSpec QueueProofs Codec Market Matching MatchSteps MatchRefine
  MatchAsk MatchBid MatchRun Ledger LedgerSteps LedgerSums MatchSpec LedgerRun.

Definition tk_of (p : order_params) (sd : side) : taker :=
  mkTaker sd (op_order_id p) (op_owner p) (op_slot p) (op_tier p) (op_cid p) (op_st p) (is_send_take p).

Lemma ask_crosses_dec lim A : ask_crosses lim A \/ ~ ask_crosses lim A.
Proof.
  unfold ask_crosses. destruct (best_bid A) as [b|].
  - destruct (Z_le_dec lim (l_price b)); [left; exists b; auto|right]. intros (b' & E & L). inversion E; subst. contradiction.
  - right. intros (b' & E & _). discriminate.
Qed.
Lemma bid_crosses_dec lim A : bid_crosses lim A \/ ~ bid_crosses lim A.
Proof.
  unfold bid_crosses. destruct (best_ask A) as [b|].
  - destruct (Z_le_dec (l_price b) lim); [left; exists b; auto|right]. intros (b' & E & L). inversion E; subst. contradiction.
  - right. intros (b' & E & _). discriminate.
Qed.

Section Report.
Variables (cl pl capb capa : Z) (p : order_params).
Let lim := price_of_id (op_order_id p).
Hypothesis (Hcl : 0 < cl) (Hpl : 0 < pl).

Section Ask.
Let k := tk_of p Ask.
Lemma self_true b t : op_owner p = l_owner b -> self k (b, t) = true.
Proof. intros E. unfold self. cbn. lia. Qed.
Lemma self_false b t : op_owner p <> l_owner b -> self k (b, t) = false.
Proof. intros E. unfold self. cbn. lia. Qed.

Record ask_amounts (q : Z) (pr pr' : proceeds) (F R : Z) (tr : list round) (n : Z) : Prop := mkAm {
  am_debit : p_coin_debit pr' = p_coin_debit pr + zsum (tr_coin k) tr;
  am_credit : p_pc_credit pr' = p_pc_credit pr + zsum (tr_value pl k) tr - F;
  am_fee : F = zsum (tr_fee pl k) tr;
  am_reb : R = zsum (tr_fifth pl k) tr;
  am_unl : p_coin_unlocked pr' = p_coin_unlocked pr + (if is_send_take p then 0 else q - zsum (tr_coin k) tr - n);
  am_same : p_pc_unlocked pr' = p_pc_unlocked pr /\ p_coin_credit pr' = p_coin_credit pr /\ p_pc_debit pr' = p_pc_debit pr
}.

Lemma shrink_0 b t bk : sorted bk -> In b bk -> shrink b (l_qty b - t) bk = take_from (l_key b) t bk.
Proof. apply shrink_take. Qed.

Lemma ask_stop A j q L : sorted (a_bids A) -> j = O \/ ~ ask_crosses lim A -> eager pl k j q L (a_bids A) [].
Proof.
  intros SB [->|NC]; [constructor; auto|]. apply eager_stop. right. right. intros b [Hb _] WB. exfalso.
  pose proof (no_cross_bids p A b SB NC Hb). change (lim <= l_price b) in WB. fold lim in H. lia.
Qed.
(** The iteration that meets a resting order. *)
Lemma ask_round po A pr q A' pr' fee rq :
  books_ok cl pl A -> ask_wf cl pl p A pr q -> ask_step cl pl capa p lim po A pr q A' pr' fee rq ->
  p_coin_debit pr' * cl < B64 ->
  (exists b t g, rq = (if q - used k (b, t) =? 0 then None else Some (q - used k (b, t))) /\ po = false /\
     a_asks A' = a_asks A /\ a_evs A' = a_evs A ++ g /\ reported cl pl k (b, t) g /\
     (forall tr q' bk', rounds k (q - used k (b, t)) (a_bids A') tr q' bk' -> rounds k q (a_bids A) ((b, t) :: tr) q' bk') /\
     (forall lim L tr, eager pl k lim (q - used k (b, t)) (L - tr_cost pl k (b, t)) (a_bids A') tr -> eager pl k (S lim) q L (a_bids A) ((b, t) :: tr)) /\
     fee = tr_fee pl k (b, t) /\
     p_coin_debit pr' = p_coin_debit pr + tr_coin k (b, t) /\
     p_pc_credit pr' = p_pc_credit pr + tr_value pl k (b, t) - fee /\
     p_coin_unlocked pr' = p_coin_unlocked pr + (used k (b, t) - tr_coin k (b, t)) /\
     (is_send_take p = true -> used k (b, t) = tr_coin k (b, t)) /\
     p_pc_unlocked pr' = p_pc_unlocked pr /\ p_coin_credit pr' = p_coin_credit pr /\ p_pc_debit pr' = p_pc_debit pr) \/
  (rq = None /\ fee = 0 /\ a_bids A' = a_bids A /\ (forall j L, j = O \/ po = false -> eager pl k j q L (a_bids A) []) /\ exists E n, a_evs A' = a_evs A ++ E /\
     finish cl pl k (has_room capa (a_asks A)) (op_post_allowed p) q (a_bids A) (a_asks A) (a_asks A') E n /\
     p_coin_debit pr' = p_coin_debit pr /\ p_pc_credit pr' = p_pc_credit pr /\
     p_coin_unlocked pr' = p_coin_unlocked pr + (if is_send_take p then 0 else q - n) /\
     p_pc_unlocked pr' = p_pc_unlocked pr /\ p_coin_credit pr' = p_coin_credit pr /\ p_pc_debit pr' = p_pc_debit pr).
Proof.
  intros ([FB FA] & SB & SA) W H NW. destruct W as [_ Wq Wqc Wlim Wid Wfr Wst W1 W2 W3 W4 W5].
  inversion H; subst; name_step.
  - right. split; [reflexivity|]. split; [reflexivity|]. split; [reflexivity|]. split; [intros; apply ask_stop; [assumption|auto]|]. exists [], q.
    split; [symmetry; apply app_nil_r|]. split.
    + apply fin_rest; auto.
      intros x Hx. pose proof (no_cross_bids p A x SB ltac:(eassumption) Hx). cbn. unfold tk_limit. cbn.
      fold (price_of_id (op_order_id p)). fold lim. lia.
    + destruct (is_send_take p); [discriminate|]. repeat split; lia.
  - right. split; [reflexivity|]. split; [reflexivity|]. split; [reflexivity|]. split; [intros; apply ask_stop; [assumption|auto]|]. exists ([] ++ [maker_out Ask (l_qty w * cl) 0 w]), q.
    split; [reflexivity|]. split.
    + apply (fin_evict cl pl k _ _ q (a_bids A) (a_asks A) (my_leaf p q) w []); auto.
      * intros x Hx. pose proof (no_cross_bids p A x SB ltac:(eassumption) Hx). cbn. unfold tk_limit. cbn.
        fold (price_of_id (op_order_id p)). fold lim. lia.
      * split; [eapply first_leaf_In; eassumption|]. intros x Hx. cbn.
        match goal with G : first_leaf true _ = Some _ |- _ => destruct (first_leaf_max _ _ _ SA G Hx); auto end.
    + destruct (is_send_take p); [discriminate|]. repeat split; lia.
  - right. split; [reflexivity|]. split; [reflexivity|]. split; [reflexivity|].
    split.
    { intros j L [->| ->]; [constructor; auto|]. apply ask_stop; [assumption|]. right. intros X.
      match goal with G : ask_crosses _ _ -> _ = true |- _ => discriminate (G X) end. }
    eexists _, 0.
    split; [reflexivity|]. split.
    + apply fin_gone.
      * unfold vis. destruct (is_send_take p) eqn:EST; [left; reflexivity|right]. split; [exact EST|]. eexists. reflexivity.
      * destruct (op_post_allowed p) eqn:PA; [|auto]. right. right.
        destruct (ask_crosses_dec lim A) as [(b & EB & PB)|NC];
          [|match goal with G : ~ ask_crosses _ _ -> _ = false |- _ => discriminate (G NC) end].
        exists b. split; [apply best_bid_In; assumption|exact PB].
    + destruct (is_send_take p); cbn; repeat split; lia.
  - left. pose proof (best_bid_In _ _ HBest) as Hb. destruct (FB b Hb) as (F1 & F2 & _).
    destruct (self_qty_bounds _ _ _ _ _ HSelf) as [B1 B2]; [lia|].
    assert (NS : is_send_take p = false).
    { destruct (is_send_take p); [|reflexivity]. destruct (Wst eq_refl) as [_ E]. unfold self_qty in HSelf. rewrite E in HSelf. discriminate. }
    exists b, cprov. assert (SE : self k (b, cprov) = true) by (apply self_true; assumption).
    assert (U : used k (b, cprov) = ctake).
    { unfold used. rewrite SE. cbn [tk_st k tk_of snd]. unfold self_qty in HSelf.
      destruct (op_st p); inversion HSelf; subst; reflexivity. }
    eexists. rewrite U. unfold tr_fee, tr_coin, tr_value, reported. rewrite SE.
    split; [reflexivity|]. split; [reflexivity|]. split; [reflexivity|]. split; [reflexivity|].
    split; [eexists _, _; reflexivity|].
    split.
    { intros tr q' bk' HR. cbn [a_bids] in HR. rewrite shrink_take in HR by assumption.
      apply rounds_cons; try assumption; rewrite ?U; try assumption.
      - apply best_bid_best; assumption.
      - unfold self_qty in HSelf. destruct (op_st p); inversion HSelf; subst; lia.
      - intros _. unfold self_qty in HSelf. destruct (op_st p); inversion HSelf; subst; lia.
      - intros _. cbn [tk_st k tk_of]. unfold self_qty in HSelf. destruct (op_st p); inversion HSelf; subst; split; congruence. }
    split.
    { intros j L tr HE. cbn [a_bids] in HE. rewrite shrink_take in HE by assumption.
      apply eager_round; rewrite ?U; try assumption.
      - apply best_bid_best; assumption.
      - intros X. discriminate X.
      - rewrite SE. cbn [andb tk_st k tk_of]. unfold self_qty in HSelf.
        destruct (op_st p); inversion HSelf; subst; try reflexivity. repeat split; try lia. intros X. discriminate X. }
    split; [reflexivity|]. cbn. rewrite NS. repeat split; first [lia | discriminate].
  - left. pose proof (best_bid_In _ _ HBest) as Hb. destruct (FB b Hb) as (F1 & F2 & F3 & _). unfold bid_val in F3.
    remember (Z.min (l_qty b) q) as t eqn:Et. assert (T : 0 < t <= l_qty b /\ t <= q) by lia.
    cbn [add_ask_fill p_coin_debit] in NW.
    assert (WT : w64 (t * cl) = t * cl). { unfold w64. apply Z.mod_small. nia. }
    exists b, t. assert (SE : self k (b, t) = false) by (apply self_false; assumption).
    assert (U : used k (b, t) = t) by (unfold used; rewrite SE; reflexivity).
    eexists. rewrite U. unfold tr_fee, tr_coin, tr_value, reported. rewrite SE. unfold value. cbn [fst snd].
    split; [reflexivity|]. split; [reflexivity|]. split; [reflexivity|]. split; [reflexivity|].
    split.
    { rewrite WT. exists (leaf_tier b), (if q - t =? 0 then [my_out p Ask 0 0] else []).
      split.
      - replace (l_qty b - t =? 0) with (t =? l_qty b) by lia. unfold vis. cbn [tk_silent k tk_of]. 
        destruct (is_send_take p); reflexivity.
      - destruct (q - t =? 0); [right; exists 0; reflexivity|left; reflexivity]. }
    split.
    { intros tr q' bk' HR. cbn [a_bids] in HR. rewrite shrink_take in HR by assumption.
      apply rounds_cons; try assumption; rewrite ?U; try assumption; try lia.
      - apply best_bid_best; assumption.
      - rewrite SE. discriminate. }
    split.
    { intros j L tr HE. cbn [a_bids] in HE. rewrite shrink_take in HE by assumption.
      apply eager_round; rewrite ?U; try assumption.
      - apply best_bid_best; assumption.
      - intros X. discriminate X.
      - rewrite SE. cbn [andb]. repeat split; try lia. intros X. discriminate X. }
    split; [reflexivity|]. cbn. repeat split; lia.
Qed.

Lemma eager_ask j q L L' bk tr : eager pl k j q L bk tr -> eager pl k j q L' bk tr.
Proof.
  assert (AF : forall L n x L', affords pl k L n x -> affords pl k L' n x) by (intros ? ? ? ? _ X; discriminate X).
  intros H. revert L'. induction H as [j q L bk ST|j q L bk b t tr Q B WB A1 T _ IH]; intros L'.
  - apply eager_stop. destruct ST as [ST|[ST|ST]]; auto. right. right. intros b B WB X. apply (ST b B WB). eapply AF. exact X.
  - apply eager_round; try assumption; [eapply AF; exact A1| |apply IH].
    destruct (self k (b, t) && _); [exact T|]. destruct T as (T1 & T2 & T3 & T4). split; [exact T1|]. split; [exact T2|].
    split; [eapply AF; exact T3|]. destruct T4 as [T4|[T4|T4]]; auto. right. right. intros X. apply T4. eapply AF. exact X.
Qed.
Lemma ask_report_run n : forall po A pr q A' pr' F R,
  books_ok cl pl A -> ask_wf cl pl p A pr q -> ask_run cl pl capa p lim n po A pr q A' pr' F R ->
  p_coin_debit pr' * cl < B64 ->
  exists tr q' m E, a_evs A' = a_evs A ++ E /\ ask_amounts q pr pr' F R tr m /\
    report cl pl k n po (has_room capa (a_asks A)) (op_post_allowed p) q 0
      (a_bids A) (a_asks A) (a_bids A') (a_asks A') E tr q' m.
Proof.
  assert (LAST : forall n po po' A pr q A' pr' fee, books_ok cl pl A -> ask_wf cl pl p A pr q ->
    (po = true -> po' = true) -> (n = O -> po' = true) -> (n <> O -> po = po') ->
    ask_step cl pl capa p lim po' A pr q A' pr' fee None -> p_coin_debit pr' * cl < B64 ->
    exists tr q' m E, a_evs A' = a_evs A ++ E /\ ask_amounts q pr pr' fee (fee / 5) tr m /\
    report cl pl k n po (has_room capa (a_asks A)) (op_post_allowed p) q 0
      (a_bids A) (a_asks A) (a_bids A') (a_asks A') E tr q' m).
  { clear n. intros n po po' A pr q A' pr' fee B W PO PN PS H NW.
    destruct (ask_round po' A pr q A' pr' fee None B W H NW) as
      [(b & t & g & E1 & E2 & E3 & E4 & E5 & E6 & EG & E7 & E8 & E9 & E10 & E11 & E12 & E13 & E14)|
       (_ & -> & E2 & EG & E & m & E3 & E4 & E5 & E6 & E7 & E8 & E9 & E10)].
    - exists [(b, t)], (q - used k (b, t)), 0, g. split; [assumption|].
      assert (Q0 : q - used k (b, t) = 0) by (destruct (q - used k (b, t) =? 0) eqn:EE; [lia|discriminate]).
      split.
      + constructor; cbn [zsum]; rewrite ?Z.add_0_r; try assumption; [subst fee; reflexivity| |auto].
        destruct (is_send_take p); [rewrite E10, E11 by reflexivity; lia|]. lia.
      + constructor.
        * apply E6. constructor.
        * destruct n; [rewrite (PN eq_refl) in E2; discriminate|cbn; lia].
        * intros X. rewrite (PO X) in E2. discriminate.
        * exists [g], []. cbn. rewrite !app_nil_r. split; [reflexivity|]. split; [repeat constructor; assumption|].
          rewrite E3. apply fin_gone; auto.
        * intros X. destruct n; [rewrite (PN eq_refl) in E2; discriminate|]. apply EG. constructor. auto.
    - exists [], q, m, E. split; [assumption|]. split.
      + constructor; cbn [zsum]; [lia|lia|reflexivity|reflexivity| |auto]. rewrite E7. destruct (is_send_take p); lia.
      + constructor.
        * rewrite E2. constructor.
        * cbn. lia.
        * reflexivity.
        * exists [], E. split; [reflexivity|]. split; [constructor|]. rewrite E2. exact E4.
        * intros X. apply EG. destruct n; [auto|]. right. rewrite <- X. symmetry. apply PS. discriminate. }
  induction n as [|n IH]; intros po A pr q A' pr' F R B W H NW; inversion H; subst.
  - apply (LAST O po true A pr q A' pr' F); auto.
  - apply (LAST (S n) po po A pr q A' pr' F); auto. discriminate.
  - match goal with
    | S1 : ask_step _ _ _ _ _ _ _ _ _ ?A1 ?p1 ?f1 (Some ?q1), R1 : ask_run _ _ _ _ _ _ _ _ _ _ _ _ _ _ |- _ =>
        rename S1 into HS; rename R1 into HR
    end.
    destruct (ask_step_wf _ _ _ _ _ _ _ _ _ _ _ _ Hcl Hpl B W HS) as (W1 & _ & ->).
    pose proof (ask_step_bk cl pl capa p Hcl Hpl _ _ _ _ _ _ _ _ B W HS) as B1.
    pose proof (ask_run_mono cl pl capa p Hcl Hpl _ _ _ _ _ _ _ _ _ B1 W1 HR) as MO.
    destruct (IH _ _ _ _ _ _ _ _ B1 W1 HR NW) as (tr & q' & m & E & I1 & I2 & I3).
    destruct (ask_round _ _ _ _ _ _ _ _ B W HS) as
      [(b & t & g & E1 & E2 & E3 & E4 & E5 & E6 & EG & E7 & E8 & E9 & E10 & E11 & E12 & E13 & E14)|(X & _)];
      [nia| |discriminate].
    assert (EQ : q1 = q - used k (b, t)) by (destruct (q - used k (b, t) =? 0); [discriminate|congruence]).
    exists ((b, t) :: tr), q', m, (g ++ E).
    split; [rewrite I1, E4, app_assoc; reflexivity|].
    destruct I2 as [a1 a2 a3 a4 a5 a6]. destruct I3 as [r1 r2 r3 (gs & Ee & r4 & r5 & r6) r7].
    split.
    + constructor; cbn [zsum].
      * lia.
      * lia.
      * rewrite a3, E7. reflexivity.
      * rewrite a4, E7. reflexivity.
      * rewrite a5, E10. destruct (is_send_take p); [rewrite E11 by reflexivity; lia|]. lia.
      * destruct a6 as (? & ? & ?). repeat split; congruence.
    + constructor.
      * rewrite EQ in r1. apply E6. exact r1.
      * cbn [length]. lia.
      * discriminate.
      * exists (g :: gs), Ee. cbn [concat]. split; [rewrite r4, app_assoc; reflexivity|].
        split; [constructor; assumption|]. rewrite E3 in r6. exact r6.
      * intros X. apply EG. rewrite <- EQ. eapply eager_ask. apply r7. exact X.
Qed.
End Ask.

Section Bid.
Let k := tk_of p Bid.
Hypothesis ST : is_send_take p = true -> op_st p = AbortTransaction.
Lemma bself_true b t : op_owner p = l_owner b -> self k (b, t) = true.
Proof. intros E. unfold self. cbn. lia. Qed.
Lemma bself_false b t : op_owner p <> l_owner b -> self k (b, t) = false.
Proof. intros E. unfold self. cbn. lia. Qed.

Record bid_amounts (L : Z) (pr pr' : proceeds) (F R : Z) (tr : list round) (n : Z) : Prop := mkBm {
  bm_debit : p_pc_debit pr' = p_pc_debit pr + zsum (tr_value pl k) tr + F;
  bm_credit : p_coin_credit pr' = p_coin_credit pr + zsum (tr_coin k) tr;
  bm_fee : F = zsum (tr_fee pl k) tr;
  bm_reb : R = zsum (tr_fifth pl k) tr;
  bm_unl : p_pc_unlocked pr' = p_pc_unlocked pr + (if is_send_take p then 0 else L - zsum (tr_value pl k) tr - F - n * lim * pl);
  bm_same : p_coin_unlocked pr' = p_coin_unlocked pr /\ p_pc_credit pr' = p_pc_credit pr /\ p_coin_debit pr' = p_coin_debit pr
}.

Lemma bid_stop A j q L : sorted (a_asks A) -> j = O \/ ~ bid_crosses lim A -> eager pl k j q L (a_asks A) [].
Proof.
  intros SA [->|NC]; [constructor; auto|]. apply eager_stop. right. right. intros b [Hb _] WB. exfalso.
  pose proof (no_cross_asks p A b SA NC Hb). change (l_price b <= lim) in WB. fold lim in H. lia.
Qed.
(** What a bid can pay for is what the code lets it take. *)
Lemma afford_le L b n : 0 < L < B64 -> 0 < l_price b -> affords pl k L n (l_price b) -> n <= bid_budget pl p L / l_price b.
Proof.
  intros HL HP AF. destruct (Z_le_dec n 0) as [N|N]; [transitivity 0; [lia|]|].
  { destruct (budget_spec pl p L HL Hpl) as (_ & _ & _ & BB & _). apply Z.div_pos; lia. }
  specialize (AF eq_refl). cbn [k tk_of tk_tier] in AF. assert (HU : u64 L) by (unfold u64; lia).
  destruct (remove_taker_fee_ok (op_tier p) L HU) as (m & E & N1 & N2). unfold bid_budget. rewrite E.
  apply Z.div_le_lower_bound; [lia|]. apply Z.div_le_lower_bound; [lia|].
  remember (n * l_price b * pl) as v eqn:Ev. assert (V0 : 0 <= v) by (subst v; apply Z.mul_nonneg_nonneg; [apply Z.mul_nonneg_nonneg|]; lia).
  replace (pl * (l_price b * n)) with v by (subst v; ring). clear Ev.
  assert (0 <= taker_fee (op_tier p) v) by (unfold taker_fee, wadd, w64; apply Z.mod_pos_bound; lia).
  assert (UV : u64 v) by (unfold u64; lia). destruct (taker_fee_spec (op_tier p) v UV) as [S1 _]. pose proof (taker_rate_bounds (op_tier p)).
  remember (taker_rate (op_tier p)) as r. nia.
Qed.
Lemma afford_most q L b t : 0 < L < B64 -> 0 < l_price b -> t = Z.min (Z.min (l_qty b) q) (bid_budget pl p L / l_price b) ->
  t = l_qty b \/ t = q \/ ~ affords pl k L (t + 1) (l_price b).
Proof.
  intros HL HP Et. destruct (Z.eq_dec t (l_qty b)); [auto|]. destruct (Z.eq_dec t q); [auto|]. right. right. intros X.
  pose proof (afford_le L b _ HL HP X). lia.
Qed.
Lemma affords_less L n x : 0 < n -> 0 < x -> L < B64 -> affords pl k L n x -> affords pl k L 1 x.
Proof.
  intros N X BL AF E. specialize (AF E). assert (LE : 1 * x * pl <= n * x * pl) by (apply Z.mul_le_mono_nonneg_r; nia).
  assert (0 <= 1 * x * pl) by nia. remember (n * x * pl) as v. remember (1 * x * pl) as u.
  assert (0 <= taker_fee (tk_tier k) v) by (unfold taker_fee, wadd, w64; apply Z.mod_pos_bound; lia).
  assert (taker_fee (tk_tier k) u <= taker_fee (tk_tier k) v) by (apply taker_fee_mono; unfold u64; lia). lia.
Qed.
Lemma bid_round po A pr q L A' pr' fee rq :
  books_ok cl pl A -> bid_wf cl pl p A pr q L -> bid_step cl pl capb p lim po A pr q L A' pr' fee rq ->
  (exists b t g, let q1 := q - used k (b, t) in let L1 := L - tr_cost pl k (b, t) in
     rq = (if (q1 =? 0) || (L1 =? 0) then None else Some (q1, L1)) /\ 0 <= q1 /\ 0 <= L1 /\ po = false /\
     a_bids A' = a_bids A /\ a_evs A' = a_evs A ++ g /\ reported cl pl k (b, t) g /\
     (forall tr q' bk', rounds k q1 (a_asks A') tr q' bk' -> rounds k q (a_asks A) ((b, t) :: tr) q' bk') /\
     (forall j tr, eager pl k j q1 L1 (a_asks A') tr -> eager pl k (S j) q L (a_asks A) ((b, t) :: tr)) /\
     fee = tr_fee pl k (b, t) /\
     p_pc_debit pr' = p_pc_debit pr + tr_value pl k (b, t) + fee /\
     p_coin_credit pr' = p_coin_credit pr + tr_coin k (b, t) /\
     p_pc_unlocked pr' = p_pc_unlocked pr +
       (if is_send_take p then 0 else (if self k (b, t) then tr_cost pl k (b, t) else 0) + (if (q1 =? 0) || (L1 =? 0) then L1 else 0)) /\
     p_coin_unlocked pr' = p_coin_unlocked pr /\ p_pc_credit pr' = p_pc_credit pr /\ p_coin_debit pr' = p_coin_debit pr) \/
  (rq = None /\ fee = 0 /\ a_asks A' = a_asks A /\ (forall j, j = O \/ po = false -> eager pl k j q L (a_asks A) []) /\ exists E n, a_evs A' = a_evs A ++ E /\
     finish cl pl k (has_room capb (a_bids A)) (op_post_allowed p) (Z.min q (L / pl / lim)) (a_asks A) (a_bids A) (a_bids A') E n /\
     p_pc_debit pr' = p_pc_debit pr /\ p_coin_credit pr' = p_coin_credit pr /\
     p_pc_unlocked pr' = p_pc_unlocked pr + (if is_send_take p then 0 else L - n * lim * pl) /\
     p_coin_unlocked pr' = p_coin_unlocked pr /\ p_pc_credit pr' = p_pc_credit pr /\ p_coin_debit pr' = p_coin_debit pr).
Proof.
  intros ([FB FA] & SB & SA) W H. destruct W as [_ Wq WL Wlim Wid Wfr Wst W1 W2 W3 W4 W5].
  assert (NST : op_post_allowed p = true -> is_send_take p = false).
  { intros X. destruct (is_send_take p); [|reflexivity]. rewrite (Wst eq_refl) in X. discriminate. }
  inversion H; subst; name_step.
  - right. split; [reflexivity|]. split; [reflexivity|]. split; [reflexivity|]. split; [intros; apply bid_stop; [assumption|auto]|]. eexists _, (bid_post_qty pl lim q L).
    split; [reflexivity|]. split.
    + apply fin_rest; auto.
      * intros x Hx. pose proof (no_cross_asks p A x SA ltac:(eassumption) Hx). cbn. unfold tk_limit. cbn.
        fold (price_of_id (op_order_id p)). fold lim. lia.
      * right. split; [apply NST; assumption|]. eexists _, _. reflexivity.
    + rewrite NST by assumption. cbn. repeat split; lia.
  - right. split; [reflexivity|]. split; [reflexivity|]. split; [reflexivity|]. split; [intros; apply bid_stop; [assumption|auto]|].
    exists ([taker_out k (L - bid_post_qty pl lim q L * lim * pl) (bid_post_qty pl lim q L * lim * pl)] ++
            [maker_out Bid (l_qty w * l_price w * pl) 0 w]), (bid_post_qty pl lim q L).
    split; [reflexivity|]. split.
    + apply (fin_evict cl pl k _ _ (bid_post_qty pl lim q L) (a_asks A) (a_bids A) (my_leaf p (bid_post_qty pl lim q L)) w); auto.
      * intros x Hx. pose proof (no_cross_asks p A x SA ltac:(eassumption) Hx). cbn. unfold tk_limit. cbn.
        fold (price_of_id (op_order_id p)). fold lim. lia.
      * split; [eapply first_leaf_In; eassumption|]. intros x Hx. cbn.
        match goal with G : first_leaf false _ = Some _ |- _ => destruct (first_leaf_least _ _ _ SB G Hx); auto end.
      * right. split; [apply NST; assumption|]. eexists _, _. reflexivity.
    + rewrite NST by assumption. cbn. repeat split; lia.
  - right. split; [reflexivity|]. split; [reflexivity|]. split; [reflexivity|].
    split.
    { intros j [->| ->]; [constructor; auto|]. apply eager_stop. right. right. intros b BB WB X.
      match goal with G : forall b, best_ask A = Some b -> _ |- _ => rename G into HN end.
      destruct (best_ask A) as [w|] eqn:EB.
      - assert (w = b).
        { destruct (best_ask_best A w SA EB) as [I1 I2]. destruct BB as [I3 I4]. destruct (I4 w I1) as [|Y]; [assumption|].
          destruct (I2 b I3) as [|Y2]; [congruence|]. cbn in Y, Y2. lia. }
        subst w. destruct (HN b eq_refl WB) as [Y|Y]; [discriminate|].
        destruct (FA b (best_ask_In _ _ EB)) as (F1 & F2 & _).
        pose proof (afford_le L b 1 WL F2 X). rewrite Z.min_r in Y by lia. lia.
      - destruct BB as [I3 _]. unfold best_ask, first_leaf in EB. destruct (a_asks A); [destruct I3|discriminate]. }
    eexists _, 0.
    split; [reflexivity|]. split.
    + apply fin_gone.
      * unfold vis. destruct (is_send_take p) eqn:EST; [left; reflexivity|right]. split; [exact EST|]. eexists. reflexivity.
      * destruct (bid_crosses_dec lim A) as [(b & EB & PB)|NC].
        -- right. right. exists b. split; [apply best_ask_In; assumption|exact PB].
        -- match goal with G : ~ bid_crosses _ _ -> _ \/ _ |- _ => destruct (G NC); auto end.
    + destruct (is_send_take p); cbn; repeat split; lia.
  - left. pose proof (best_ask_In _ _ HBest) as Hb. destruct (FA b Hb) as (F1 & F2 & _).
    destruct (budget_t pl p Hpl q L b _ WL F2 eq_refl) as (T1 & T2 & T3 & T4 & T5); [lia..|].
    pose proof (afford_most q L b _ WL F2 eq_refl) as T6.
    remember (Z.min (Z.min (l_qty b) q) (bid_budget pl p L / l_price b)) as t eqn:Et. clear Et.
    destruct (self_qty_bounds _ _ _ _ _ HSelf) as [B1 B2]; [lia|].
    destruct (part_bounds ctake t (l_price b) pl B64) as (M4 & M5 & M6 & M7); try lia.
    assert (NS : is_send_take p = false).
    { destruct (is_send_take p); [|reflexivity]. unfold self_qty in HSelf. rewrite (ST eq_refl) in HSelf. discriminate. }
    exists b, cprov. assert (SE : self k (b, cprov) = true) by (apply bself_true; assumption).
    assert (U : used k (b, cprov) = ctake).
    { unfold used. rewrite SE. cbn [tk_st k tk_of snd]. unfold self_qty in HSelf.
      destruct (op_st p); inversion HSelf; subst; reflexivity. }
    assert (C : tr_cost pl k (b, cprov) = ctake * l_price b * pl) by (unfold tr_cost; rewrite SE, U; reflexivity).
    eexists. rewrite U, C. cbv zeta. unfold tr_fee, tr_coin, tr_value, reported. rewrite SE.
    split; [reflexivity|]. split; [lia|]. split; [lia|]. split; [reflexivity|]. split; [reflexivity|]. split; [reflexivity|].
    split; [eexists _, _; reflexivity|].
    split.
    { intros tr q' bk' HR. cbn [a_asks] in HR. rewrite shrink_take in HR by assumption.
      apply rounds_cons; try assumption; rewrite ?U; try assumption.
      - apply best_ask_best; assumption.
      - lia.
      - discriminate.
      - intros _. cbn [tk_st k tk_of]. unfold self_qty in HSelf. destruct (op_st p); inversion HSelf; subst; split; congruence. }
    split.
    { intros j tr HE. cbn [a_asks] in HE. rewrite shrink_take in HE by assumption.
      apply eager_round; rewrite ?U, ?C; try assumption; try apply Wq.
      - apply best_ask_best; assumption.
      - apply (affords_less L t); [lia|lia|lia|intros _; exact T5].
      - rewrite SE. cbn [andb tk_st k tk_of]. unfold self_qty in HSelf.
        destruct (op_st p); [injection HSelf as <- <-|injection HSelf as <- <-; reflexivity|discriminate].
        split; [lia|]. split; [lia|]. split; [intros _; exact T5|exact T6]. }
    split; [reflexivity|]. cbn. rewrite NS.
    destruct ((q - ctake =? 0) || (L - ctake * l_price b * pl =? 0)); injection HUnl as -> ->; repeat split; lia.
  - left. pose proof (best_ask_In _ _ HBest) as Hb. destruct (FA b Hb) as (F1 & F2 & _).
    destruct (budget_t pl p Hpl q L b _ WL F2 eq_refl) as (T1 & T2 & T3 & T4 & T5); [lia..|].
    pose proof (afford_most q L b _ WL F2 eq_refl) as T6.
    remember (Z.min (Z.min (l_qty b) q) (bid_budget pl p L / l_price b)) as t eqn:Et. clear Et.
    assert (UV : u64 (t * l_price b * pl)) by (unfold u64; lia). pose proof (fee_bounds (op_tier p) _ UV) as FE.
    exists b, t. assert (SE : self k (b, t) = false) by (apply bself_false; assumption).
    assert (U : used k (b, t) = t) by (unfold used; rewrite SE; reflexivity).
    assert (C : L - tr_cost pl k (b, t) = L - t * l_price b * pl - taker_fee (op_tier p) (t * l_price b * pl)).
    { unfold tr_cost. rewrite SE. unfold value. cbn [fst snd k tk_of tk_tier]. lia. }
    remember (t * l_price b * pl) as v eqn:Ev.
    eexists. cbv zeta. rewrite U, C. unfold tr_fee, tr_coin, tr_value, reported. rewrite SE. unfold value. cbn [fst snd].
    rewrite <- Ev.
    split; [reflexivity|]. split; [lia|]. split; [lia|]. split; [reflexivity|]. split; [reflexivity|]. split; [reflexivity|].
    split.
    { exists (leaf_tier b), (if (q - t =? 0) || (L - v - taker_fee (op_tier p) v =? 0) then [my_out p Bid (L - v - taker_fee (op_tier p) v) 0] else []).
      split.
      - replace (l_qty b - t =? 0) with (t =? l_qty b) by lia. unfold vis. cbn [tk_silent k tk_of].
        unfold maker_fill, taker_fill, value. cbn [fst snd]. rewrite <- Ev.
        destruct (is_send_take p); reflexivity.
      - destruct ((q - t =? 0) || (L - v - taker_fee (op_tier p) v =? 0)); [right; eexists; reflexivity|left; reflexivity]. }
    split.
    { intros tr q' bk' HR. cbn [a_asks] in HR. rewrite shrink_take in HR by assumption.
      apply rounds_cons; try assumption; rewrite ?U; try assumption; try lia.
      - apply best_ask_best; assumption.
      - discriminate.
      - rewrite SE. discriminate. }
    split.
    { intros j tr HE. cbn [a_asks] in HE. rewrite shrink_take in HE by assumption.
      apply eager_round; rewrite ?U, ?C; try assumption; try apply Wq.
      - apply best_ask_best; assumption.
      - apply (affords_less L t); [lia|lia|lia|intros _; rewrite <- Ev; exact T5].
      - rewrite SE. cbn [andb]. split; [lia|]. split; [lia|]. split; [intros _; cbn [k tk_of tk_tier]; rewrite <- Ev; exact T5|exact T6]. }
    split; [reflexivity|].
    destruct ((q - t =? 0) || (L - v - taker_fee (op_tier p) v =? 0)); destruct (is_send_take p);
      cbn [andb negb add_pc_unlocked add_bid_fill p_pc_debit p_coin_credit p_pc_unlocked p_coin_unlocked p_pc_credit p_coin_debit k tk_of tk_tier];
      repeat split; lia.
Qed.

Lemma cost_split x : tr_cost pl k x = (if self k x then tr_cost pl k x else 0) + tr_value pl k x + tr_fee pl k x.
Proof. unfold tr_cost, tr_value, tr_fee. destruct (self k x); lia. Qed.
Lemma bid_report_run n : forall po A pr q L A' pr' F R,
  books_ok cl pl A -> bid_wf cl pl p A pr q L -> bid_run cl pl capb p lim n po A pr q L A' pr' F R ->
  exists tr q' m E, a_evs A' = a_evs A ++ E /\ bid_amounts L pr pr' F R tr m /\
    report cl pl k n po (has_room capb (a_bids A)) (op_post_allowed p) q L
      (a_asks A) (a_bids A) (a_asks A') (a_bids A') E tr q' m.
Proof.
  assert (LAST : forall n po po' A pr q L A' pr' fee, books_ok cl pl A -> bid_wf cl pl p A pr q L ->
    (po = true -> po' = true) -> (n = O -> po' = true) -> (n <> O -> po = po') ->
    bid_step cl pl capb p lim po' A pr q L A' pr' fee None ->
    exists tr q' m E, a_evs A' = a_evs A ++ E /\ bid_amounts L pr pr' fee (fee / 5) tr m /\
    report cl pl k n po (has_room capb (a_bids A)) (op_post_allowed p) q L
      (a_asks A) (a_bids A) (a_asks A') (a_bids A') E tr q' m).
  { clear n. intros n po po' A pr q L A' pr' fee B W PO PN PS H.
    destruct (bid_round po' A pr q L A' pr' fee None B W H) as
      [(b & t & g & E1 & Q1 & L1 & E2 & E3 & E4 & E5 & E6 & EG & E7 & E8 & E9 & E10 & E11 & E12 & E13)|
       (_ & -> & E2 & EG & E & m & E3 & E4 & E5 & E6 & E7 & E8 & E9 & E10)].
    - exists [(b, t)], (q - used k (b, t)), 0, g. split; [assumption|].
      destruct ((q - used k (b, t) =? 0) || (L - tr_cost pl k (b, t) =? 0)) eqn:EE; [|discriminate].
      pose proof (cost_split (b, t)) as CS.
      split.
      + constructor; cbn [zsum]; rewrite ?Z.add_0_r; try assumption; [subst fee; reflexivity| |auto].
        rewrite E10. destruct (is_send_take p); lia.
      + constructor.
        * apply E6. constructor.
        * destruct n; [rewrite (PN eq_refl) in E2; discriminate|cbn; lia].
        * intros X. rewrite (PO X) in E2. discriminate.
        * exists [g], []. cbn [concat zsum tk_side k tk_of]. rewrite !app_nil_r. split; [reflexivity|]. split; [repeat constructor; assumption|].
          rewrite E3. apply fin_gone; [left; reflexivity|]. left. rewrite Z.add_0_r. fold k.
          change (tk_limit k) with lim. pose proof (bw_lim _ _ _ _ _ _ _ W). fold lim in H0.
          assert (0 <= (L - tr_cost pl k (b, t)) / pl / lim) by (apply Z.div_pos; [apply Z.div_pos|]; lia).
          destruct (q - used k (b, t) =? 0) eqn:E0; [lia|]. cbn [orb] in EE.
          replace (L - tr_cost pl k (b, t)) with 0 in * by lia. rewrite !Z.div_0_l in * by lia. lia.
        * intros X. destruct n; [rewrite (PN eq_refl) in E2; discriminate|]. apply EG. constructor. right.
          apply orb_true_iff in EE. destruct EE as [EE|EE]; [left; lia|right]. intros x [Hx _] _ Y. specialize (Y eq_refl).
          apply Z.eqb_eq in EE. rewrite EE in Y. assert (B1 : books_ok cl pl A').
          { destruct W. apply (bid_step_books cl pl capb p po' A pr q L A' pr' fee None); try assumption; lia. }
          destruct B1 as ([_ FA] & _). destruct (FA x Hx) as (_ & HI & _).
          assert (0 <= taker_fee (tk_tier k) (1 * l_price x * pl)) by (unfold taker_fee, wadd, w64; apply Z.mod_pos_bound; lia). nia.
    - exists [], q, m, E. split; [assumption|]. split.
      + constructor; cbn [zsum]; [lia|lia|reflexivity|reflexivity| |auto]. rewrite E7. destruct (is_send_take p); lia.
      + constructor.
        * rewrite E2. constructor.
        * cbn. lia.
        * reflexivity.
        * exists [], E. split; [reflexivity|]. split; [constructor|]. rewrite E2. cbn [zsum tk_side k tk_of].
          rewrite Z.sub_0_r. exact E4.
        * intros X. apply EG. destruct n; [auto|]. right. rewrite <- X. symmetry. apply PS. discriminate. }
  induction n as [|n IH]; intros po A pr q L A' pr' F R B W H; inversion H; subst.
  - apply (LAST O po true A pr q L A' pr' F); auto.
  - apply (LAST (S n) po po A pr q L A' pr' F); auto. discriminate.
  - match goal with
    | S1 : bid_step _ _ _ _ _ _ _ _ _ _ ?A1 ?p1 ?f1 (Some (?q1, ?L1)), R1 : bid_run _ _ _ _ _ _ _ _ _ _ _ _ _ _ _ |- _ =>
        rename S1 into HS; rename R1 into HR
    end.
    destruct (bid_step_wf _ _ _ _ _ _ _ _ _ _ _ _ _ _ Hcl Hpl B W HS) as (W1 & _ & _ & ->).
    assert (B1 : books_ok cl pl A1).
    { destruct W. apply (bid_step_books cl pl capb p false A pr q L A1 pr1 fee (Some (q1, L1))); try assumption; lia. }
    destruct (IH _ _ _ _ _ _ _ _ _ B1 W1 HR) as (tr & q' & m & E & I1 & I2 & I3).
    destruct (bid_round _ _ _ _ _ _ _ _ _ B W HS) as
      [(b & t & g & E1 & Q1 & LL1 & E2 & E3 & E4 & E5 & E6 & EG & E7 & E8 & E9 & E10 & E11 & E12 & E13)|(X & _)];
      [|discriminate].
    destruct ((q - used k (b, t) =? 0) || (L - tr_cost pl k (b, t) =? 0)) eqn:EE; [discriminate|].
    assert (EQ : q1 = q - used k (b, t)) by congruence.
    assert (EL : L1 = L - tr_cost pl k (b, t)) by congruence. clear E1.
    pose proof (cost_split (b, t)) as CS.
    exists ((b, t) :: tr), q', m, (g ++ E).
    split; [rewrite I1, E4, app_assoc; reflexivity|].
    destruct I2 as [a1 a2 a3 a4 a5 a6]. destruct I3 as [r1 r2 r3 (gs & Ee & r4 & r5 & r6) r7].
    split.
    + constructor; cbn [zsum].
      * lia.
      * lia.
      * rewrite a3, E7. reflexivity.
      * rewrite a4, E7. reflexivity.
      * rewrite a5, E10. destruct (is_send_take p); lia.
      * destruct a6 as (? & ? & ?). repeat split; congruence.
    + constructor.
      * rewrite EQ in r1. apply E6. exact r1.
      * cbn [length]. lia.
      * discriminate.
      * exists (g :: gs), Ee. cbn [concat]. split; [rewrite r4, app_assoc; reflexivity|].
        split; [constructor; assumption|]. rewrite E3, EL in r6. cbn [zsum tk_side k tk_of] in *.
        rewrite Z.sub_add_distr. exact r6.
      * intros X. apply EG. cbv zeta. rewrite <- EQ, <- EL. apply r7. exact X.
Qed.
End Bid.
End Report.
