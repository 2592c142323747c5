(** A funded order with room in the event queue is accepted. *)
From Coq Require Import Permutation.
From Verif Require Import Base BaseProofs Fees FeesSpec FeesProofs Critbit CritbitProofs CritbitSlab CritbitOps
  CritbitSpec CritbitRefine ListSum Queue QueueSpec QueueProofs Codec Market Matching MatchSteps MatchRefine
  MatchAsk MatchBid MatchRun Ledger LedgerSteps LedgerSums MatchRoom MatchSpec LedgerRun MatchReport MatchOrder MatchFacts
  Slots Core CoreInv CoreOrder CoreNew PlaceSpec.

Lemma fits_rep k o A : rep o A -> 0 <= k -> zlen (a_evs A) + k <= zlen (q_buf (ob_eq o)) -> fits k o.
Proof.
  intros R K H. assert (ZL : zlen (q_list (ob_eq o)) = zlen (a_evs A)) by (rewrite (r_evs _ _ R); unfold zlen; rewrite map_length; reflexivity).
  rewrite q_list_len in ZL by apply R. unfold fits. pose proof (qk_count _ (r_q_ok _ _ R)). lia.
Qed.
Lemma own_in_reach_bid k lim A : own_in_reach (a_bids A) Ask lim k = false ->
  forall l, In l (a_bids A) -> l_owner l = k -> l_price l < lim.
Proof.
  unfold own_in_reach. intros H l Hl E. destruct (Z.ltb_spec (l_price l) lim) as [?|LE]; [assumption|]. exfalso.
  assert (X : existsb (fun l => (l_owner l =? k) && reaches Ask lim l) (a_bids A) = true).
  { apply existsb_exists. exists l. split; [assumption|]. cbn [reaches]. lia. }
  congruence.
Qed.
Lemma own_in_reach_ask k lim A : own_in_reach (a_asks A) Bid lim k = false ->
  forall l, In l (a_asks A) -> l_owner l = k -> lim < l_price l.
Proof.
  unfold own_in_reach. intros H l Hl E. destruct (Z.ltb_spec lim (l_price l)) as [?|LE]; [assumption|]. exfalso.
  assert (X : existsb (fun l => (l_owner l =? k) && reaches Bid lim l) (a_asks A) = true).
  { apply existsb_exists. exists l. split; [assumption|]. cbn [reaches]. lia. }
  congruence.
Qed.

(** Matching succeeds. *)
Theorem matched o A sd ot id owner slot t qty pc cid st limit : rep o A -> ready o A sd ot id owner qty pc st ->
  (st = AbortTransaction -> own_in_reach (book_of A (other sd)) sd (id / B64) owner = false) ->
  zlen (a_evs A) + events_needed (book_of A (other sd)) sd (id / B64) owner st (Z.of_nat limit) <= zlen (q_buf (ob_eq o)) ->
  exists x, new_order o sd ot id owner slot t qty pc cid st limit = Ok x.
Proof.
  intros R0 RD NO RM. set (cl := m_coin_lot (ob_mkt o)). set (pl := m_pc_lot (ob_mkt o)).
  set (params := params ot id owner slot t cid st). destruct RD as [r1 r2 r3 r4 r5 r6 r7 r8 r9 r10 r11 r12 r13].
  assert (C : ctx cl pl (slab_cap (ob_bids o)) (slab_cap (ob_asks o)) o) by (constructor; auto).
  assert (FR : lfind id (book_of A sd) = None) by (apply lfind_None; assumption).
  assert (ZP : forall p, is_send_take p = true <-> op_owner p = 0) by (intros p; unfold is_send_take, system_id; lia).
  unfold new_order. fold (MatchOrder.params ot id owner slot t cid st). fold params.
  unfold events_needed, most_rounds in RM.
  destruct sd; cbn [other book_of] in *.
  - assert (W : bid_wf cl pl params A pr_zero qty pc).
    { constructor; cbn [p_pc_unlocked p_pc_debit p_coin_credit pr_zero]; try assumption; try lia; try (apply r13; reflexivity).
      - intros X. apply ZP in X. destruct (r11 X) as [Y _]. unfold params, MatchOrder.params. cbn. rewrite Y. reflexivity. }
    pose proof (zlen_nonneg (a_asks A)) as ZN.
    assert (SHORT : own_in_reach (a_asks A) Bid (id / B64) owner = false \/ st = CancelProvide ->
      zlen (a_evs A) + 4 * (Z.min (Z.of_nat limit) (zlen (a_asks A) + 1) + 1) <= zlen (q_buf (ob_eq o)) ->
      exists x, new_order_loop limit o pr_zero params Bid (ot_post_only ot) qty pc = Ok x).
    { intros HO HR. eapply (bid_accepted cl pl _ _ params limit o A pr_zero qty pc (ot_post_only ot) C R0 W).
      - eapply fits_rep; [exact R0|lia|exact HR].
      - intros X. destruct HO as [HO|HO]; [|contradiction]. exact (own_in_reach_ask owner (id / B64) A HO). }
    destruct st.
    + destruct (own_in_reach (a_asks A) Bid (id / B64) owner) eqn:EO; [|apply SHORT; auto].
      eapply (bid_accepted_limit cl pl _ _ params limit o A pr_zero qty pc (ot_post_only ot) C R0 W).
      * eapply fits_rep; [exact R0|lia|exact RM].
      * discriminate.
    + apply SHORT; auto.
    + apply SHORT; auto.
  - destruct (r12 eq_refl) as (-> & QC & SUM).
    assert (W : ask_wf cl pl params A pr_zero qty).
    { constructor; cbn [p_coin_unlocked p_coin_debit p_pc_credit pr_zero]; try assumption; try lia.
      - intros X. apply QC. intros Y. assert (is_send_take params = true) by (apply ZP; exact Y). congruence.
      - intros X. apply ZP in X. destruct (r11 X) as [Y1 Y2]. unfold params, MatchOrder.params. cbn. rewrite Y1, Y2. split; reflexivity. }
    pose proof (zlen_nonneg (a_bids A)) as ZN.
    eapply (ask_accepted cl pl _ _ params limit o A pr_zero qty (ot_post_only ot) C R0 W).
    + eapply fits_rep; [exact R0|lia|]. lia.
    + intros X. exact (own_in_reach_bid owner (id / B64) A (NO X)).
Qed.

(** ** What the rounds can take from the book *)
Lemma rounds_take f k q bk tr q' bk' : (forall b n, f (set_qty b n) = n * f (set_qty b 1)) -> (forall b, f (set_qty b (l_qty b)) = f b) ->
  (forall b, In b bk -> 0 <= f b) ->
  sorted bk -> rounds k q bk tr q' bk' ->
  zsum (fun x : round => snd x * f (set_qty (fst x) 1)) tr <= zsum f bk.
Proof.
  intros F1 F2 NN S H. induction H as [q bk|q bk b t tr q' bk' HB HW HT HU HA HS H IH].
  - cbn [zsum]. apply zsum_nonneg. assumption.
  - destruct HB as [HIN _]. rewrite <- (shrink_take b t bk S HIN) in *.
    assert (Z0 : f (set_qty b 0) = 0) by (rewrite F1; lia).
    assert (FB : f b = l_qty b * f (set_qty b 1)) by (rewrite <- F1, F2; reflexivity).
    specialize (NN b HIN) as NB. assert (P : 0 <= f (set_qty b 1)) by nia.
    cbn [zsum fst snd]. rewrite zsum_shrink in IH by assumption. rewrite F1 in IH.
    assert (zsum (fun x : round => snd x * f (set_qty (fst x) 1)) tr <= zsum f bk - f b + (l_qty b - t) * f (set_qty b 1)).
    { apply IH; [|apply shrink_sorted; assumption]. intros y Hy. apply shrink_In in Hy. destruct Hy as [[_ ->]|[Hy _]]; [|auto]. rewrite F1. nia. }
    lia.
Qed.
Lemma zsum_le {X} (f g : X -> Z) l : (forall x, In x l -> f x <= g x) -> zsum f l <= zsum g l.
Proof. induction l as [|x l IH]; intros H; cbn [zsum]; [lia|]. pose proof (H x (or_introl eq_refl)). assert (zsum f l <= zsum g l) by (apply IH; intros; apply H; right; assumption). lia. Qed.
Lemma take_from_key k n bk y : In y (take_from k n bk) -> exists z, In z bk /\ l_key z = l_key y.
Proof.
  unfold take_from. intros H. apply in_flat_map in H. destruct H as (z & Hz & Hy). exists z. split; [assumption|].
  destruct (l_key z =? k); [destruct (l_qty z =? n); [destruct Hy|]|]; destruct Hy as [<-|[]]; reflexivity.
Qed.
Lemma rounds_In k q bk tr q' bk' : rounds k q bk tr q' bk' -> forall x, In x tr -> 0 < snd x /\ exists b, In b bk /\ l_key b = l_key (fst x).
Proof.
  induction 1 as [|q bk b t tr q' bk' HB HW HT HU HA HS H IH]; intros x Hx; [destruct Hx|]. destruct Hx as [<-|Hx].
  - cbn [fst snd]. split; [lia|]. exists b. split; [apply HB|reflexivity].
  - destruct (IH x Hx) as (P & c & Hc & E). split; [assumption|]. apply take_from_key in Hc. destruct Hc as (z & Hz & EZ). exists z. split; [assumption|congruence].
Qed.
Lemma rounds_coin k cl q bk tr q' bk' : 0 < cl -> (forall b, In b bk -> 0 <= coin_of cl b) -> sorted bk -> rounds k q bk tr q' bk' ->
  zsum (tr_coin k) tr * cl <= zsum (coin_of cl) bk.
Proof.
  intros CL NN S H.
  assert (E : zsum (tr_coin k) tr * cl <= zsum (fun x : round => snd x * coin_of cl (set_qty (fst x) 1)) tr).
  { pose proof (rounds_In _ _ _ _ _ _ H) as RI. clear - RI CL. induction tr as [|x tr IH]; cbn [zsum]; [lia|].
    assert (IH' : zsum (tr_coin k) tr * cl <= zsum (fun x0 : round => snd x0 * coin_of cl (set_qty (fst x0) 1)) tr) by (apply IH; intros; apply RI; right; assumption).
    destruct (RI x (or_introl eq_refl)) as [P _]. clear RI IH.
    assert (tr_coin k x * cl <= snd x * coin_of cl (set_qty (fst x) 1)).
    { unfold tr_coin, coin_of. cbn [set_qty l_qty]. destruct (self k x); nia. }
    lia. }
  etransitivity; [exact E|]. eapply rounds_take; try eassumption.
  - intros. unfold coin_of. cbn [set_qty l_qty]. ring.
  - intros. reflexivity.
Qed.
Lemma rounds_value k pl q bk tr q' bk' : 0 < pl -> (forall b, In b bk -> 0 <= pc_of pl b) -> (forall b, In b bk -> 0 <= l_price b) ->
  sorted bk -> rounds k q bk tr q' bk' -> zsum (tr_value pl k) tr <= zsum (pc_of pl) bk.
Proof.
  intros PL NN NP S H.
  assert (E : zsum (tr_value pl k) tr <= zsum (fun x : round => snd x * pc_of pl (set_qty (fst x) 1)) tr).
  { pose proof (rounds_In _ _ _ _ _ _ H) as RI. apply zsum_le. intros x Hx. destruct (RI x Hx) as (P & b & Hb & EB).
    assert (PX : 0 <= l_price (fst x)) by (unfold l_price; rewrite <- EB; apply NP; assumption).
    unfold tr_value, value, pc_of. cbn [set_qty l_qty]. change (l_price (set_qty (fst x) 1)) with (l_price (fst x)).
    assert (0 <= snd x * l_price (fst x) * pl) by (apply Z.mul_nonneg_nonneg; [apply Z.mul_nonneg_nonneg|]; lia).
    destruct (self k x); [lia|]. rewrite Z.mul_1_l. lia. }
  etransitivity; [exact E|]. eapply rounds_take; try eassumption.
  - intros. unfold pc_of. cbn [set_qty l_qty]. change (l_price (set_qty b n)) with (l_price b). change (l_price (set_qty b 1)) with (l_price b). ring.
  - intros. reflexivity.
Qed.

(** ** The account updates succeed *)
Lemma apply_proceeds_fwd oo cl pr : 0 <= cl ->
  0 <= p_coin_unlocked pr -> 0 <= p_pc_unlocked pr -> 0 <= p_coin_credit pr -> 0 <= p_pc_credit pr -> 0 <= p_coin_debit pr -> 0 <= p_pc_debit pr ->
  0 <= oo_coin_free oo <= oo_coin_total oo -> 0 <= oo_pc_free oo <= oo_pc_total oo ->
  oo_coin_total oo + p_coin_credit pr * cl < B64 -> oo_pc_total oo + p_pc_credit pr < B64 ->
  oo_coin_free oo + p_coin_unlocked pr * cl + p_coin_debit pr * cl <= oo_coin_total oo ->
  oo_pc_free oo + p_pc_unlocked pr + p_pc_debit pr <= oo_pc_total oo ->
  exists oo', apply_proceeds oo cl pr = Ok oo'.
Proof.
  intros C0 N1 N2 N3 N4 N5 N6 F1 F2 T1 T2 L1 L2.
  assert (M1 : 0 <= p_coin_unlocked pr * cl) by (apply Z.mul_nonneg_nonneg; assumption).
  assert (M2 : 0 <= p_coin_credit pr * cl) by (apply Z.mul_nonneg_nonneg; assumption).
  assert (M3 : 0 <= p_coin_debit pr * cl) by (apply Z.mul_nonneg_nonneg; assumption).
  unfold apply_proceeds, cmul.
  replace (p_coin_unlocked pr * cl <? B64) with true by lia. replace (p_coin_credit pr * cl <? B64) with true by lia.
  replace (p_coin_debit pr * cl <? B64) with true by lia. cbn [rbind].
  set (cu := p_coin_unlocked pr * cl) in *. set (cc := p_coin_credit pr * cl) in *. set (cd := p_coin_debit pr * cl) in *. clearbody cu cc cd.
  unfold credit_locked_coin, unlock_coin, credit_locked_pc, unlock_pc, cadd, csub, set_coin_free, set_coin_total, set_pc_free, set_pc_total.
  repeat (cbn [rbind passert check negb oo_coin_free oo_coin_total oo_pc_free oo_pc_total set_balances];
    match goal with |- context [if ?c then _ else _] => replace c with true by lia | |- context [passert ?c] => replace c with true by lia
      | |- context [check ?c _] => replace c with true by lia end).
  cbn [rbind passert check]. eauto.
Qed.
Lemma lock_funds_fwd o oo ix bal : 0 < oi_qty ix -> 0 < oi_pc ix -> 0 < m_coin_lot (ob_mkt o) ->
  0 <= oo_coin_free oo <= oo_coin_total oo -> 0 <= oo_pc_free oo <= oo_pc_total oo ->
  let dep := to_pay ix (m_coin_lot (ob_mkt o)) oo in
  dep <= bal -> (oi_side ix = Ask -> oi_qty ix * m_coin_lot (ob_mkt o) < B64) ->
  match oi_side ix with
  | Bid => oo_pc_total oo + dep < B64 /\ m_pc_deposits (ob_mkt o) + dep < B64
  | Ask => oo_coin_total oo + dep < B64 /\ m_coin_deposits (ob_mkt o) + dep < B64
  end ->
  exists o1 oo1 lk, lock_funds o oo ix bal = Ok (o1, oo1, dep, lk).
Proof.
  intros Q1 Q2 CL F1 F2 dep HB HQ HT. unfold dep, to_pay, locks in *. clear dep. unfold lock_funds. destruct (oi_side ix).
  - unfold lock_free_pc, credit_locked_pc, cadd, csub, set_pc_free, set_pc_total.
    repeat (cbn [rbind passert check negb oo_coin_free oo_coin_total oo_pc_free oo_pc_total set_balances];
      match goal with |- context [if ?c then _ else _] => replace c with true by lia | |- context [check ?c _] => replace c with true by lia end).
    cbn [rbind check]. eauto.
  - specialize (HQ eq_refl). replace (oi_qty ix * m_coin_lot (ob_mkt o) <? B64) with true by lia. cbn [rbind].
    assert (0 < oi_qty ix * m_coin_lot (ob_mkt o)) by nia. set (lock := oi_qty ix * m_coin_lot (ob_mkt o)) in *. clearbody lock.
    unfold lock_free_coin, credit_locked_coin, cadd, csub, set_coin_free, set_coin_total.
    repeat (cbn [rbind passert check negb oo_coin_free oo_coin_total oo_pc_free oo_pc_total set_balances];
      match goal with |- context [if ?c then _ else _] => replace c with true by lia | |- context [check ?c _] => replace c with true by lia end).
    cbn [rbind check]. eauto.
Qed.
