(** new_ask performs the steps [ask_step]. *)
From Verif Require Import Base BaseProofs Fees FeesSpec FeesProofs Critbit CritbitProofs CritbitSlab CritbitOps
  CritbitSpec CritbitRefine ListSum Queue QueueSpec QueueProofs Codec Market Matching MatchSteps MatchRefine.

Definition match_err (e : err) : Prop := e = EEventQueueFull \/ e = EWouldSelfTrade.

Section Ask.
Variables (cl pl capb capa : Z) (p : order_params).
Let lim := price_of_id (op_order_id p).

(** The market, books and order are in order. *)
Record ctx (o : obs) : Prop := mkCtx {
  c_cl : m_coin_lot (ob_mkt o) = cl; c_pl : m_pc_lot (ob_mkt o) = pl;
  c_clp : 0 < cl; c_plp : 0 < pl;
  c_capb : slab_cap (ob_bids o) = capb; c_capa : slab_cap (ob_asks o) = capa;
  c_bc : 2 < capb; c_ac : 2 < capa; c_m : mkt_u64 (ob_mkt o)
}.
Record books_fit (A : astate) : Prop := mkFit {
  f_bids : forall l, In l (a_bids A) -> bid_fit pl l;
  f_asks : forall l, In l (a_asks A) -> ask_fit cl l
}.
Record ask_wf (A : astate) (pr : proceeds) (q : Z) : Prop := mkAwf {
  aw_fit : books_fit A;
  aw_q : 0 < q; aw_qcl : is_send_take p = false -> q * cl < B64;
  aw_lim : 0 < lim;
  aw_id : u128 (op_order_id p);
  aw_fresh : lfind (op_order_id p) (a_asks A) = None;
  aw_st : is_send_take p = true -> op_post_allowed p = false /\ op_st p = AbortTransaction;
  aw_pr1 : 0 <= p_coin_unlocked pr; aw_pr2 : 0 <= p_coin_debit pr;
  aw_pr3 : p_coin_unlocked pr + p_coin_debit pr + q < B64;
  aw_pr4 : 0 <= p_pc_credit pr;
  aw_pr5 : p_pc_credit pr + zsum (bid_val pl) (a_bids A) < B64
}.

Lemma ctx_same o o' : ctx o -> ob_mkt o' = ob_mkt o -> keeps o o' -> ctx o'.
Proof. intros C E (K1 & K2 & _). destruct C. constructor; congruence. Qed.

Definition ask_post (o : obs) (A : astate) (pr : proceeds) (q : Z) (po : bool)
    (x : obs * proceeds * remaining) : Prop :=
  let '(o', pr', rem) := x in
  exists A' fee rq, ask_step cl pl capa p lim po A pr q A' pr' fee rq /\
    rem = option_map (fun n => (n, 0)) rq /\ rep o' A' /\ keeps o o' /\ ob_mkt o' = accrue (ob_mkt o) fee 0.

Lemma ask_finish_done o A pr q po crossed :
  ctx o -> rep o A -> ask_wf A pr q ->
  (crossed = true -> po = true /\ ask_crosses lim A) -> (crossed = false -> ~ ask_crosses lim A) ->
  outcome (ask_finish o pr p q q 0 0 crossed true) (ask_post o A pr q po) match_err.
Proof.
  intros C R W HT HF. destruct C, W.
  unfold ask_finish. rewrite c_cl0, c_pl0.
  change (wmul 0 pl) with 0. rewrite taker_fee_0. change (wsub 0 0) with 0.
  rewrite (wsub_small q q) by lia. rewrite Z.sub_diag.
  unfold pr_credit_pc, pr_debit_coin, pr_unlock_coin.
  assert (0 <= zsum (bid_val pl) (a_bids A)).
  { apply zsum_nonneg. intros x Hx. destruct (f_bids _ aw_fit0 x Hx) as (? & ? & ? & ?). unfold bid_val. nia. }
  rewrite cadd_small by lia. cbn [rbind]. rewrite cadd_small by (cbn; lia). cbn [rbind].
  cbn [p_coin_unlocked p_pc_unlocked p_coin_credit p_pc_credit p_coin_debit p_pc_debit].
  rewrite !Z.add_0_r. change (0 <? 0) with false. cbn [andb rbind negb].
  rewrite accrue_0 by assumption.
  replace (mkPr (p_coin_unlocked pr) (p_pc_unlocked pr) (p_coin_credit pr) (p_pc_credit pr) (p_coin_debit pr) (p_pc_debit pr))
    with pr by (destruct pr; reflexivity).
  replace (set_mkt o (ob_mkt o)) with o by (destruct o; reflexivity).
  replace (0 <? q) with true by lia. rewrite Bool.andb_true_r.
  destruct (op_post_allowed p && negb crossed) eqn:EP.
  - apply andb_true_iff in EP. destruct EP as [EP EC]. destruct crossed; [discriminate|].
    destruct (is_send_take p) eqn:ES; [destruct (aw_st0 eq_refl); congruence|]. cbn [check negb rbind].
    eapply outcome_bind.
    + eapply outcome_weaken; [eapply (post_spec o A Ask)|..].
      * exact R.
      * exact aw_id0.
      * exact aw_fresh0.
      * cbn. lia.
      * intros x Hx. apply (f_asks _ aw_fit0 x Hx).
      * intros x Hx. exact Hx.
      * intros e ->. left. reflexivity.
    + intros o' (K & M & [[HR R']|(HR & w & Ew & R')]); cbn [outcome].
      * eexists _, 0, None. split; [|split; [reflexivity|split; [exact R'|split; [assumption|]]]].
        -- apply AS_post; auto. unfold has_room. rewrite <- c_capa0. assumption.
        -- rewrite accrue_0; assumption.
      * eexists _, 0, None. split; [|split; [reflexivity|split; [exact R'|split; [assumption|]]]].
        -- cbn [set_book get_book a_bids a_asks].
           assert (Hw : In w (a_asks A)) by (eapply first_leaf_In; exact Ew).
           destruct (f_asks _ aw_fit0 w Hw) as (F1 & F2 & F3 & F4). unfold ask_val in F3.
           rewrite c_cl0. rewrite wmul_small by nia. apply AS_evict; auto.
           unfold has_room. rewrite <- c_capa0. assumption.
        -- rewrite accrue_0; assumption.
  - assert (REL : forall o' A' pr', rep o' A' -> keeps o o' -> ob_mkt o' = ob_mkt o ->
       A' = mkA (a_bids A) (a_asks A) (a_evs A ++ vis p [my_out p Ask (q * cl) 0]) ->
       pr' = (if is_send_take p then pr else add_coin_unlocked pr q) ->
       ask_post o A pr q po (o', pr', None)).
    { intros o' A' pr' R' K M -> ->. eexists _, 0, None.
      split; [|split; [reflexivity|split; [exact R'|split; [assumption|]]]].
      - apply AS_release.
        + intros Hc. destruct crossed; [apply HT; reflexivity|]. exfalso. apply HF; auto.
        + intros Hc. apply andb_false_iff in EP. destruct EP as [EP|EP]; [assumption|].
          destruct crossed; [|discriminate]. exfalso. apply Hc. apply HT. reflexivity.
      - rewrite accrue_0; assumption. }
    unfold vis in REL. destruct (is_send_take p) eqn:ES; cbn [negb].
    + cbn [outcome]. eapply REL; [exact R|apply keeps_refl|reflexivity| |reflexivity].
      rewrite app_nil_r. destruct A; reflexivity.
    + rewrite cadd_small by lia. cbn [rbind].
      eapply emit_out; [exact R|left; reflexivity|]. intros q' R' K. cbn [outcome].
      specialize (aw_qcl0 eq_refl). rewrite wmul_small in R' by nia.
      eapply REL; [exact R'|exact K|reflexivity|reflexivity|reflexivity].
Qed.

Lemma ask_finish_fill o A pr q t price :
  ctx o -> rep o A -> 0 < t <= q -> (is_send_take p = false -> q * cl < B64) -> 0 < price -> t * price * pl < B64 ->
  0 <= p_coin_debit pr -> p_coin_unlocked pr + p_coin_debit pr + q < B64 -> 0 <= p_coin_unlocked pr ->
  0 <= p_pc_credit pr -> p_pc_credit pr + t * price * pl < B64 ->
  let v := t * price * pl in let fee := taker_fee (op_tier p) v in
  outcome (ask_finish o pr p q (q - t) (t * price) 0 true false)
    (fun x => let '(o', pr', rem) := x in
       rep o' (addev A (vis p (EvFill Ask false (t * cl) (v - fee) fee (op_order_id p) (op_owner p) (op_slot p) (op_tier p) (op_cid p)
                  :: (if q - t =? 0 then [my_out p Ask 0 0] else [])))) /\
       pr' = add_ask_fill pr (v - fee) t /\
       rem = (if q - t =? 0 then None else Some (q - t, 0)) /\
       keeps o o' /\ ob_mkt o' = accrue (ob_mkt o) fee 0) match_err.
Proof.
  intros C R Ht Hq Hp Hv P1 P2 P3 P4 P5 v fee. destruct C.
  assert (V0 : 0 < v) by (unfold v; nia).
  assert (VF : 0 <= fee <= v) by (apply taker_fee_le; unfold u64, v in *; lia).
  unfold ask_finish. rewrite c_cl0, c_pl0.
  rewrite (wmul_small (t * price) pl) by (unfold v in *; lia). fold v. fold fee.
  rewrite (wsub_small v fee) by (unfold v in *; lia).
  rewrite (wsub_small q (q - t)) by (unfold v in *; nia).
  replace (q - (q - t)) with t by lia.
  unfold pr_credit_pc, pr_debit_coin, pr_unlock_coin.
  rewrite cadd_small by (unfold v in *; lia). cbn [rbind]. rewrite cadd_small by (cbn; lia). cbn [rbind].
  cbn [p_coin_unlocked p_pc_unlocked p_coin_credit p_pc_credit p_coin_debit p_pc_debit].
  replace (0 <? v) with true by lia. cbn [andb negb].
  rewrite andb_false_r. cbn [andb].
  assert (TC : is_send_take p = false -> wmul t cl = t * cl).
  { intros E. specialize (Hq E). apply wmul_small; nia. }
  assert (FIN : forall o1 A1, rep o1 A1 -> keeps o o1 -> ob_mkt o1 = ob_mkt o ->
     A1 = addev A (vis p [EvFill Ask false (t * cl) (v - fee) fee (op_order_id p) (op_owner p) (op_slot p) (op_tier p) (op_cid p)]) ->
     outcome (let o2 := set_mkt o1 (accrue (ob_mkt o) fee 0) in
       if negb (q - t =? 0) then Ok (o2, add_ask_fill pr (v - fee) t, Some (q - t, 0))
       else if negb (is_send_take p) then
          pr3 <- (v0 <- cadd (p_coin_unlocked pr) (q - t) ;; Ok (mkPr v0 (p_pc_unlocked pr) (p_coin_credit pr) (p_pc_credit pr + (v - fee)) (p_coin_debit pr + t) (p_pc_debit pr))) ;;
          o3 <- emit o2 (EvOut Ask false (wmul (q - t) cl) 0 (op_order_id p) (op_owner p) (op_slot p) (op_cid p)) ;;
          Ok (o3, pr3, None)
       else Ok (o2, add_ask_fill pr (v - fee) t, None))
    (fun x => let '(o', pr', rem) := x in
       rep o' (addev A (vis p (EvFill Ask false (t * cl) (v - fee) fee (op_order_id p) (op_owner p) (op_slot p) (op_tier p) (op_cid p)
                  :: (if q - t =? 0 then [my_out p Ask 0 0] else [])))) /\
       pr' = add_ask_fill pr (v - fee) t /\
       rem = (if q - t =? 0 then None else Some (q - t, 0)) /\
       keeps o o' /\ ob_mkt o' = accrue (ob_mkt o) fee 0) match_err).
  { intros o1 A1 R1 K1 M1 ->. cbn zeta. apply rep_set_mkt with (m := accrue (ob_mkt o) fee 0) in R1.
    destruct (q - t =? 0) eqn:EQ; cbn [negb].
    - replace (q - t) with 0 by lia. rewrite cadd_small by lia. cbn [rbind].
      change (wmul 0 cl) with 0. unfold vis in *. destruct (is_send_take p); cbn [negb].
      + cbn [outcome]. exact (conj R1 (conj eq_refl (conj eq_refl (conj K1 eq_refl)))).
      + eapply emit_out; [exact R1|left; reflexivity|]. intros q' R2 K2. cbn [outcome].
        rewrite addev_addev in R2.
        split; [exact R2|]. split; [|split; [reflexivity|split; [|reflexivity]]].
        * unfold add_ask_fill. f_equal; lia.
        * eapply keeps_trans; [exact K1|]. exact K2.
    - cbn [outcome]. exact (conj R1 (conj eq_refl (conj eq_refl (conj K1 eq_refl)))). }
  unfold vis in FIN |- *. destruct (is_send_take p) eqn:ES; cbn [negb rbind] in *.
  - eapply FIN; [exact R|apply keeps_refl|reflexivity|]. rewrite addev_nil. reflexivity.
  - rewrite TC by reflexivity. eapply emit_out; [exact R|left; reflexivity|]. intros q' R1 K1.
    eapply FIN; [exact R1|exact K1|reflexivity|reflexivity].
Qed.

Lemma option_map_if (b : bool) (x : Z) :
  option_map (fun n => (n, 0)) (if b then None else Some x) = (if b then None else Some (x, 0)).
Proof. destruct b; reflexivity. Qed.

Theorem new_ask_step o A pr q po :
  ctx o -> rep o A -> ask_wf A pr q ->
  outcome (new_ask o pr p q lim po) (ask_post o A pr q po) match_err.
Proof.
  intros C R W. pose proof C as C'. destruct C', W.
  unfold new_ask. rewrite c_cl0, c_pl0.
  pose proof (find_bbo_spec o A Bid R) as FB. cbn [get_book] in FB.
  destruct (first_leaf true (a_bids A)) as [b|] eqn:EB.
  2:{ destruct FB as [-> FB]. cbn [rbind]. apply ask_finish_done; auto.
      - constructor; assumption.
      - discriminate.
      - intros _ (b & Hb & _). unfold best_bid in Hb. congruence. }
  destruct FB as (h & -> & HL & Hb). cbn [rbind]. unfold get_leaf. destruct HL as [HL0 HLb].
  cbn [orders_of] in HL0. rewrite HL0. cbn [rbind].
  destruct (f_bids _ aw_fit0 b Hb) as (F1 & F2 & F3 & F4). unfold leaf_price.
  replace (l_price b =? 0) with false by lia. cbn [rbind].
  destruct (lim <=? l_price b) eqn:EX.
  2:{ cbn [negb orb]. apply ask_finish_done; auto; [constructor; assumption|discriminate|].
      intros _ (b' & Hb' & Hle). unfold best_bid in Hb'. rewrite EB in Hb'. injection Hb' as ->. lia. }
  cbn [negb orb].
  assert (CR : ask_crosses lim A) by (exists b; split; [exact EB|lia]).
  destruct po.
  { apply ask_finish_done; auto; [constructor; assumption|discriminate]. }
  replace (Z.min (l_qty b) q =? 0) with false by lia.
  unfold bid_val in F3.
  destruct (op_owner p =? l_owner b) eqn:EO.
  - (* self trade *)
    destruct (is_send_take p) eqn:ES.
    { destruct (aw_st0 eq_refl) as [_ ->]. right. reflexivity. }
    specialize (aw_qcl0 eq_refl).
    assert (ALL : forall cprov ctake, self_qty p (Z.min (l_qty b) q) (l_qty b) = Some (cprov, ctake) ->
      0 < cprov <= l_qty b -> 0 <= ctake <= q ->
      outcome
        (let left := wsub (l_qty b) cprov in
          o1 <- emit o (EvOut Bid true (wmul (wmul cprov (l_price b)) pl)
                              (wmul (wmul left (l_price b)) pl)
                              (l_key b) (l_owner b) (l_slot b) (l_cid b)) ;;
          o2 <- (if left =? 0 then remove_order_by_key o1 Bid (l_key b)
                 else Ok (write_qty o1 Bid h b left)) ;;
          let unfilled := wsub q ctake in
          o3 <- emit o2 (EvOut Ask false (wmul ctake cl) unfilled (op_order_id p)
                               (op_owner p) (op_slot p) (op_cid p)) ;;
          pr1 <- pr_unlock_coin pr ctake ;;
          Ok (o3, pr1, if unfilled =? 0 then None else Some (unfilled, 0)))
        (ask_post o A pr q false) match_err).
    { intros cprov ctake HS H1 H2. cbn zeta.
      destruct (part_bounds cprov (l_qty b) (l_price b) pl B64) as (M1 & M2 & M3 & _); try lia.
      destruct (part_bounds (l_qty b - cprov) (l_qty b) (l_price b) pl B64) as (M4 & M5 & M6 & _); try lia.
      destruct (part_bounds1 ctake q cl B64) as (M7 & M8 & _); try lia.
      destruct (part_bounds1 q q cl B64) as (M9 & _ & _); try lia.
      rewrite (wsub_small (l_qty b) cprov) by lia.
      rewrite (wsub_small q ctake) by lia.
      rewrite (wmul_small cprov (l_price b)) by lia.
      rewrite (wmul_small (l_qty b - cprov) (l_price b)) by lia.
      rewrite (wmul_small (cprov * l_price b) pl) by lia.
      rewrite (wmul_small ((l_qty b - cprov) * l_price b) pl) by lia.
      rewrite (wmul_small ctake cl) by lia.
      eapply emit_out; [exact R|left; reflexivity|]. intros q1 R1 K1.
      assert (S1 : outcome (if l_qty b - cprov =? 0 then remove_order_by_key (set_eq o q1) Bid (l_key b)
                 else Ok (write_qty (set_eq o q1) Bid h b (l_qty b - cprov)))
         (fun o2 => rep o2 (addev (set_book A Bid (shrink b (l_qty b - cprov) (a_bids A)))
             [EvOut Bid true (cprov * l_price b * pl) ((l_qty b - cprov) * l_price b * pl)
                              (l_key b) (l_owner b) (l_slot b) (l_cid b)]) /\
             keeps o o2 /\ ob_mkt o2 = ob_mkt o) match_err).
      { unfold shrink. destruct (l_qty b - cprov =? 0).
        - destruct (remove_spec _ _ Bid b R1 Hb) as (sl & E1 & R2 & K2). rewrite E1. cbn [outcome].
          split; [exact R2|]. split; [|reflexivity]. eapply keeps_trans; [exact K1|exact K2].
        - cbn [outcome].
          destruct (write_spec _ _ Bid h b (l_qty b - cprov) R1) as [R2 K2]; [split; assumption|].
          split; [exact R2|]. split; [|reflexivity]. eapply keeps_trans; [exact K1|exact K2]. }
      eapply outcome_bind; [exact S1|]. intros o2 (R2 & K2 & MM2).
      eapply emit_out; [exact R2|left; reflexivity|]. intros q3 R3 K3.
      rewrite addev_addev in R3. unfold pr_unlock_coin. rewrite cadd_small by lia. cbn [rbind outcome].
      eexists _, 0, _. split; [eapply AS_self with (b := b) (cprov := cprov) (ctake := ctake); auto; lia|].
      split; [symmetry; apply option_map_if|]. split; [exact R3|]. split; [eapply keeps_trans; [exact K2|exact K3]|].
      rewrite accrue_0 by assumption. exact MM2. }
    unfold self_qty in ALL. destruct (op_st p).
    + apply (ALL _ _ eq_refl); lia.
    + apply (ALL _ _ eq_refl); lia.
    + right. reflexivity.
  - (* fill *)
    rewrite tier_of_leaf_ok by assumption. cbn [rbind].
    remember (Z.min (l_qty b) q) as t eqn:Et.
    assert (T : 0 < t <= l_qty b /\ t <= q) by lia. destruct T as [T1 T2].
    destruct (part_bounds t (l_qty b) (l_price b) pl B64) as (M1 & M2 & M3 & M4); try lia.
    destruct (part_bounds (l_qty b) (l_qty b) (l_price b) pl B64) as (M5 & _ & _ & _); try lia.
    rewrite (wmul_small t (l_price b)) by lia.
    rewrite (wmul_small (t * l_price b) pl) by lia.
    rewrite maker_rebate_0 by (unfold u64; lia).
    change (wadd 0 0) with 0. rewrite (wsub_small _ 0) by lia. rewrite Z.sub_0_r.
    rewrite (wsub_small (l_qty b) t) by lia. rewrite (wsub_small q t) by lia.
    rewrite (wadd_small 0 (t * l_price b)) by lia. rewrite Z.add_0_l.
    eapply emit_out; [exact R|left; reflexivity|]. intros q1 R1 K1.
    destruct (write_spec _ _ Bid h b (l_qty b - t) R1) as [R2 K2]; [split; assumption|].
    set (o2 := write_qty (set_eq o q1) Bid h b (l_qty b - t)) in *.
    set (ev1 := EvFill Bid true (t * l_price b * pl) (wmul t cl) 0 (l_key b) (l_owner b) (l_slot b) (leaf_tier b) (l_cid b)) in *.
    assert (S1 : outcome (if l_qty b - t =? 0 then
                   o3 <- emit o2 (EvOut Bid true 0 0 (l_key b) (l_owner b) (l_slot b) (l_cid b)) ;;
                   remove_order_by_key o3 Bid (l_key b)
                 else Ok o2)
        (fun o4 => rep o4 (addev (set_book A Bid (shrink b (l_qty b - t) (a_bids A)))
             (ev1 :: (if l_qty b - t =? 0 then [out_of Bid true 0 0 b] else []))) /\
             keeps o o4 /\ ob_mkt o4 = ob_mkt o) match_err).
    { unfold shrink. destruct (l_qty b - t =? 0) eqn:EL.
      - eapply emit_out; [exact R2|left; reflexivity|]. intros q3 R3 K3.
        change (l_key b) with (l_key (set_qty b (l_qty b - t))).
        destruct (remove_spec _ _ Bid (set_qty b (l_qty b - t)) R3) as (sl & E1 & R4 & K4).
        { cbn. unfold lset. apply in_map_iff. exists b. split; [|assumption]. cbn. rewrite Z.eqb_refl. reflexivity. }
        rewrite E1. cbn [outcome].
        split; [|split; [|reflexivity]].
        + cbn [get_book set_book a_bids addev] in R4. cbn [set_qty l_key] in R4. rewrite ldel_lset in R4 by reflexivity.
          unfold addev, set_book in *. cbn [a_bids a_asks a_evs l_key set_qty] in *. rewrite <- app_assoc in R4. exact R4.
        + eapply keeps_trans; [exact K1|]. eapply keeps_trans; [exact K2|]. eapply keeps_trans; [exact K3|exact K4].
      - cbn [outcome]. split; [exact R2|]. split; [|reflexivity]. eapply keeps_trans; [exact K1|exact K2]. }
    eapply outcome_bind; [exact S1|]. intros o4 (R4 & K4 & MM4). clear R2 K2 R1 K1 S1.
    pose proof (ctx_same _ _ C MM4 K4) as C4.
    assert (BV : bid_val pl b <= zsum (bid_val pl) (a_bids A)).
    { apply zsum_In_le; [|assumption]. intros y Hy. clear -Hy aw_fit0 c_plp0. destruct (f_bids _ aw_fit0 y Hy) as (? & ? & ? & ?). unfold bid_val. nia. }
    unfold bid_val in BV at 1.
    eapply outcome_weaken; [eapply (ask_finish_fill o4 _ pr q t (l_price b) C4 R4); try assumption; try lia|..].
    + intros [[o' pr'] rem] (R5 & -> & -> & K5 & MM5).
      eexists _, _, _. split; [eapply AS_fill with (b := b) (t := t); auto; lia|].
      split; [symmetry; apply option_map_if|].
      split; [rewrite addev_addev in R5; exact R5|].
      split; [eapply keeps_trans; [exact K4|exact K5]|]. rewrite MM5, MM4. reflexivity.
    + intros e He. exact He.
Qed.
End Ask.
