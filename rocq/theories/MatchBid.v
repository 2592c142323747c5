(** new_bid performs the steps [bid_step]. *)
From Verif Require Import Base BaseProofs Fees FeesSpec FeesProofs Critbit CritbitProofs CritbitSlab CritbitOps
  CritbitSpec CritbitRefine ListSum Queue QueueSpec QueueProofs Codec Market Matching MatchSteps MatchRefine MatchAsk.

Section BidSide.
Variables (cl pl capb capa : Z) (p : order_params).
Let lim := price_of_id (op_order_id p).

Record bid_wf (A : astate) (pr : proceeds) (q L : Z) : Prop := mkBwf {
  bw_fit : books_fit cl pl A;
  bw_q : 0 < q < B64; bw_L : 0 < L < B64;
  bw_lim : 0 < lim;
  bw_id : u128 (op_order_id p);
  bw_fresh : lfind (op_order_id p) (a_bids A) = None;
  bw_st : is_send_take p = true -> op_post_allowed p = false;
  bw_pr1 : 0 <= p_pc_unlocked pr; bw_pr2 : 0 <= p_pc_debit pr;
  bw_pr3 : p_pc_unlocked pr + p_pc_debit pr + L < B64;
  bw_pr4 : 0 <= p_coin_credit pr;
  bw_pr5 : p_coin_credit pr + q < B64
}.

Definition bid_post (o : obs) (A : astate) (pr : proceeds) (q L : Z) (po : bool)
    (x : obs * proceeds * remaining) : Prop :=
  let '(o', pr', rem) := x in
  exists A' fee, bid_step cl pl capb p lim po A pr q L A' pr' fee rem /\
    rep o' A' /\ keeps o o' /\ ob_mkt o' = accrue (ob_mkt o) fee 0.

Lemma post_qty_bounds q L : 0 < pl -> 0 < lim -> 0 < q -> 0 < L ->
  let n := bid_post_qty pl lim q L in
  0 <= n <= q /\ 0 <= n * lim <= n * lim * pl /\ n * lim * pl <= L /\ (0 < n * lim <-> 0 < n).
Proof.
  intros Hpl Hlim Hq HL n. unfold n, bid_post_qty. clearbody lim.
  assert (0 <= L / pl) by (apply Z.div_pos; lia).
  assert (0 <= L / pl / lim) by (apply Z.div_pos; lia).
  assert (L / pl * pl <= L) by (rewrite Z.mul_comm; apply Z.mul_div_le; lia).
  assert (L / pl / lim * lim <= L / pl) by (rewrite Z.mul_comm; apply Z.mul_div_le; lia).
  remember (Z.min q (L / pl / lim)) as m eqn:Em.
  assert (m <= q /\ m <= L / pl / lim /\ 0 <= m) as (? & ? & ?) by lia. clear Em n.
  assert (m * lim <= L / pl / lim * lim) by (apply mul_le_r; lia).
  assert (m * lim * pl <= L / pl * pl) by (apply mul_le_r; lia).
  repeat split; try lia; nia.
Qed.

Lemma bid_finish_done o A pr q L po crossed max_pc :
  ctx cl pl capb capa o -> rep o A -> bid_wf A pr q L -> 0 <= max_pc < B64 ->
  (crossed = true -> bid_crosses lim A /\ forall b, best_ask A = Some b -> l_price b <= lim ->
       po = true \/ Z.min (Z.min (l_qty b) q) (bid_budget pl p L / l_price b) = 0) ->
  (crossed = false -> ~ bid_crosses lim A) ->
  outcome (bid_finish o pr p q L lim max_pc q max_pc 0 crossed true) (bid_post o A pr q L po) match_err.
Proof.
  intros C R W HM HT HF. destruct C, W.
  unfold bid_finish. rewrite c_cl, c_pl.
  rewrite (wsub_small max_pc max_pc), Z.sub_diag by lia. change (wmul 0 pl) with 0. rewrite taker_fee_0.
  rewrite (wsub_small L 0), Z.sub_0_r by lia. rewrite (wsub_small L 0), Z.sub_0_r by lia.
  rewrite (wsub_small q q), Z.sub_diag by lia. change (wadd 0 0) with 0.
  unfold pr_credit_coin, pr_debit_pc, pr_unlock_pc.
  rewrite cadd_small by lia. cbn [rbind]. rewrite cadd_small by (cbn; lia). cbn [rbind].
  cbn [p_coin_unlocked p_pc_unlocked p_coin_credit p_pc_credit p_coin_debit p_pc_debit].
  rewrite !Z.add_0_r. change (0 <? 0) with false. cbn [andb rbind negb].
  rewrite accrue_0 by assumption.
  replace (mkPr (p_coin_unlocked pr) (p_pc_unlocked pr) (p_coin_credit pr) (p_pc_credit pr) (p_coin_debit pr) (p_pc_debit pr))
    with pr by (destruct pr; reflexivity).
  replace (set_mkt o (ob_mkt o)) with o by (destruct o; reflexivity).
  replace (lim =? 0) with false by lia. cbn [negb andb]. replace (pl =? 0) with false by lia.
  destruct (op_post_allowed p && negb crossed) eqn:EP.
  - apply andb_true_iff in EP. destruct EP as [EP EC]. destruct crossed; [discriminate|].
    destruct (is_send_take p) eqn:ES; [rewrite bw_st0 in EP by reflexivity; discriminate|]. cbn [rbind negb].
    change (Z.min q (L / pl / lim)) with (bid_post_qty pl lim q L).
    remember (bid_post_qty pl lim q L) as n eqn:En.
    destruct (post_qty_bounds q L) as (N1 & N2 & N3 & N4); [lia..|]. cbn zeta in *. rewrite <- En in *.
    rewrite (wmul_small n lim) by lia. rewrite (wmul_small (n * lim) pl) by lia.
    rewrite (wsub_small L (n * lim * pl)) by lia. rewrite cadd_small by lia. cbn [rbind].
    destruct (0 <? n * lim) eqn:EN.
    + match goal with |- outcome (rbind (rbind (emit ?oo ?ev) ?k) ?f) ?P ?E =>
        assert (EQ : rbind (rbind (emit oo ev) k) f = rbind (emit oo ev) (fun x => rbind (k x) f))
          by (destruct (emit oo ev); reflexivity); rewrite EQ; clear EQ end.
      eapply emit_out; [exact R|left; reflexivity|]. intros q' R' K. cbn [rbind].
      eapply outcome_bind.
      * eapply outcome_weaken; [eapply (post_spec (set_eq o q') _ Bid (my_leaf p n)); [exact R'|..]|..].
        -- exact bw_id0.
        -- exact bw_fresh0.
        -- cbn. lia.
        -- intros x Hx. apply (f_bids _ _ _ bw_fit0 x Hx).
        -- intros x Hx. exact Hx.
        -- intros e ->. left. reflexivity.
      * intros o' (K2 & M & [[HR R2]|(HR & w & Ew & R2)]); cbn [outcome].
        -- eexists _, 0. split; [|split; [exact R2|split; [eapply keeps_trans; [exact K|exact K2]|]]].
           ++ refine (BS_post cl pl capb p lim po A pr q L n _ EP En _ _); auto; [apply N4; lia|]. unfold has_room. rewrite <- c_capb. exact HR.
           ++ rewrite accrue_0; assumption.
        -- eexists _, 0. split; [|split; [exact R2|split; [eapply keeps_trans; [exact K|exact K2]|]]].
           ++ cbn [set_book get_book a_bids a_asks a_evs addev set_eq ob_mkt].
              assert (Hw : In w (a_bids A)) by (eapply first_leaf_In; exact Ew).
              destruct (f_bids _ _ _ bw_fit0 w Hw) as (F1 & F2 & F3 & F4). unfold bid_val in F3.
              destruct (part_bounds (l_qty w) (l_qty w) (l_price w) pl B64) as (G1 & G2 & G3 & _); try lia.
              rewrite c_pl. rewrite (wmul_small (l_qty w)) by lia. rewrite (wmul_small (l_qty w * l_price w)) by lia.
              rewrite <- app_assoc. refine (BS_evict cl pl capb p lim po A pr q L n w _ EP En _ _ Ew); auto; [apply N4; lia|].
              unfold has_room. rewrite <- c_capb. exact HR.
           ++ rewrite accrue_0; assumption.
    + assert (n = 0) by lia. rewrite H in *. rewrite !Z.mul_0_l, Z.sub_0_r.
      match goal with |- outcome (rbind (rbind (emit ?oo ?ev) ?k) ?f) ?P ?E =>
        assert (EQ : rbind (rbind (emit oo ev) k) f = rbind (emit oo ev) (fun x => rbind (k x) f))
          by (destruct (emit oo ev); reflexivity); rewrite EQ; clear EQ end.
      eapply emit_out; [exact R|left; reflexivity|]. intros q' R' K. cbn [rbind outcome].
      eexists _, 0. split; [|split; [exact R'|split; [exact K|]]].
      * assert (X := BS_release cl pl capb p lim po A pr q L). unfold vis in X. rewrite ES in X. apply X.
        -- intros b Hb Hle. exfalso. apply HF; [reflexivity|]. exists b. auto.
        -- right. congruence.
      * rewrite accrue_0; [reflexivity|assumption].
  - cbn [rbind]. change (wmul 0 pl) with 0. rewrite (wsub_small L 0), Z.sub_0_r by lia. change (0 <? 0) with false.
    assert (REL : forall o' A' pr', rep o' A' -> keeps o o' -> ob_mkt o' = ob_mkt o ->
       A' = mkA (a_bids A) (a_asks A) (a_evs A ++ vis p [my_out p Bid L 0]) ->
       pr' = (if is_send_take p then pr else add_pc_unlocked pr L) ->
       bid_post o A pr q L po (o', pr', None)).
    { intros o' A' pr' R' K M -> ->. eexists _, 0.
      split; [|split; [exact R'|split; [assumption|]]].
      - apply BS_release.
        + intros b Hb Hle. destruct crossed; [eapply HT; auto|]. exfalso. apply HF; [reflexivity|]. exists b. auto.
        + intros Hc. apply andb_false_iff in EP. destruct EP as [EP|EP]; [left; assumption|].
          destruct crossed; [|discriminate]. exfalso. apply Hc. apply HT. reflexivity.
      - rewrite accrue_0; assumption. }
    unfold vis in REL. destruct (is_send_take p) eqn:ES; cbn [negb].
    + cbn [rbind outcome]. eapply REL; [exact R|apply keeps_refl|reflexivity| |reflexivity].
      rewrite app_nil_r. destruct A; reflexivity.
    + rewrite cadd_small by lia. cbn [rbind].
      match goal with |- outcome (rbind (rbind (emit ?oo ?ev) ?k) ?f) ?P ?E =>
        assert (EQ : rbind (rbind (emit oo ev) k) f = rbind (emit oo ev) (fun x => rbind (k x) f))
          by (destruct (emit oo ev); reflexivity); rewrite EQ; clear EQ end.
      eapply emit_out; [exact R|left; reflexivity|]. intros q' R' K. cbn [rbind outcome].
      eapply REL; [exact R'|exact K|reflexivity|reflexivity|reflexivity].
Qed.

Lemma bid_finish_fill o A pr q L max_pc t price :
  ctx cl pl capb capa o -> rep o A -> 0 < t <= q -> q < B64 -> t * cl < B64 -> 0 < price ->
  0 <= max_pc < B64 -> t * price <= max_pc ->
  t * price * pl + taker_fee (op_tier p) (t * price * pl) <= L -> L < B64 ->
  0 <= p_coin_credit pr -> p_coin_credit pr + q < B64 ->
  0 <= p_pc_debit pr -> 0 <= p_pc_unlocked pr -> p_pc_unlocked pr + p_pc_debit pr + L < B64 ->
  let v := t * price * pl in let fee := taker_fee (op_tier p) v in
  let fin := (q - t =? 0) || (L - v - fee =? 0) in
  outcome (bid_finish o pr p q L lim max_pc (q - t) (max_pc - t * price) 0 true false)
    (fun x => let '(o', pr', rem) := x in
       rep o' (addev A (vis p (EvFill Bid false (v + fee) (t * cl) fee (op_order_id p) (op_owner p) (op_slot p) (op_tier p) (op_cid p)
                  :: (if fin then [my_out p Bid (L - v - fee) 0] else [])))) /\
       pr' = (let pr1 := add_bid_fill pr t (v + fee) in
              if fin && negb (is_send_take p) then add_pc_unlocked pr1 (L - v - fee) else pr1) /\
       rem = (if fin then None else Some (q - t, L - v - fee)) /\
       keeps o o' /\ ob_mkt o' = accrue (ob_mkt o) fee 0) match_err.
Proof.
  intros C R Ht Hq Hcl Hp HM Htp HL HL2 P1 P2 P3 P4 P5 v fee fin. destruct C.
  fold v in HL. fold fee in HL.
  assert (V0 : 0 < v) by (unfold v; apply Z.mul_pos_pos; nia).
  assert (FU : 0 <= fee <= v -> 0 <= fee) by lia.
  assert (VF : 0 <= fee <= v).
  { apply taker_fee_le. unfold u64. split; [lia|].
    assert (0 <= taker_fee (op_tier p) v); [|fold fee in H; lia].
    unfold taker_fee, wadd, w64. apply Z.mod_pos_bound. lia. }
  unfold bid_finish. rewrite c_cl, c_pl.
  assert (TP : 0 < t * price) by nia.
  rewrite (wsub_small max_pc (max_pc - t * price)) by lia.
  replace (max_pc - (max_pc - t * price)) with (t * price) by lia.
  rewrite (wmul_small (t * price) pl) by (fold v; lia). fold v. fold fee.
  rewrite (wsub_small L v) by lia. rewrite (wsub_small (L - v) fee) by lia.
  rewrite (wsub_small q (q - t)) by lia. replace (q - (q - t)) with t by lia.
  rewrite (wadd_small v fee) by lia.
  assert (0 <= t * cl) by nia. rewrite (wmul_small t cl) by lia.
  unfold pr_credit_coin, pr_debit_pc, pr_unlock_pc.
  rewrite cadd_small by lia. cbn [rbind]. rewrite cadd_small by (cbn; lia). cbn [rbind].
  cbn [p_coin_unlocked p_pc_unlocked p_coin_credit p_pc_credit p_coin_debit p_pc_debit].
  replace (0 <? v) with true by lia. cbn [andb negb].
  rewrite <- negb_orb. fold fin. rewrite !andb_false_r. cbn [rbind].
  change (wmul 0 pl) with 0. rewrite (wsub_small _ 0), Z.sub_0_r by lia. change (0 <? 0) with false.
  set (ev := EvFill Bid false (v + fee) (t * cl) fee (op_order_id p) (op_owner p) (op_slot p) (op_tier p) (op_cid p)).
  rewrite cadd_small by lia. cbn [rbind].
  unfold vis. destruct (is_send_take p) eqn:ES; cbn [negb rbind].
  - rewrite andb_false_r. rewrite addev_nil.
    apply rep_set_mkt with (m := accrue (ob_mkt o) fee 0) in R.
    destruct fin; cbn [negb rbind outcome];
      exact (conj R (conj eq_refl (conj eq_refl (conj (keeps_refl _) eq_refl)))).
  - rewrite andb_true_r.
    eapply emit_out; [exact R|left; reflexivity|]. intros q' R1 K1.
    apply rep_set_mkt with (m := accrue (ob_mkt o) fee 0) in R1.
    destruct fin; cbn [negb].
    + match goal with |- outcome (rbind (rbind (emit ?oo ?ev) ?k) ?f) ?P ?E =>
        assert (EQ : rbind (rbind (emit oo ev) k) f = rbind (emit oo ev) (fun x => rbind (k x) f))
          by (destruct (emit oo ev); reflexivity); rewrite EQ; clear EQ end.
      eapply emit_out; [exact R1|left; reflexivity|]. intros q2 R2 K2. cbn [rbind outcome].
      rewrite addev_addev in R2.
      refine (conj R2 (conj eq_refl (conj eq_refl (conj _ eq_refl)))).
      eapply keeps_trans; [exact K1|exact K2].
    + cbn [outcome]. exact (conj R1 (conj eq_refl (conj eq_refl (conj K1 eq_refl)))).
Qed.

Lemma budget_spec L : 0 < L < B64 -> 0 < pl ->
  exists n, remove_taker_fee (op_tier p) L = Ok n /\ n / pl = bid_budget pl p L /\
    0 <= bid_budget pl p L < B64 /\
    (forall x, 0 <= x <= bid_budget pl p L -> x * pl + taker_fee (op_tier p) (x * pl) <= L /\ 0 <= x * pl <= L).
Proof.
  intros HL Hpl. assert (HU : u64 L) by (unfold u64; lia).
  destruct (remove_taker_fee_ok (op_tier p) L HU) as (n & E & N1 & N2). exists n. unfold bid_budget. rewrite E.
  split; [reflexivity|]. split; [reflexivity|].
  assert (0 <= n / pl) by (apply Z.div_pos; lia).
  assert (n / pl * pl <= n) by (rewrite Z.mul_comm; apply Z.mul_div_le; lia).
  clear N2. split; [nia|].
  intros x Hx. assert (x * pl <= n / pl * pl) by (apply mul_le_r; lia). assert (0 <= x * pl) by nia.
  split; [|lia]. apply remove_fee_sound with n; [assumption..|lia].
Qed.

Theorem new_bid_step o A pr q L po :
  ctx cl pl capb capa o -> rep o A -> bid_wf A pr q L ->
  outcome (new_bid o pr p q L lim po) (bid_post o A pr q L po) match_err.
Proof.
  intros C R W. pose proof C as C'. destruct C'. pose proof W as W'. destruct W'.
  unfold new_bid. rewrite c_cl, c_pl.
  replace (lim =? 0) with false by lia. cbn [negb].
  assert (AS : (if op_post_allowed p then check true EAssert else Ok tt) = Ok tt) by (destruct (op_post_allowed p); reflexivity).
  rewrite AS. cbn [rbind]. clear AS.
  destruct (budget_spec L bw_L0 c_plp) as (n & EN & EB & BB & BS). rewrite EN. cbn [rbind].
  replace (pl =? 0) with false by lia. rewrite EB.
  pose proof (find_bbo_spec o A Ask R) as FB. cbn [get_book] in FB.
  destruct (first_leaf false (a_asks A)) as [b|] eqn:EBA.
  2:{ destruct FB as [-> FB]. cbn [rbind]. apply bid_finish_done; auto.
      - discriminate.
      - intros _ (b & Hb & _). unfold best_ask in Hb. congruence. }
  destruct FB as (h & -> & HL & Hb). cbn [rbind]. unfold get_leaf. destruct HL as [HL0 HLb].
  cbn [orders_of] in HL0. rewrite HL0. cbn [rbind].
  destruct (f_asks _ _ _ bw_fit0 b Hb) as (F1 & F2 & F3 & F4). unfold leaf_price.
  replace (l_price b =? 0) with false by lia. cbn [rbind].
  destruct (l_price b <=? lim) eqn:EX.
  2:{ cbn [negb orb]. apply bid_finish_done; auto; [discriminate|].
      intros _ (b' & Hb' & Hle). unfold best_ask in Hb'. rewrite EBA in Hb'. injection Hb' as ->. lia. }
  cbn [negb orb].
  assert (CR : bid_crosses lim A) by (exists b; split; [exact EBA|lia]).
  destruct po.
  { apply bid_finish_done; auto; discriminate. }
  remember (Z.min (Z.min (l_qty b) q) (bid_budget pl p L / l_price b)) as t eqn:Et.
  destruct (t =? 0) eqn:ET.
  { apply bid_finish_done; auto; [|discriminate]. intros _. split; [assumption|].
    intros b' Hb' _. unfold best_ask in Hb'. rewrite EBA in Hb'. injection Hb' as <-. right. lia. }
  assert (BP : 0 <= bid_budget pl p L / l_price b) by (apply Z.div_pos; lia).
  assert (T : 0 < t <= l_qty b /\ t <= q /\ t <= bid_budget pl p L / l_price b) by lia. destruct T as (T1 & T2 & T3).
  assert (TP : 0 <= t * l_price b <= bid_budget pl p L).
  { split; [nia|]. transitivity (bid_budget pl p L / l_price b * l_price b); [apply mul_le_r; lia|].
    rewrite Z.mul_comm. apply Z.mul_div_le. lia. }
  destruct (BS _ TP) as [TF TV].
  unfold ask_val in F3. 
  destruct (part_bounds1 (l_qty b) (l_qty b) cl B64) as (M0 & M00 & _); try lia.
  destruct (op_owner p =? l_owner b) eqn:EO.
  - (* self trade *)
    assert (ALL : forall cprov ctake, self_qty p t (l_qty b) = Some (cprov, ctake) ->
      0 < cprov <= l_qty b -> 0 <= ctake <= t ->
      outcome
        (let left := wsub (l_qty b) cprov in
          o1 <- emit o (EvOut Ask true (wmul cprov cl) (wmul left cl)
                              (l_key b) (l_owner b) (l_slot b) (l_cid b)) ;;
          o2 <- (if left =? 0 then remove_order_by_key o1 Ask (l_key b)
                 else Ok (write_qty o1 Ask h b left)) ;;
          let t_unlocked := wmul (wmul ctake (l_price b)) pl in
          let t_still := wsub L t_unlocked in
          let coin_rem := wsub q ctake in
          let more := negb (coin_rem =? 0) && negb (t_still =? 0) in
          let '(unlocked, still) := if more then (t_unlocked, t_still) else (L, 0) in
          pr1 <- pr_unlock_pc pr unlocked ;;
          o3 <- emit o2 (EvOut Bid false unlocked still (op_order_id p) (op_owner p) (op_slot p) (op_cid p)) ;;
          Ok (o3, pr1, if more then Some (coin_rem, t_still) else None))
        (bid_post o A pr q L false) match_err).
    { intros cprov ctake HS H1 H2. cbn zeta.
      destruct (part_bounds1 cprov (l_qty b) cl B64) as (M1 & M2 & _); try lia.
      destruct (part_bounds1 (l_qty b - cprov) (l_qty b) cl B64) as (M3 & M4 & _); try lia.
      destruct (part_bounds ctake t (l_price b) pl B64) as (M5 & M6 & M7 & M8); try lia.
      rewrite (wsub_small (l_qty b) cprov) by lia.
      rewrite (wmul_small cprov cl) by lia. rewrite (wmul_small (l_qty b - cprov) cl) by lia.
      rewrite (wmul_small ctake (l_price b)) by lia. rewrite (wmul_small (ctake * l_price b) pl) by lia.
      rewrite (wsub_small L) by lia. rewrite (wsub_small q ctake) by lia.
      eapply emit_out; [exact R|left; reflexivity|]. intros q1 R1 K1.
      assert (S1 : outcome (if l_qty b - cprov =? 0 then remove_order_by_key (set_eq o q1) Ask (l_key b)
                 else Ok (write_qty (set_eq o q1) Ask h b (l_qty b - cprov)))
         (fun o2 => rep o2 (addev (set_book A Ask (shrink b (l_qty b - cprov) (a_asks A)))
             [EvOut Ask true (cprov * cl) ((l_qty b - cprov) * cl)
                              (l_key b) (l_owner b) (l_slot b) (l_cid b)]) /\
             keeps o o2 /\ ob_mkt o2 = ob_mkt o) match_err).
      { unfold shrink. destruct (l_qty b - cprov =? 0).
        - destruct (remove_spec _ _ Ask b R1 Hb) as (sl & E1 & R2 & K2). rewrite E1. cbn [outcome].
          split; [exact R2|]. split; [|reflexivity]. eapply keeps_trans; [exact K1|exact K2].
        - cbn [outcome].
          destruct (write_spec _ _ Ask h b (l_qty b - cprov) R1) as [R2 K2]; [split; assumption|].
          split; [exact R2|]. split; [|reflexivity]. eapply keeps_trans; [exact K1|exact K2]. }
      eapply outcome_bind; [exact S1|]. intros o2 (R2 & K2 & MM2). clear S1.
      rewrite <- negb_orb.
      destruct ((q - ctake =? 0) || (L - ctake * l_price b * pl =? 0)) eqn:EF; cbn [negb].
      + unfold pr_unlock_pc. rewrite cadd_small by lia. cbn [rbind].
        eapply emit_out; [exact R2|left; reflexivity|]. intros q3 R3 K3.
        rewrite addev_addev in R3. cbn [outcome].
        eexists _, 0. split; [|split; [exact R3|split; [eapply keeps_trans; [exact K2|exact K3]|]]].
        * assert (X := BS_self cl pl capb p lim false A pr q L b t cprov ctake L 0).
          rewrite EF in X. apply X; auto; lia.
        * rewrite accrue_0 by assumption. exact MM2.
      + unfold pr_unlock_pc. rewrite cadd_small by lia. cbn [rbind].
        eapply emit_out; [exact R2|left; reflexivity|]. intros q3 R3 K3.
        rewrite addev_addev in R3. cbn [outcome].
        eexists _, 0. split; [|split; [exact R3|split; [eapply keeps_trans; [exact K2|exact K3]|]]].
        * assert (X := BS_self cl pl capb p lim false A pr q L b t cprov ctake
            (ctake * l_price b * pl) (L - ctake * l_price b * pl) EBA).
          rewrite EF in X. apply X; auto; lia.
        * rewrite accrue_0 by assumption. exact MM2. }
    unfold self_qty in ALL. destruct (op_st p).
    + apply (ALL _ _ eq_refl); lia.
    + apply (ALL _ _ eq_refl); lia.
    + right. reflexivity.
  - (* fill *)
    rewrite tier_of_leaf_ok by assumption. cbn [rbind].
    destruct (part_bounds t t (l_price b) pl B64) as (M1 & M2 & M3 & M4); try lia.
    destruct (part_bounds1 t (l_qty b) cl B64) as (M7 & M8 & _); try lia.
    rewrite (wmul_small t (l_price b)) by lia.
    rewrite (wmul_small (t * l_price b) pl) by lia.
    rewrite maker_rebate_0 by (unfold u64; lia).
    change (wadd 0 0) with 0. rewrite (wadd_small _ 0) by lia. rewrite Z.add_0_r.
    rewrite (wmul_small t cl) by lia.
    rewrite (wsub_small (l_qty b) t) by lia. rewrite (wsub_small q t) by lia.
    rewrite (wsub_small _ (t * l_price b)) by lia.
    eapply emit_out; [exact R|left; reflexivity|]. intros q1 R1 K1.
    destruct (write_spec _ _ Ask h b (l_qty b - t) R1) as [R2 K2]; [split; assumption|].
    set (o2 := write_qty (set_eq o q1) Ask h b (l_qty b - t)) in *.
    set (ev1 := EvFill Ask true (t * cl) (t * l_price b * pl) 0 (l_key b) (l_owner b) (l_slot b) (leaf_tier b) (l_cid b)) in *.
    assert (S1 : outcome (if l_qty b - t =? 0 then
                   o3 <- emit o2 (EvOut Ask true 0 0 (l_key b) (l_owner b) (l_slot b) (l_cid b)) ;;
                   remove_order_by_key o3 Ask (l_key b)
                 else Ok o2)
        (fun o4 => rep o4 (addev (set_book A Ask (shrink b (l_qty b - t) (a_asks A)))
             (ev1 :: (if l_qty b - t =? 0 then [out_of Ask true 0 0 b] else []))) /\
             keeps o o4 /\ ob_mkt o4 = ob_mkt o) match_err).
    { unfold shrink. destruct (l_qty b - t =? 0) eqn:EL.
      - eapply emit_out; [exact R2|left; reflexivity|]. intros q3 R3 K3.
        change (l_key b) with (l_key (set_qty b (l_qty b - t))).
        destruct (remove_spec _ _ Ask (set_qty b (l_qty b - t)) R3) as (sl & E1 & R4 & K4).
        { cbn. unfold lset. apply in_map_iff. exists b. split; [|assumption]. cbn. rewrite Z.eqb_refl. reflexivity. }
        rewrite E1. cbn [outcome].
        split; [|split; [|reflexivity]].
        + cbn [get_book set_book a_asks addev] in R4. cbn [set_qty l_key] in R4. rewrite ldel_lset in R4 by reflexivity.
          unfold addev, set_book in *. cbn [a_bids a_asks a_evs l_key set_qty] in *. rewrite <- app_assoc in R4. exact R4.
        + eapply keeps_trans; [exact K1|]. eapply keeps_trans; [exact K2|]. eapply keeps_trans; [exact K3|exact K4].
      - cbn [outcome]. split; [exact R2|]. split; [|reflexivity]. eapply keeps_trans; [exact K1|exact K2]. }
    eapply outcome_bind; [exact S1|]. intros o4 (R4 & K4 & MM4). clear R2 K2 R1 K1 S1.
    pose proof (ctx_same _ _ _ _ _ _ C MM4 K4) as C4.
    eapply outcome_weaken; [eapply (bid_finish_fill o4 _ pr q L (bid_budget pl p L) t (l_price b) C4 R4); try assumption; try lia|..].
    + intros [[o' pr'] rem] (R5 & -> & -> & K5 & MM5).
      eexists _, _. split; [eapply BS_fill with (b := b) (t := t); auto; lia|].
      split; [rewrite addev_addev in R5; exact R5|].
      split; [eapply keeps_trans; [exact K4|exact K5]|]. rewrite MM5, MM4. reflexivity.
    + intros e He. exact He.
Qed.
End BidSide.
