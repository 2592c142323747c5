(** Amounts over one matching iteration and over a whole order. *)
From Verif Require Import Base BaseProofs Fees FeesSpec FeesProofs Critbit CritbitProofs CritbitSlab CritbitOps
  CritbitSpec CritbitRefine ListSum Queue QueueSpec QueueProofs Codec Market Matching MatchSteps MatchRefine
  MatchAsk MatchBid MatchRun Ledger LedgerSteps.

Lemma mine_coin_qty k cl b n : mine l_owner k (coin_of cl) (set_qty b n) = if l_owner b =? k then n * cl else 0.
Proof. reflexivity. Qed.
Lemma mine_pc_qty k pl b n : mine l_owner k (pc_of pl) (set_qty b n) = if l_owner b =? k then n * l_price b * pl else 0.
Proof. reflexivity. Qed.
Lemma mine_if {A} own k f (x : A) : mine own k f x = if own x =? k then f x else 0.
Proof. reflexivity. Qed.

Lemma coin_of_eq cl l : coin_of cl l = l_qty l * cl.
Proof. reflexivity. Qed.
Lemma pc_of_eq pl l : pc_of pl l = l_qty l * l_price l * pl.
Proof. reflexivity. Qed.

Section Sums.
Variables (cl pl capb capa : Z) (p : order_params).
Let lim := price_of_id (op_order_id p).
Hypothesis (Hcl : 0 < cl) (Hpl : 0 < pl).
Definition st : bool := is_send_take p.
Definition me (k x : Z) : Z := if st then 0 else if op_owner p =? k then x else 0.

Record ask_sums (A : astate) (pr : proceeds) (q : Z) (A' : astate) (pr' : proceeds) (fee reb : Z) (rq : Z) : Prop := mkAS {
  as_lpc : forall k, locked_pc pl k A' = locked_pc pl k A;
  as_lcoin : forall k, locked_coin cl k A' = locked_coin cl k A +
     me k (cl * (q - (p_coin_unlocked pr' - p_coin_unlocked pr) - (p_coin_debit pr' - p_coin_debit pr) - rq));
  as_coin : zsum ev_coin (a_evs A') = zsum ev_coin (a_evs A) + cl * (p_coin_debit pr' - p_coin_debit pr);
  as_pc : zsum ev_pc (a_evs A') = zsum ev_pc (a_evs A) - (p_pc_credit pr' - p_pc_credit pr) - fee;
  as_reb : zsum ev_rebate (a_evs A') = zsum ev_rebate (a_evs A) + (if st then 0 else reb);
  as_same : p_pc_unlocked pr' = p_pc_unlocked pr /\ p_coin_credit pr' = p_coin_credit pr /\ p_pc_debit pr' = p_pc_debit pr;
  as_mono : p_coin_unlocked pr <= p_coin_unlocked pr' /\ p_coin_debit pr <= p_coin_debit pr' /\
            p_pc_credit pr <= p_pc_credit pr' /\ 0 <= fee /\ 0 <= reb <= fee;
  as_bound : 0 <= rq /\ p_coin_unlocked pr' - p_coin_unlocked pr + (p_coin_debit pr' - p_coin_debit pr) + rq <= q
}.
Definition oz (x : option Z) : Z := match x with Some z => z | None => 0 end.

Lemma me_0 k : me k 0 = 0.
Proof. unfold me. destruct st, (op_owner p =? k); reflexivity. Qed.
Lemma fee_fifth f : 0 <= f -> 0 <= f / 5 <= f.
Proof. intros. split; [apply Z.div_pos; lia|apply Z.div_le_upper_bound; lia]. Qed.
Lemma vis_sum f l : zsum f (vis p l) = if st then 0 else zsum f l.
Proof. unfold vis, st. destruct (is_send_take p); reflexivity. Qed.

Ltac sums := unfold locked_coin, locked_pc; cbn [a_bids a_asks a_evs]; rewrite ?zsum_app, ?vis_sum;
  cbn [zsum]; rewrite ?mine_if; cbn [out_of my_out ev_owner ev_lock_coin ev_lock_pc ev_coin ev_pc ev_rebate].

Lemma ask_step_sums po A pr q A' pr' fee rq :
  books_ok cl pl A -> ask_wf cl pl p A pr q ->
  ask_step cl pl capa p lim po A pr q A' pr' fee rq -> p_coin_debit pr' * cl < B64 ->
  ask_sums A pr q A' pr' fee (fee / 5) (oz rq).
Proof.
  intros ([FB FA] & SB & SA) W H NW. destruct W as [_ Wq Wqc Wlim Wid Wfr Wst W1 W2 W3 W4 W5].
  inversion H; subst; name_step.
  - assert (ES : st = false) by assumption.
    constructor; cbn [a_evs oz]; change (0 / 5) with 0.
    + reflexivity.
    + intros k. unfold locked_coin. cbn [a_asks a_evs]. rewrite zsum_lins by assumption.
      unfold me. rewrite ES. rewrite !mine_if, !coin_of_eq. cbn [my_leaf l_owner l_qty].
      destruct (op_owner p =? k); lia.
    + lia.
    + lia.
    + rewrite ES. lia.
    + auto.
    + lia.
    + lia.
  - assert (ES : st = false) by assumption.
    match goal with E : first_leaf true _ = Some _ |- _ => pose proof (first_leaf_In _ _ _ E) as Hw end.
    constructor; cbn [a_evs oz]; change (0 / 5) with 0.
    + intros k. sums. destruct (l_owner w =? k); lia.
    + intros k. unfold locked_coin. cbn [a_asks a_evs].
      rewrite zsum_lins.
      2:{ apply ldel_sorted. assumption. }
      2:{ cbn [my_leaf l_key]. rewrite lfind_None in *. intros x Hx. apply ldel_In in Hx. apply Wfr. tauto. }
      rewrite zsum_ldel by assumption.
      unfold me. rewrite ES. rewrite zsum_app. cbn [zsum].
      rewrite !mine_if. cbn [my_leaf out_of l_owner ev_owner ev_lock_coin]. rewrite !coin_of_eq. cbn [my_leaf l_qty].
      destruct (op_owner p =? k), (l_owner w =? k); lia.
    + sums. lia.
    + sums. lia.
    + rewrite ES. sums. lia.
    + auto.
    + lia.
    + lia.
  - assert (Z5 : 0 / 5 = 0) by reflexivity.
    constructor; rewrite ?Z5.
    + intros k. sums. cbn. destruct st; [lia|]. destruct (op_owner p =? k); lia.
    + intros k. unfold me. sums. cbn [oz]. unfold st. destruct (is_send_take p); [lia|].
      cbn [add_coin_unlocked p_coin_unlocked p_coin_debit]. destruct (op_owner p =? k); lia.
    + sums. destruct st, (is_send_take p); cbn; lia.
    + sums. destruct st, (is_send_take p); cbn; lia.
    + sums. destruct st; lia.
    + destruct (is_send_take p); cbn; auto.
    + destruct (is_send_take p); cbn; lia.
    + destruct (is_send_take p); cbn [oz add_coin_unlocked p_coin_unlocked p_coin_debit]; lia.
  - pose proof (best_bid_In _ _ HBest) as Hb. destruct (FB b Hb) as (F1 & F2 & _).
    destruct (self_qty_bounds _ _ _ _ _ HSelf) as [B1 B2]; [lia|].
    assert (ES : st = false).
    { unfold st. destruct (is_send_take p); [|reflexivity]. destruct (Wst eq_refl) as [_ E]. unfold self_qty in HSelf. rewrite E in HSelf. discriminate. }
    assert (Z5 : 0 / 5 = 0) by reflexivity.
    constructor; rewrite ?Z5; cbn [add_coin_unlocked p_coin_unlocked p_coin_debit p_pc_credit p_pc_unlocked p_coin_credit p_pc_debit].
    + intros k. unfold locked_pc. cbn [a_bids a_evs]. rewrite zsum_shrink by (assumption || (unfold mine, pc_of; cbn; destruct (l_owner b =? k); reflexivity)).
      rewrite zsum_app. cbn [zsum]. rewrite mine_pc_qty, !mine_if. cbn [out_of my_out ev_owner ev_lock_pc]. rewrite !pc_of_eq.
      destruct (l_owner b =? k), (op_owner p =? k); ring.
    + intros k. unfold me. rewrite ES. unfold locked_coin. cbn [a_asks a_evs]. rewrite zsum_app. cbn [zsum].
      rewrite !mine_if. cbn [out_of my_out ev_owner ev_lock_coin].
      assert (OZ : oz (if q - ctake =? 0 then None else Some (q - ctake)) = q - ctake).
      { destruct (q - ctake =? 0) eqn:E; cbn; lia. }
      rewrite OZ. destruct (l_owner b =? k), (op_owner p =? k); lia.
    + sums. lia.
    + sums. lia.
    + rewrite ES. sums. lia.
    + auto.
    + lia.
    + assert (OZ : oz (if q - ctake =? 0 then None else Some (q - ctake)) = q - ctake).
      { destruct (q - ctake =? 0) eqn:E; cbn; lia. }
      rewrite OZ. lia.
  - pose proof (best_bid_In _ _ HBest) as Hb. destruct (FB b Hb) as (F1 & F2 & F3 & _). unfold bid_val in F3.
    set (t := Z.min (l_qty b) q) in *. assert (T : 0 < t <= l_qty b /\ t <= q) by (unfold t; lia). clearbody t.
    destruct (part_bounds t (l_qty b) (l_price b) pl B64) as (M1 & M2 & M3 & M4); try lia.
    set (v := t * l_price b * pl) in *.
    pose proof (fee_bounds (op_tier p) v M3) as FE. set (fe := taker_fee (op_tier p) v) in *.
    pose proof (fee_fifth fe ltac:(lia)) as F5.
    cbn [add_ask_fill p_coin_debit] in NW.
    assert (WT : w64 (t * cl) = t * cl).
    { unfold w64. apply Z.mod_small. nia. }
    assert (OZ : oz (if q - t =? 0 then None else Some (q - t)) = q - t).
    { destruct (q - t =? 0) eqn:E; cbn; lia. }
    constructor; cbn [add_ask_fill p_coin_unlocked p_coin_debit p_pc_credit p_pc_unlocked p_coin_credit p_pc_debit].
    + intros k. unfold locked_pc. cbn [a_bids a_evs]. rewrite zsum_shrink by (assumption || (unfold mine, pc_of; cbn; destruct (l_owner b =? k); reflexivity)).
      rewrite !zsum_app, vis_sum. cbn [zsum]. rewrite mine_pc_qty.
      assert (T1 : zsum (mine ev_owner k ev_lock_pc) (if l_qty b - t =? 0 then [out_of Bid true 0 0 b] else []) = 0).
      { destruct (l_qty b - t =? 0); [|reflexivity]. cbn. unfold mine. cbn. destruct (l_owner b =? k); reflexivity. }
      assert (T2 : zsum (mine ev_owner k ev_lock_pc) (if q - t =? 0 then [my_out p Ask 0 0] else []) = 0).
      { destruct (q - t =? 0); [|reflexivity]. cbn. unfold mine. cbn. destruct (op_owner p =? k); reflexivity. }
      rewrite T1, T2. rewrite !mine_if. cbn [ev_owner ev_lock_pc]. rewrite !pc_of_eq.
      replace ((l_qty b - t) * l_price b * pl) with (l_qty b * l_price b * pl - v) by (unfold v; ring).
      destruct (l_owner b =? k), (op_owner p =? k), st; lia.
    + intros k. rewrite OZ. unfold locked_coin. cbn [a_asks a_evs].
      rewrite !zsum_app, vis_sum. cbn [zsum].
      assert (T1 : zsum (mine ev_owner k ev_lock_coin) (if l_qty b - t =? 0 then [out_of Bid true 0 0 b] else []) = 0).
      { destruct (l_qty b - t =? 0); [|reflexivity]. cbn. unfold mine. cbn. destruct (l_owner b =? k); reflexivity. }
      assert (T2 : zsum (mine ev_owner k ev_lock_coin) (if q - t =? 0 then [my_out p Ask 0 0] else []) = 0).
      { destruct (q - t =? 0); [|reflexivity]. cbn. unfold mine. cbn. destruct (op_owner p =? k); reflexivity. }
      rewrite T1, T2. rewrite !mine_if. cbn [ev_owner ev_lock_coin]. unfold me.
      replace (q - (p_coin_unlocked pr - p_coin_unlocked pr) - (p_coin_debit pr + t - p_coin_debit pr) - (q - t)) with 0 by lia.
      destruct (l_owner b =? k), (op_owner p =? k), st; lia.
    + assert (T1 : zsum ev_coin (if l_qty b - t =? 0 then [out_of Bid true 0 0 b] else []) = 0) by (destruct (l_qty b - t =? 0); reflexivity).
      assert (T2 : zsum ev_coin (if q - t =? 0 then [my_out p Ask 0 0] else []) = 0) by (destruct (q - t =? 0); reflexivity).
      cbn [a_evs]. rewrite !zsum_app, vis_sum. cbn [zsum ev_coin]. rewrite T1, T2, WT. destruct st; lia.
    + assert (T1 : zsum ev_pc (if l_qty b - t =? 0 then [out_of Bid true 0 0 b] else []) = 0) by (destruct (l_qty b - t =? 0); reflexivity).
      assert (T2 : zsum ev_pc (if q - t =? 0 then [my_out p Ask 0 0] else []) = 0) by (destruct (q - t =? 0); reflexivity).
      cbn [a_evs]. rewrite !zsum_app, vis_sum. cbn [zsum ev_pc]. rewrite T1, T2. destruct st; lia.
    + assert (T1 : zsum ev_rebate (if l_qty b - t =? 0 then [out_of Bid true 0 0 b] else []) = 0) by (destruct (l_qty b - t =? 0); reflexivity).
      assert (T2 : zsum ev_rebate (if q - t =? 0 then [my_out p Ask 0 0] else []) = 0) by (destruct (q - t =? 0); reflexivity).
      cbn [a_evs]. rewrite !zsum_app, vis_sum. cbn [zsum ev_rebate]. rewrite T1, T2. destruct st; lia.
    + auto.
    + lia.
    + rewrite OZ. lia.
Qed.

Record bid_sums (A : astate) (pr : proceeds) (q L : Z) (A' : astate) (pr' : proceeds) (fee reb : Z) (rq rL : Z) : Prop := mkBS {
  bs_lcoin : forall k, locked_coin cl k A' = locked_coin cl k A;
  bs_lpc : forall k, locked_pc pl k A' = locked_pc pl k A +
     me k (L - (p_pc_unlocked pr' - p_pc_unlocked pr) - (p_pc_debit pr' - p_pc_debit pr) - rL);
  bs_coin : zsum ev_coin (a_evs A') = zsum ev_coin (a_evs A) - cl * (p_coin_credit pr' - p_coin_credit pr);
  bs_pc : zsum ev_pc (a_evs A') = zsum ev_pc (a_evs A) + (p_pc_debit pr' - p_pc_debit pr) - fee;
  bs_reb : zsum ev_rebate (a_evs A') = zsum ev_rebate (a_evs A) + (if st then 0 else reb);
  bs_same : p_coin_unlocked pr' = p_coin_unlocked pr /\ p_pc_credit pr' = p_pc_credit pr /\ p_coin_debit pr' = p_coin_debit pr;
  bs_mono : p_pc_unlocked pr <= p_pc_unlocked pr' /\ p_pc_debit pr <= p_pc_debit pr' /\
            p_coin_credit pr <= p_coin_credit pr' /\ 0 <= fee /\ 0 <= reb <= fee;
  bs_bound : 0 <= rL /\ 0 <= rq /\
    p_pc_unlocked pr' - p_pc_unlocked pr + (p_pc_debit pr' - p_pc_debit pr) + rL <= L /\
    p_coin_credit pr' - p_coin_credit pr + rq <= q
}.
Definition oz1 (x : option (Z * Z)) : Z := match x with Some (z, _) => z | None => 0 end.
Definition oz2 (x : option (Z * Z)) : Z := match x with Some (_, z) => z | None => 0 end.

Lemma bid_step_sums po A pr q L A' pr' fee rq :
  books_ok cl pl A -> bid_wf cl pl p A pr q L ->
  (is_send_take p = true -> op_st p = AbortTransaction) ->
  bid_step cl pl capb p lim po A pr q L A' pr' fee rq ->
  bid_sums A pr q L A' pr' fee (fee / 5) (oz1 rq) (oz2 rq).
Proof.
  intros ([FB FA] & SB & SA) W WA H. destruct W as [_ Wq WL Wlim Wid Wfr Wst W1 W2 W3 W4 W5].
  fold lim in Wlim.
  inversion H; subst; name_step.
  - assert (ES : st = false) by (unfold st; destruct (is_send_take p); [rewrite Wst in *; [discriminate|reflexivity]|reflexivity]).
    match goal with HP : 0 < bid_post_qty _ _ _ _ |- _ => rename HP into HPos end.
    destruct (post_qty_bounds pl p q L) as (N1 & N2 & N3 & N4); try lia. fold lim in N1, N2, N3, N4.
    set (n := bid_post_qty pl lim q L) in *.
    constructor; cbn [oz1 oz2 add_pc_unlocked p_coin_unlocked p_coin_debit p_pc_credit p_pc_unlocked p_coin_credit p_pc_debit]; change (0 / 5) with 0.
    + intros k. sums. destruct (op_owner p =? k); lia.
    + intros k. unfold locked_pc. cbn [a_bids a_evs]. rewrite zsum_lins by assumption.
      unfold me. rewrite ES. rewrite zsum_app. cbn [zsum]. rewrite !mine_if, !pc_of_eq.
      cbn [my_leaf l_owner l_qty my_out ev_owner ev_lock_pc]. change (l_price (my_leaf p n)) with lim.
      destruct (op_owner p =? k); lia.
    + sums. lia.
    + sums. lia.
    + rewrite ES. sums. lia.
    + auto.
    + lia.
    + lia.
  - assert (ES : st = false) by (unfold st; destruct (is_send_take p); [rewrite Wst in *; [discriminate|reflexivity]|reflexivity]).
    match goal with HP : 0 < bid_post_qty _ _ _ _ |- _ => rename HP into HPos end.
    match goal with E : first_leaf false _ = Some _ |- _ => pose proof (first_leaf_In _ _ _ E) as Hw end.
    destruct (post_qty_bounds pl p q L) as (N1 & N2 & N3 & N4); try lia. fold lim in N1, N2, N3, N4.
    set (n := bid_post_qty pl lim q L) in *.
    constructor; cbn [oz1 oz2 add_pc_unlocked p_coin_unlocked p_coin_debit p_pc_credit p_pc_unlocked p_coin_credit p_pc_debit]; change (0 / 5) with 0.
    + intros k. sums. destruct (op_owner p =? k), (l_owner w =? k); lia.
    + intros k. unfold locked_pc. cbn [a_bids a_evs]. rewrite zsum_lins.
      2:{ apply ldel_sorted. assumption. }
      2:{ cbn [my_leaf l_key]. rewrite lfind_None in *. intros x Hx. apply ldel_In in Hx. apply Wfr. tauto. }
      rewrite zsum_ldel by assumption.
      unfold me. rewrite ES. rewrite zsum_app. cbn [zsum]. rewrite !mine_if, !pc_of_eq.
      cbn [my_leaf l_owner l_qty my_out out_of ev_owner ev_lock_pc]. change (l_price (my_leaf p n)) with lim.
      destruct (op_owner p =? k), (l_owner w =? k); lia.
    + sums. lia.
    + sums. lia.
    + rewrite ES. sums. lia.
    + auto.
    + lia.
    + lia.
  - assert (Z5 : 0 / 5 = 0) by reflexivity.
    constructor; rewrite ?Z5; cbn [oz1 oz2].
    + intros k. sums. destruct st; [lia|]. destruct (op_owner p =? k); lia.
    + intros k. unfold me. sums. unfold st. destruct (is_send_take p); [lia|].
      cbn [add_pc_unlocked p_pc_unlocked p_pc_debit]. destruct (op_owner p =? k); lia.
    + sums. destruct st, (is_send_take p); cbn [add_pc_unlocked p_coin_credit]; lia.
    + sums. destruct st, (is_send_take p); cbn [add_pc_unlocked p_pc_debit]; lia.
    + sums. destruct st; lia.
    + destruct (is_send_take p); cbn; auto.
    + destruct (is_send_take p); cbn; lia.
    + destruct (is_send_take p); cbn [add_pc_unlocked p_pc_unlocked p_pc_debit p_coin_credit]; lia.
  - pose proof (best_ask_In _ _ HBest) as Hb. destruct (FA b Hb) as (F1 & F2 & F3 & _).
    destruct (budget_spec pl p L WL Hpl) as (nn & EN & EB & BB & BS).
    set (t := Z.min (Z.min (l_qty b) q) (bid_budget pl p L / l_price b)) in *.
    assert (T : 0 < t /\ t <= l_qty b /\ t <= q /\ t <= bid_budget pl p L / l_price b) by (unfold t in *; lia). clearbody t.
    assert (TP : 0 <= t * l_price b <= bid_budget pl p L).
    { split; [nia|]. transitivity (bid_budget pl p L / l_price b * l_price b); [apply mul_le_r; lia|].
      rewrite Z.mul_comm. apply Z.mul_div_le. lia. }
    destruct (BS _ TP) as [TF TV].
    destruct (self_qty_bounds _ _ _ _ _ HSelf) as [B1 B2]; [lia|].
    destruct (part_bounds ctake t (l_price b) pl B64) as (M4 & M5 & M6 & M7); try lia.
    assert (ES : st = false).
    { unfold st. destruct (is_send_take p); [|reflexivity]. unfold self_qty in HSelf. rewrite (WA eq_refl) in HSelf. discriminate. }
    set (tv := ctake * l_price b * pl) in *.
    assert (OZ : oz2 (if (q - ctake =? 0) || (L - tv =? 0) then None else Some (q - ctake, L - tv)) = L - unl /\
                 0 <= unl <= L /\ 0 <= oz1 (if (q - ctake =? 0) || (L - tv =? 0) then None else Some (q - ctake, L - tv)) <= q).
    { destruct ((q - ctake =? 0) || (L - tv =? 0)) eqn:E; injection HUnl as -> ->; cbn; lia. }
    destruct OZ as (OZ & OU & OQ).
    constructor; rewrite ?OZ; change (0 / 5) with 0;
      cbn [add_pc_unlocked p_coin_unlocked p_coin_debit p_pc_credit p_pc_unlocked p_coin_credit p_pc_debit].
    + intros k. unfold locked_coin. cbn [a_asks a_evs]. rewrite zsum_shrink by (assumption || (unfold mine, coin_of; cbn; destruct (l_owner b =? k); reflexivity)).
      rewrite zsum_app. cbn [zsum]. rewrite mine_coin_qty, !mine_if, !coin_of_eq. cbn [out_of my_out ev_owner ev_lock_coin].
      destruct (l_owner b =? k), (op_owner p =? k); ring.
    + intros k. unfold me. rewrite ES. unfold locked_pc. cbn [a_bids a_evs]. rewrite zsum_app. cbn [zsum].
      rewrite !mine_if. cbn [out_of my_out ev_owner ev_lock_pc].
      destruct (l_owner b =? k), (op_owner p =? k); lia.
    + sums. lia.
    + sums. lia.
    + rewrite ES. sums. lia.
    + auto.
    + lia.
    + lia.
  - pose proof (best_ask_In _ _ HBest) as Hb. destruct (FA b Hb) as (F1 & F2 & F3 & _).
    destruct (budget_spec pl p L WL Hpl) as (nn & EN & EB & BB & BS).
    set (t := Z.min (Z.min (l_qty b) q) (bid_budget pl p L / l_price b)) in *.
    assert (T : 0 < t /\ t <= l_qty b /\ t <= q /\ t <= bid_budget pl p L / l_price b) by (unfold t in *; lia). clearbody t.
    assert (TP : 0 <= t * l_price b <= bid_budget pl p L).
    { split; [nia|]. transitivity (bid_budget pl p L / l_price b * l_price b); [apply mul_le_r; lia|].
      rewrite Z.mul_comm. apply Z.mul_div_le. lia. }
    destruct (BS _ TP) as [TF TV].
    set (v := t * l_price b * pl) in *.
    assert (UV : u64 v) by (unfold u64; lia).
    pose proof (fee_bounds (op_tier p) v UV) as FE. set (fe := taker_fee (op_tier p) v) in *.
    pose proof (fee_fifth fe ltac:(lia)) as F5.
    set (done := (q - t =? 0) || (L - v - fe =? 0)) in *.
    assert (OZ : 0 <= oz1 (if done then None else Some (q - t, L - v - fe)) <= q - t /\
                 (oz2 (if done then None else Some (q - t, L - v - fe)) = if done then 0 else L - v - fe)).
    { destruct done; cbn; lia. }
    destruct OZ as (OQ & OZ).
    assert (PR : let pr1 := add_bid_fill pr t (v + fe) in
       let pr2 := if done && negb (is_send_take p) then add_pc_unlocked pr1 (L - v - fe) else pr1 in
       p_coin_unlocked pr2 = p_coin_unlocked pr /\ p_pc_credit pr2 = p_pc_credit pr /\ p_coin_debit pr2 = p_coin_debit pr /\
       p_coin_credit pr2 = p_coin_credit pr + t /\ p_pc_debit pr2 = p_pc_debit pr + (v + fe) /\
       p_pc_unlocked pr2 = p_pc_unlocked pr + (if done && negb st then L - v - fe else 0)).
    { cbn zeta. unfold st. destruct (done && negb (is_send_take p)); cbn; repeat split; lia. }
    cbn zeta in PR |- *. destruct PR as (P1 & P2 & P3 & P4 & P5 & P6).
    set (pr2 := if done && negb (is_send_take p) then add_pc_unlocked (add_bid_fill pr t (v + fe)) (L - v - fe) else add_bid_fill pr t (v + fe)) in *.
    clearbody pr2.
    constructor; rewrite ?OZ, ?P1, ?P2, ?P3, ?P4, ?P5, ?P6.
    + intros k. unfold locked_coin. cbn [a_asks a_evs]. rewrite zsum_shrink by (assumption || (unfold mine, coin_of; cbn; destruct (l_owner b =? k); reflexivity)).
      rewrite !zsum_app, vis_sum. cbn [zsum]. rewrite mine_coin_qty.
      assert (T1 : zsum (mine ev_owner k ev_lock_coin) (if l_qty b - t =? 0 then [out_of Ask true 0 0 b] else []) = 0).
      { destruct (l_qty b - t =? 0); [|reflexivity]. cbn. unfold mine. cbn. destruct (l_owner b =? k); reflexivity. }
      assert (T2 : zsum (mine ev_owner k ev_lock_coin) (if done then [my_out p Bid (L - v - fe) 0] else []) = 0).
      { destruct done; [|reflexivity]. cbn. unfold mine. cbn. destruct (op_owner p =? k); reflexivity. }
      rewrite T1, T2. rewrite !mine_if, !coin_of_eq. cbn [ev_owner ev_lock_coin].
      destruct (l_owner b =? k), (op_owner p =? k), st; lia.
    + intros k. unfold locked_pc. cbn [a_bids a_evs].
      rewrite !zsum_app, vis_sum. cbn [zsum].
      assert (T1 : zsum (mine ev_owner k ev_lock_pc) (if l_qty b - t =? 0 then [out_of Ask true 0 0 b] else []) = 0).
      { destruct (l_qty b - t =? 0); [|reflexivity]. cbn. unfold mine. cbn. destruct (l_owner b =? k); reflexivity. }
      assert (T2 : zsum (mine ev_owner k ev_lock_pc) (if done then [my_out p Bid (L - v - fe) 0] else []) = 0).
      { destruct done; [|reflexivity]. cbn. unfold mine. cbn. destruct (op_owner p =? k); reflexivity. }
      rewrite T1, T2. rewrite !mine_if. cbn [ev_owner ev_lock_pc]. unfold me.
      destruct (l_owner b =? k), (op_owner p =? k), st, done; cbn [andb negb]; lia.
    + assert (T1 : zsum ev_coin (if l_qty b - t =? 0 then [out_of Ask true 0 0 b] else []) = 0) by (destruct (l_qty b - t =? 0); reflexivity).
      assert (T2 : zsum ev_coin (if done then [my_out p Bid (L - v - fe) 0] else []) = 0) by (destruct done; reflexivity).
      cbn [a_evs]. rewrite !zsum_app, vis_sum. cbn [zsum ev_coin]. rewrite T1, T2. destruct st; lia.
    + assert (T1 : zsum ev_pc (if l_qty b - t =? 0 then [out_of Ask true 0 0 b] else []) = 0) by (destruct (l_qty b - t =? 0); reflexivity).
      assert (T2 : zsum ev_pc (if done then [my_out p Bid (L - v - fe) 0] else []) = 0) by (destruct done; reflexivity).
      cbn [a_evs]. rewrite !zsum_app, vis_sum. cbn [zsum ev_pc]. rewrite T1, T2. destruct st; lia.
    + assert (T1 : zsum ev_rebate (if l_qty b - t =? 0 then [out_of Ask true 0 0 b] else []) = 0) by (destruct (l_qty b - t =? 0); reflexivity).
      assert (T2 : zsum ev_rebate (if done then [my_out p Bid (L - v - fe) 0] else []) = 0) by (destruct done; reflexivity).
      cbn [a_evs]. rewrite !zsum_app, vis_sum. cbn [zsum ev_rebate]. rewrite T1, T2. destruct st; lia.
    + auto.
    + destruct (done && negb st); lia.
    + destruct done, st; cbn [andb negb]; lia.
Qed.
End Sums.
