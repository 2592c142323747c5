(** Why a new order is refused while it is matched: the event queue is too short, or it meets its owner's own order. *)
From Verif Require Import Base BaseProofs Fees FeesSpec FeesProofs Critbit CritbitProofs CritbitSlab CritbitOps
  CritbitSpec CritbitRefine ListSum Queue QueueSpec QueueProofs Codec Market Matching MatchSteps MatchRefine
  MatchAsk MatchBid MatchRun Ledger LedgerSteps LedgerSums MatchRoom MatchSpec LedgerRun MatchReport MatchOrder MatchFacts
  Slots Core CoreInv CoreOrder CoreNew PlaceSpec CorePlace.

(** ** Self trading *)
Definition calm {X} (r : res X) : Prop := r <> Err EWouldSelfTrade.
Lemma calm_pure {X} (r : res X) : pure r -> calm r.
Proof. intros H E. apply (H _ E). reflexivity. Qed.
Lemma calm_bind {X Y} (r : res X) (f : X -> res Y) : calm r -> (forall x, r = Ok x -> calm (f x)) -> calm (rbind r f).
Proof. intros H1 H2. destruct r; cbn [rbind]; [auto| |discriminate]. intros E. apply H1. congruence. Qed.
Lemma calm_emit o v : calm (emit o v).
Proof.
  unfold emit. apply calm_bind; [|intros [q'|] _; discriminate]. unfold push_back.
  destruct (q_full _); [discriminate|]. apply calm_bind; [unfold rem_len; destruct (_ =? 0); discriminate|]. intros i _. destruct (znth _ _); discriminate.
Qed.
Lemma calm_post o s l : calm (post_order o s l).
Proof.
  unfold post_order. apply calm_bind; [apply calm_pure, pure_ins|]. intros [s1 out] _. destruct out; [discriminate|].
  apply calm_bind; [apply calm_pure, pure_ext|]. intros [s2 ev] _. apply calm_bind; [apply calm_pure; pur|]. intros ord _.
  apply calm_bind; [apply calm_pure; pur; apply pure_price|]. intros u _. apply calm_bind; [apply calm_emit|]. intros o1 _.
  apply calm_bind; [apply calm_pure, pure_ins|]. intros [s3 out2] _. destruct out2; discriminate.
Qed.
Ltac calm_pr := apply calm_pure; pure_pr.
Lemma calm_ask_finish o pr p mq un ac rb cr dn : calm (ask_finish o pr p mq un ac rb cr dn).
Proof.
  unfold ask_finish. apply calm_bind; [calm_pr|]. intros pr1 _. apply calm_bind; [calm_pr|]. intros pr2 _.
  apply calm_bind; [destruct (_ && _); [apply calm_emit|discriminate]|]. intros o1 _. cbv zeta.
  destruct (negb dn && _); [discriminate|]. destruct (op_post_allowed p && _ && _).
  - apply calm_bind; [apply calm_pure; pur|]. intros _ _. apply calm_bind; [apply calm_post|]. intros; discriminate.
  - destruct (negb (is_send_take p)); [|discriminate]. apply calm_bind; [calm_pr|]. intros pr3 _. apply calm_bind; [apply calm_emit|]. intros; discriminate.
Qed.
Lemma calm_bid_finish o pr p mq lk lim mp cr pr0 rb crossed dn : calm (bid_finish o pr p mq lk lim mp cr pr0 rb crossed dn).
Proof.
  unfold bid_finish. apply calm_bind; [calm_pr|]. intros pr1 _. apply calm_bind; [calm_pr|]. intros pr2 _.
  apply calm_bind; [destruct (_ && negb (is_send_take p)); [apply calm_emit|discriminate]|]. intros o1 _. cbv zeta.
  destruct (negb dn && _ && _); [discriminate|]. apply calm_bind; [apply calm_pure; pur|]. intros [post keep] _.
  apply calm_bind.
  { destruct (negb (is_send_take p)); [|discriminate]. apply calm_bind; [calm_pr|]. intros pr3 _. apply calm_bind; [apply calm_emit|]. intros; discriminate. }
  intros [o3 pr3] _. destruct (0 <? keep); [|discriminate]. apply calm_bind; [apply calm_post|]. intros; discriminate.
Qed.
Lemma ask_meets o pr p q lim po : new_ask o pr p q lim po = Err EWouldSelfTrade -> po = false /\ meets_own_bid o p lim.
Proof.
  intros H. destruct (op_st p) eqn:ST.
  1-2: exfalso; revert H; change (calm (new_ask o pr p q lim po)); unfold new_ask;
    (apply calm_bind; [apply calm_pure, pure_bbo|]); intros [h|] _; [|apply calm_ask_finish];
    (apply calm_bind; [apply calm_pure, pure_leaf|]); intros b _; (apply calm_bind; [apply calm_pure, pure_price|]); intros price _; cbv zeta;
    (destruct (negb _ || po); [apply calm_ask_finish|]); (destruct (Z.min _ _ =? 0); [apply calm_ask_finish|]);
    rewrite ?ST; cbn [rbind]; destruct (op_owner p =? l_owner b).
  1, 3: apply calm_bind; [apply calm_emit|]; intros o1 _;
      (apply calm_bind; [destruct (_ =? 0); [apply calm_pure, remove_pure|discriminate]|]); intros o2 _;
      (apply calm_bind; [apply calm_emit|]); intros o3 _; (apply calm_bind; [calm_pr|]); intros; discriminate.
  1, 2: apply calm_bind; [apply calm_pure, pure_tier|]; intros mt _; (apply calm_bind; [apply calm_emit|]); intros o1 _;
      (apply calm_bind; [destruct (_ =? 0); [apply calm_bind; [apply calm_emit|]; intros; apply calm_pure, remove_pure|discriminate]|]); intros o4 _; apply calm_ask_finish.
  revert H. unfold new_ask. destruct (find_bbo o Bid) as [[h|]|e|] eqn:HB; cbn [rbind].
  2: intros H; exfalso; exact (calm_ask_finish _ _ _ _ _ _ _ _ _ H).
  2: intros [= ->]; exfalso; apply (calm_pure _ (pure_bbo o Bid) HB).
  2: discriminate.
  destruct (get_leaf (ob_bids o) h) as [b|e|] eqn:HL; cbn [rbind].
  2: intros [= ->]; exfalso; apply (calm_pure _ (pure_leaf (ob_bids o) h) HL).
  2: discriminate.
  destruct (leaf_price b) as [price|e|] eqn:HP; cbn [rbind].
  2: intros [= ->]; exfalso; apply (calm_pure _ (pure_price b) HP).
  2: discriminate.
  assert (price = l_price b) as -> by (unfold leaf_price in HP; destruct (_ =? 0); congruence). cbv zeta.
  destruct (negb (lim <=? l_price b) || po) eqn:EC; [intros H; exfalso; exact (calm_ask_finish _ _ _ _ _ _ _ _ _ H)|].
  destruct (Z.min _ _ =? 0); [intros H; exfalso; exact (calm_ask_finish _ _ _ _ _ _ _ _ _ H)|].
  destruct (op_owner p =? l_owner b) eqn:EO.
  - intros _. apply orb_false_iff in EC. destruct EC as [EC ->]. split; [reflexivity|]. split; [exact ST|]. exists h, b. repeat split; try assumption; lia.
  - intros H. exfalso. revert H. match goal with |- ?x = _ -> _ => change (calm x) end.
    apply calm_bind; [apply calm_pure, pure_tier|]; intros mt _; (apply calm_bind; [apply calm_emit|]); intros o1 _.
    apply calm_bind; [destruct (_ =? 0); [apply calm_bind; [apply calm_emit|]; intros; apply calm_pure, remove_pure|discriminate]|]. intros o4 _. apply calm_ask_finish.
Qed.
Lemma bid_meets o pr p q L lim po : new_bid o pr p q L lim po = Err EWouldSelfTrade -> po = false /\ op_st p = AbortTransaction /\
  exists h b net, find_bbo o Ask = Ok (Some h) /\ get_leaf (ob_asks o) h = Ok b /\ (lim = 0 \/ l_price b <= lim) /\ op_owner p = l_owner b /\
    remove_taker_fee (op_tier p) L = Ok net /\ Z.min (Z.min (l_qty b) q) (net / m_pc_lot (ob_mkt o) / l_price b) <> 0.
Proof.
  unfold new_bid. destruct (if op_post_allowed p then _ else _) as [u|e|] eqn:HU; cbn [rbind].
  2: intros [= ->]; exfalso; destruct (op_post_allowed p); [destruct (negb _)|]; discriminate.
  2: discriminate.
  clear u HU.
  destruct (remove_taker_fee (op_tier p) L) as [net|e|] eqn:HN; cbn [rbind].
  2: intros [= ->]; exfalso; apply (calm_pure _ (pure_net (op_tier p) L) HN).
  2: discriminate.
  destruct (m_pc_lot (ob_mkt o) =? 0); [discriminate|]. cbv zeta.
  destruct (find_bbo o Ask) as [[h|]|e|] eqn:HB; cbn [rbind].
  2: intros H; exfalso; exact (calm_bid_finish _ _ _ _ _ _ _ _ _ _ _ _ H).
  2: intros [= ->]; exfalso; apply (calm_pure _ (pure_bbo o Ask) HB).
  2: discriminate.
  destruct (get_leaf (ob_asks o) h) as [b|e|] eqn:HL; cbn [rbind].
  2: intros [= ->]; exfalso; apply (calm_pure _ (pure_leaf (ob_asks o) h) HL).
  2: discriminate.
  destruct (leaf_price b) as [price|e|] eqn:HP; cbn [rbind].
  2: intros [= ->]; exfalso; apply (calm_pure _ (pure_price b) HP).
  2: discriminate.
  assert (price = l_price b) as -> by (unfold leaf_price in HP; destruct (_ =? 0); congruence).
  destruct (negb (if lim =? 0 then true else l_price b <=? lim) || po) eqn:EC; [intros H; exfalso; exact (calm_bid_finish _ _ _ _ _ _ _ _ _ _ _ _ H)|].
  destruct (Z.min _ _ =? 0) eqn:EZ; [intros H; exfalso; exact (calm_bid_finish _ _ _ _ _ _ _ _ _ _ _ _ H)|].
  destruct (op_owner p =? l_owner b) eqn:EO.
  - destruct (op_st p) eqn:ST; cbn [rbind].
    3: { intros _. apply orb_false_iff in EC. destruct EC as [EC ->]. apply negb_false_iff in EC. split; [reflexivity|]. split; [reflexivity|]. exists h, b, net.
         repeat split; try assumption; [|lia|lia]. destruct (lim =? 0) eqn:E0; lia. }
    all: intros H; exfalso; revert H; match goal with |- ?x = _ -> _ => change (calm x) end;
      (apply calm_bind; [apply calm_emit|]); intros o1 _;
      (apply calm_bind; [match goal with |- calm (if ?c then _ else _) => destruct c end; [apply calm_pure, remove_pure|discriminate]|]); intros o2 _;
      match goal with |- context [if ?c then (_, _) else _] => destruct c end;
      (apply calm_bind; [calm_pr|]); intros pr1 _; (apply calm_bind; [apply calm_emit|]); intros; discriminate.
  - intros H. exfalso. revert H. match goal with |- ?x = _ -> _ => change (calm x) end.
    apply calm_bind; [apply calm_pure, pure_tier|]; intros mt _; (apply calm_bind; [apply calm_emit|]); intros o1 _.
    apply calm_bind; [match goal with |- calm (if ?c then _ else _) => destruct c end; [apply calm_bind; [apply calm_emit|]; intros; apply calm_pure, remove_pure|discriminate]|].
    intros o4 _. apply calm_bid_finish.
Qed.

Section Blame.
Variables (cl pl capb capa : Z) (p : order_params).
Let lim := price_of_id (op_order_id p).
(** The order gets as far as one of its owner's own within [n] rounds. *)
Definition own_bid (A : astate) (q n : Z) : Prop := op_st p = AbortTransaction /\ meets_own (a_bids A) Ask lim (op_owner p) q 0 pl n.
Definition own_ask (A : astate) (q L n : Z) : Prop := op_st p = AbortTransaction /\ meets_own (a_asks A) Bid lim (op_owner p) q L pl n.
(** It is next. *)
Definition next_bid (A : astate) : Prop := op_st p = AbortTransaction /\ exists b, best_bid A = Some b /\ l_owner b = op_owner p /\ lim <= l_price b.
Definition next_ask (A : astate) (L : Z) : Prop := op_st p = AbortTransaction /\ exists b, best_ask A = Some b /\ l_owner b = op_owner p /\ l_price b <= lim /\ l_price b * pl <= L.
Lemma meets_bid o A : rep o A -> meets_own_bid o p lim -> next_bid A.
Proof.
  intros R (ST & h & b & E1 & E2 & E3 & E4). split; [exact ST|]. pose proof (find_bbo_spec o A Bid R) as FB. cbn [get_book orders_of] in FB. unfold best_bid.
  destruct (first_leaf true (a_bids A)) as [x|]; [|destruct FB; congruence].
  destruct FB as (h' & F1 & (F2 & _) & F3). rewrite E1 in F1. injection F1 as ->. unfold get_leaf in E2. cbn [orders_of] in F2. rewrite F2 in E2.
  injection E2 as ->. eauto.
Qed.
Lemma meets_ask o A L h b net : rep o A -> 0 < lim -> 0 < pl -> 0 < L < B64 -> op_st p = AbortTransaction ->
  find_bbo o Ask = Ok (Some h) -> get_leaf (ob_asks o) h = Ok b -> (lim = 0 \/ l_price b <= lim) -> op_owner p = l_owner b -> 0 < l_price b ->
  remove_taker_fee (op_tier p) L = Ok net -> net / pl / l_price b <> 0 -> next_ask A L.
Proof.
  intros R P PL HL ST E1 E2 E3 E4 BP E5 E6. split; [exact ST|]. pose proof (find_bbo_spec o A Ask R) as FB. cbn [get_book orders_of] in FB. unfold best_ask.
  destruct (first_leaf false (a_asks A)) as [x|]; [|destruct FB; congruence].
  destruct FB as (h' & F1 & (F2 & _) & F3). rewrite E1 in F1. injection F1 as ->. unfold get_leaf in E2. cbn [orders_of] in F2. rewrite F2 in E2.
  injection E2 as ->. destruct E3 as [E3|E3]; [lia|]. exists b. split; [reflexivity|]. split; [congruence|]. split; [exact E3|].
  destruct (budget_spec pl p L HL PL) as (n & EN & EB & BB & BS). rewrite E5 in EN. injection EN as ->. rewrite EB in E6.
  assert (1 <= bid_budget pl p L / l_price b) by (assert (0 <= bid_budget pl p L / l_price b) by (apply Z.div_pos; lia); lia).
  assert (l_price b * 1 <= bid_budget pl p L). { transitivity (l_price b * (bid_budget pl p L / l_price b)); [apply Z.mul_le_mono_nonneg_l; lia|apply Z.mul_div_le; lia]. }
  apply (BS (l_price b)). lia.
Qed.
Lemma next_own_bid A q n : sorted (a_bids A) -> 0 < q -> 0 < n -> next_bid A -> own_bid A q n.
Proof.
  intros S Q N (ST & b & HB & E & P). split; [exact ST|]. destruct (best_bid_best A b S HB) as [I M]. exists b. split; [exact I|]. split; [exact E|]. split; [cbn [reaches]; lia|].
  assert (Z0 : ahead_of Ask (a_bids A) b = []).
  { unfold ahead_of. apply filter_none. intros x Hx. destruct (first_leaf_max _ _ _ S HB Hx) as [->|K]; lia. }
  rewrite Z0. cbn. split; [lia|]. split; [lia|discriminate].
Qed.
Lemma next_own_ask A q L n : sorted (a_asks A) -> 0 < q -> 0 < n -> next_ask A L -> own_ask A q L n.
Proof.
  intros S Q N (ST & b & HB & E & P & V). split; [exact ST|]. destruct (best_ask_best A b S HB) as [I M]. exists b. split; [exact I|]. split; [exact E|]. split; [cbn [reaches]; lia|].
  assert (Z0 : ahead_of Bid (a_asks A) b = []).
  { unfold ahead_of. apply filter_none. intros x Hx. destruct (first_leaf_least _ _ _ S HB Hx) as [->|K]; lia. }
  rewrite Z0. cbn. split; [lia|]. split; [lia|]. intros _. exact V.
Qed.
Lemma meets_shrink bk sd b t k q L L1 n : sorted bk -> In b bk -> l_owner b <> k ->
  (forall x, In x bk -> x = b \/ match sd with Bid => l_key b < l_key x | Ask => l_key x < l_key b end) ->
  (sd = Bid -> L1 + t * l_price b * pl <= L) ->
  meets_own (shrink b (l_qty b - t) bk) sd lim k (q - t) L1 pl n -> meets_own bk sd lim k q L pl (n + 1).
Proof.
  intros S I NK BEST COST (l & Hl & E & RE & SQ & SN & SL). apply shrink_In in Hl. destruct Hl as [[_ ->]|[Hl NE]]; [exfalso; apply NK; exact E|].
  exists l. split; [exact Hl|]. split; [exact E|]. split; [exact RE|].
  assert (PB : match sd with Bid => l_key b <? l_key l | Ask => l_key l <? l_key b end = true).
  { destruct (BEST l Hl) as [->|X]; [lia|]. destruct sd; lia. }
  unfold ahead_of in *. rewrite zsum_filter in SQ. rewrite zsum_filter.
  rewrite zsum_shrink in SQ; [|exact S|exact I|destruct sd; destruct (_ <? _); reflexivity].
  change (l_key (set_qty b (l_qty b - t))) with (l_key b) in SQ. change (l_qty (set_qty b (l_qty b - t))) with (l_qty b - t) in SQ. rewrite PB in SQ.
  split; [lia|]. split.
  - set (P := fun a : leaf => match sd with Bid => l_key a <? l_key l | Ask => l_key l <? l_key a end) in *.
    assert (ZL : forall v : list leaf, zlen v = zsum (fun _ => 1) v) by (induction v; [reflexivity|]; cbn [zsum]; rewrite <- IHv; unfold zlen; cbn [length]; lia).
    rewrite ZL, zsum_filter in SN. rewrite ZL, zsum_filter. assert (P1 : P b = true) by exact PB. assert (P2 : P (set_qty b (l_qty b - t)) = true) by exact PB. clearbody P.
    unfold shrink in SN. destruct (_ =? 0) in SN.
    + rewrite zsum_ldel in SN by assumption. cbv beta in SN. rewrite P1 in SN. lia.
    + rewrite zsum_lset with (b := b) in SN by (try assumption; reflexivity). cbv beta in SN. rewrite P1, P2 in SN. lia.
  - intros SD. specialize (SL SD). specialize (COST SD). rewrite zsum_filter in SL. rewrite zsum_filter.
    rewrite zsum_shrink in SL; [|exact S|exact I|destruct sd; destruct (_ <? _); cbn; lia].
    change (l_key (set_qty b (l_qty b - t))) with (l_key b) in SL. change (l_qty (set_qty b (l_qty b - t))) with (l_qty b - t) in SL.
    change (l_price (set_qty b (l_qty b - t))) with (l_price b) in SL. rewrite PB in SL.
    replace ((l_qty b - t) * l_price b * pl) with (l_qty b * l_price b * pl - t * l_price b * pl) in SL by ring. lia.
Qed.
(** One iteration: it succeeds, meets the owner's own order, or the queue has no room for four more events. *)
Lemma ask_turn o A pr q po : ctx cl pl capb capa o -> rep o A -> ask_wf cl pl p A pr q ->
  (exists o1 pr1 A1 fee rq, new_ask o pr p q lim po = Ok (o1, pr1, option_map (fun n => (n, 0)) rq) /\
    ask_step cl pl capa p lim po A pr q A1 pr1 fee rq /\ rep o1 A1 /\ (forall k, fits k o -> 4 <= k -> fits (k - 4) o1) /\ ctx cl pl capb capa o1) \/
  (new_ask o pr p q lim po = Err EWouldSelfTrade /\ po = false /\ next_bid A) \/
  (new_ask o pr p q lim po = Err EEventQueueFull /\ forall k, 4 <= k -> ~ fits k o).
Proof.
  intros C R W. pose proof (new_ask_step cl pl capb capa p o A pr q po C R W) as H1. fold lim in H1.
  pose proof (fun k F K => new_ask_room k o pr p q lim po F K) as H2. pose proof (ask_meets o pr p q lim po) as H3.
  destruct (new_ask o pr p q lim po) as [[[o1 pr1] rem]|e|]; cbn [outcome within] in *; [| |destruct H1].
  - left. destruct H1 as (A1 & fee & rq & S1 & -> & R1 & K1 & M1). exists o1, pr1, A1, fee, rq. rewrite (accrue_after p) in M1.
    split; [reflexivity|]. split; [exact S1|]. split; [exact R1|]. split; [exact H2|]. exact (ctx_after cl pl capb capa p o o1 _ _ C M1 K1).
  - right. destruct H1 as [->| ->]; [right|left]; (split; [reflexivity|]).
    + intros k K F. destruct (H2 k F K) as [X _]. apply X. reflexivity.
    + destruct (H3 eq_refl) as [Y X]. split; [exact Y|]. exact (meets_bid o A R X).
Qed.
Lemma bid_turn o A pr q L po : ctx cl pl capb capa o -> rep o A -> bid_wf cl pl p A pr q L ->
  (exists o1 pr1 A1 fee rem, new_bid o pr p q L lim po = Ok (o1, pr1, rem) /\
    bid_step cl pl capb p lim po A pr q L A1 pr1 fee rem /\ rep o1 A1 /\ (forall k, fits k o -> 4 <= k -> fits (k - 4) o1) /\ ctx cl pl capb capa o1) \/
  (new_bid o pr p q L lim po = Err EWouldSelfTrade /\ po = false /\ next_ask A L) \/
  (new_bid o pr p q L lim po = Err EEventQueueFull /\ forall k, 4 <= k -> ~ fits k o).
Proof.
  intros C R W. pose proof (new_bid_step cl pl capb capa p o A pr q L po C R W) as H1. fold lim in H1.
  pose proof (fun k F K => new_bid_room k o pr p q L lim po F K) as H2. pose proof (bid_meets o pr p q L lim po) as H3.
  destruct (new_bid o pr p q L lim po) as [[[o1 pr1] rem]|e|]; cbn [outcome within] in *; [| |destruct H1].
  - left. destruct H1 as (A1 & fee & S1 & R1 & K1 & M1). exists o1, pr1, A1, fee, rem. rewrite (accrue_after p) in M1.
    split; [reflexivity|]. split; [exact S1|]. split; [exact R1|]. split; [exact H2|]. exact (ctx_after cl pl capb capa p o o1 _ _ C M1 K1).
  - right. destruct H1 as [->| ->]; [right|left]; (split; [reflexivity|]).
    + intros k K F. destruct (H2 k F K) as [X _]. apply X. reflexivity.
    + destruct (H3 eq_refl) as (Y & ST & h & b & net & X1 & X2 & X3 & X4 & X5 & X6). split; [exact Y|].
      rewrite (c_pl _ _ _ _ _ C) in X6.
      assert (BP : In b (a_asks A)).
      { pose proof (find_bbo_spec o A Ask R) as FB. cbn [get_book orders_of] in FB. destruct (first_leaf false (a_asks A)) as [x|]; [|destruct FB; congruence].
        destruct FB as (h' & F1 & (F2 & _) & F3). rewrite X1 in F1. injection F1 as ->. unfold get_leaf in X2. cbn [orders_of] in F2. rewrite F2 in X2. injection X2 as ->. exact F3. }
      destruct (f_asks _ _ _ (bw_fit _ _ _ _ _ _ _ W) b BP) as (G1 & G2 & _ & _). pose proof (bw_q _ _ _ _ _ _ _ W) as Q0.
      apply (meets_ask o A L h b net R (bw_lim _ _ _ _ _ _ _ W) (c_plp _ _ _ _ _ C) (bw_L _ _ _ _ _ _ _ W) ST X1 X2 X3 X4 G2 X5). lia.
Qed.

Lemma ask_blame n : forall o A pr q po er, ctx cl pl capb capa o -> rep o A -> ask_wf cl pl p A pr q ->
  new_order_loop n o pr p Ask po q 0 = Err er ->
  (er = EWouldSelfTrade /\ po = false /\ own_bid A q (Z.of_nat n)) \/ (er = EEventQueueFull /\ ~ fits (4 * (Z.min (Z.of_nat n) (zlen (a_bids A)) + 1)) o).
Proof.
  induction n as [|n IH]; intros o A pr q po er C R W.
  all: rewrite ask_loop_eq by apply W; fold lim; pose proof (zlen_nonneg (a_bids A)) as ZN.
  - destruct (ask_turn o A pr q true C R W) as [(o1 & pr1 & A1 & fee & rq & -> & _)|[[-> X]|[-> X]]]; cbn [rbind]; intros H; [discriminate|destruct X; discriminate|right]; (split; [congruence|]).
    apply X. lia.
  - destruct (ask_turn o A pr q po C R W) as [(o1 & pr1 & A1 & fee & rq & -> & S1 & R1 & F1 & C1)|[[-> X]|[-> X]]]; cbn [rbind]; intros H.
    2: left; split; [congruence|]; destruct X as [X1 X2]; split; [exact X1|]; apply next_own_bid; [apply (rep_sorted o A R)|apply W|lia|exact X2].
    2: right; split; [congruence|apply X; lia].
    destruct rq as [q1|]; cbn [option_map] in H; [|discriminate].
    destruct (rep_sorted o A R) as [SB SA].
    destruct (ask_step_wf cl pl capa p po A pr q A1 pr1 fee q1 (c_clp _ _ _ _ _ C) (c_plp _ _ _ _ _ C) (conj (aw_fit _ _ _ _ _ _ W) (conj SB SA)) W S1) as (W1 & _ & ->).
    assert (LEN : zlen (a_bids A1) = zlen (a_bids A) - 1 /\ (own_bid A1 q1 (Z.of_nat n) -> own_bid A q (Z.of_nat (S n)))).
    { clear H. inversion S1; subst; name_step; cbn [a_bids].
      - destruct (q - ctake =? 0) eqn:EQ; [discriminate|].
        rewrite zlen_shrink by (try assumption; apply best_bid_In; assumption).
        unfold self_qty in HSelf. destruct (op_st p) eqn:ST; try discriminate; injection HSelf as <- <-.
        + replace (l_qty b - Z.min (l_qty b) q =? 0) with true by lia. split; [lia|intros (X & _); congruence].
        + replace (l_qty b - l_qty b =? 0) with true by lia. split; [lia|intros (X & _); congruence].
      - destruct (q - Z.min (l_qty b) q =? 0) eqn:EQ; [discriminate|].
        rewrite zlen_shrink by (try assumption; apply best_bid_In; assumption).
        replace (l_qty b - Z.min (l_qty b) q =? 0) with true by lia. split; [lia|].
        intros [X1 X2]. split; [exact X1|]. cbn [a_bids] in X2. injection HRem as <-. rewrite Nat2Z.inj_succ, <- Z.add_1_r.
        eapply meets_shrink; [exact SB|apply best_bid_In; exact HBest|..|exact X2]; [lia| |discriminate].
        intros x Hx. exact (first_leaf_max _ _ _ SB HBest Hx). }
    destruct LEN as [LEN N1]. pose proof (zlen_nonneg (a_bids A1)) as ZN1.
    destruct (IH _ _ _ _ _ _ C1 R1 W1 H) as [(-> & X1 & X2)|[-> X]]; [left; auto|right]. split; [reflexivity|].
    intros F. apply X. eapply fits_less; [apply F1; [exact F|lia]|]. lia.
Qed.
Lemma own_ask_back o A pr q L po A1 pr1 fee q1 L1 n : ctx cl pl capb capa o -> rep o A -> bid_wf cl pl p A pr q L ->
  bid_step cl pl capb p lim po A pr q L A1 pr1 fee (Some (q1, L1)) ->
  po = false /\ (own_ask A1 q1 L1 (Z.of_nat n) -> own_ask A q L (Z.of_nat (S n))).
Proof.
  intros C R W S1. split; [inversion S1; subst; name_step; first [assumption|reflexivity]|]. intros [X1 X2]. split; [exact X1|]. destruct (rep_sorted o A R) as [SB SA]. rewrite Nat2Z.inj_succ, <- Z.add_1_r.
  inversion S1; subst; name_step; cbn [a_asks] in X2.
  - unfold self_qty in HSelf. rewrite X1 in HSelf. discriminate.
  - set (t := Z.min (Z.min (l_qty b) q) (bid_budget pl p L / l_price b)) in *.
    match goal with G : (if ?c then None else Some _) = _ |- _ => destruct c; [discriminate|]; injection G as <- <- end.
    eapply meets_shrink; [exact SA|apply best_ask_In; exact HBest|..|exact X2]; [lia| |].
    + intros x Hx. exact (first_leaf_least _ _ _ SA HBest Hx).
    + intros _. assert (0 <= taker_fee (op_tier p) (t * l_price b * pl)) by (unfold taker_fee, wadd, w64; apply Z.mod_pos_bound; lia). lia.
Qed.
Lemma bid_blame_limit n : forall o A pr q L po er, ctx cl pl capb capa o -> rep o A -> bid_wf cl pl p A pr q L ->
  new_order_loop n o pr p Bid po q L = Err er ->
  (er = EWouldSelfTrade /\ po = false /\ own_ask A q L (Z.of_nat n)) \/ (er = EEventQueueFull /\ ~ fits (4 * (Z.of_nat n + 1)) o).
Proof.
  induction n as [|n IH]; intros o A pr q L po er C R W.
  all: rewrite bid_loop_eq by apply W; fold lim.
  - destruct (bid_turn o A pr q L true C R W) as [(o1 & pr1 & A1 & fee & rq & -> & _)|[[-> X]|[-> X]]]; cbn [rbind]; intros H; [discriminate|destruct X; discriminate|right]; (split; [congruence|]).
    apply X. lia.
  - destruct (bid_turn o A pr q L po C R W) as [(o1 & pr1 & A1 & fee & rq & -> & S1 & R1 & F1 & C1)|[[-> X]|[-> X]]]; cbn [rbind]; intros H.
    2: left; split; [congruence|]; destruct X as [X1 X2]; split; [exact X1|]; apply next_own_ask; [apply (rep_sorted o A R)|apply W|lia|exact X2].
    2: right; split; [congruence|apply X; lia].
    destruct rq as [[q1 L1]|]; [|discriminate].
    destruct (rep_sorted o A R) as [SB SA].
    destruct (bid_step_wf cl pl capb p po A pr q L A1 pr1 fee q1 L1 (c_clp _ _ _ _ _ C) (c_plp _ _ _ _ _ C) (conj (bw_fit _ _ _ _ _ _ _ W) (conj SB SA)) W S1) as (W1 & _ & _ & ->).
    destruct (own_ask_back o A pr q L false A1 pr1 fee q1 L1 n C R W S1) as [PO N1].
    destruct (IH _ _ _ _ _ _ _ C1 R1 W1 H) as [(-> & X1 & X2)|[-> X]]; [left; auto|right]. split; [reflexivity|].
    intros F. apply X. eapply fits_less; [apply F1; [exact F|lia]|]. lia.
Qed.
Lemma bid_blame n : forall o A pr q L po er, ctx cl pl capb capa o -> rep o A -> bid_wf cl pl p A pr q L -> (op_st p = DecrementTake -> no_own_ask p A) ->
  new_order_loop n o pr p Bid po q L = Err er ->
  (er = EWouldSelfTrade /\ po = false /\ own_ask A q L (Z.of_nat n)) \/ (er = EEventQueueFull /\ ~ fits (4 * (Z.min (Z.of_nat n) (zlen (a_asks A) + 1) + 1)) o).
Proof.
  induction n as [|n IH]; intros o A pr q L po er C R W N.
  all: rewrite bid_loop_eq by apply W; fold lim; pose proof (zlen_nonneg (a_asks A)) as ZN.
  - destruct (bid_turn o A pr q L true C R W) as [(o1 & pr1 & A1 & fee & rq & -> & _)|[[-> X]|[-> X]]]; cbn [rbind]; intros H; [discriminate|destruct X; discriminate|right]; (split; [congruence|]).
    apply X. lia.
  - destruct (bid_turn o A pr q L po C R W) as [(o1 & pr1 & A1 & fee & rq & -> & S1 & R1 & F1 & C1)|[[-> X]|[-> X]]]; cbn [rbind]; intros H.
    2: left; split; [congruence|]; destruct X as [X1 X2]; split; [exact X1|]; apply next_own_ask; [apply (rep_sorted o A R)|apply W|lia|exact X2].
    2: right; split; [congruence|apply X; lia].
    destruct rq as [[q1 L1]|]; [|discriminate].
    destruct (rep_sorted o A R) as [SB SA]. pose proof (c_plp _ _ _ _ _ C) as PL.
    destruct (bid_step_wf cl pl capb p po A pr q L A1 pr1 fee q1 L1 (c_clp _ _ _ _ _ C) PL (conj (bw_fit _ _ _ _ _ _ _ W) (conj SB SA)) W S1) as (W1 & _ & _ & ->).
    destruct (own_ask_back o A pr q L false A1 pr1 fee q1 L1 n C R W S1) as [PO O1].
    assert (N1 : op_st p = DecrementTake -> no_own_ask p A1).
    { clear H. intros X. inversion S1; subst; name_step; apply no_own_ask_shrink; auto. }
    assert (ALT : zlen (a_asks A1) = zlen (a_asks A) - 1 \/
       (1 <= zlen (a_asks A) /\ exists b, best_ask A1 = Some b /\ bid_budget pl p L1 / l_price b = 0)).
    { pose proof (bw_L _ _ _ _ _ _ _ W1) as HL1. clear IH W1 N1 O1 H.
      inversion S1; subst; name_step; cbn [a_asks].
      - pose proof (best_ask_In _ _ HBest) as Hb. left. rewrite zlen_shrink by assumption.
        unfold self_qty in HSelf. destruct (op_st p) eqn:ST; try discriminate; injection HSelf as <- <-.
        + exfalso. assert (X : no_own_ask p A) by (apply N; reflexivity). specialize (X b Hb). fold lim in X. lia.
        + replace (l_qty b - l_qty b =? 0) with true by lia. reflexivity.
      - pose proof (best_ask_In _ _ HBest) as Hb.
        destruct (f_asks _ _ _ (bw_fit _ _ _ _ _ _ _ W) b Hb) as (G1 & G2 & _ & _).
        set (t := Z.min (Z.min (l_qty b) q) (bid_budget pl p L / l_price b)) in *.
        destruct ((q - t =? 0) || _) eqn:EQ; [discriminate|]. apply orb_false_iff in EQ. destruct EQ as [EQ1 EQ2].
        injection HRem as <- <-.
        rewrite zlen_shrink by assumption. destruct (l_qty b - t =? 0) eqn:EL; [left; reflexivity|right].
        split. { destruct (a_asks A); [destruct Hb|]. unfold zlen. cbn [length]. lia. }
        exists (set_qty b (l_qty b - t)). split; [unfold best_ask; cbn [a_asks]; apply best_ask_shrink; [exact HBest|lia]|].
        change (l_price (set_qty b (l_qty b - t))) with (l_price b).
        apply budget_exhausted with (t := t); try assumption; try reflexivity; try lia; apply W. }
    destruct ALT as [LEN|(LEN & b & HB & HZ)].
    + pose proof (zlen_nonneg (a_asks A1)) as ZN1.
      destruct (IH _ _ _ _ _ _ _ C1 R1 W1 N1 H) as [(-> & X1 & X2)|[-> X]]; [left; auto|right]. split; [reflexivity|].
      intros F. apply X. eapply fits_less; [apply F1; [exact F|lia]|]. lia.
    + rewrite bid_loop_eq in H by apply W1. fold lim in H.
      destruct (bid_turn o1 A1 pr1 q1 L1 (match n with O => true | S _ => false end) C1 R1 W1) as [(o2 & pr2 & A2 & fee2 & rq & E & S2 & _)|[[E X]|[E X]]]; rewrite E in H; cbn [rbind] in H.
      * exfalso. destruct n; [discriminate|]. destruct rq as [[q2 L2]|]; [|discriminate].
        inversion S2; subst; name_step; rewrite HB in HBest; injection HBest as <-; lia.
      * left. split; [congruence|]. destruct X as [X1 X2]. split; [reflexivity|]. apply O1. destruct n; [discriminate|].
        apply next_own_ask; [apply (rep_sorted o1 A1 R1)|apply W1|lia|exact X2].
      * right. split; [congruence|]. intros F. eapply (X _); [|apply F1; [exact F|lia]]. lia.
Qed.
End Blame.

(** ** Whole orders *)
Lemma fits_false k o A : rep o A -> 0 <= k -> ~ fits k o -> zlen (q_buf (ob_eq o)) < zlen (a_evs A) + k.
Proof. intros R K F. destruct (Z.ltb_spec (zlen (q_buf (ob_eq o))) (zlen (a_evs A) + k)) as [?|X]; [assumption|]. exfalso. apply F. eapply fits_rep; eassumption. Qed.
Lemma own_true opp sd lim k l : In l opp -> l_owner l = k -> reaches sd lim l = true -> own_in_reach opp sd lim k = true.
Proof. intros I E R. apply existsb_exists. exists l. split; [exact I|]. rewrite R. lia. Qed.
Theorem order_blame o A sd ot id owner slot t qty pc cid st limit er : rep o A -> ready o A sd ot id owner qty pc st ->
  new_order o sd ot id owner slot t qty pc cid st limit = Err er ->
  (er = EWouldSelfTrade /\ st = AbortTransaction /\ ot <> PostOnly /\
    meets_own (book_of A (other sd)) sd (id / B64) owner qty pc (m_pc_lot (ob_mkt o)) (Z.of_nat limit)) \/
  (er = EEventQueueFull /\ zlen (q_buf (ob_eq o)) < zlen (a_evs A) + events_needed (book_of A (other sd)) sd (id / B64) owner st (Z.of_nat limit)).
Proof.
  intros R0 RD. set (cl := m_coin_lot (ob_mkt o)). set (pl := m_pc_lot (ob_mkt o)).
  set (params := params ot id owner slot t cid st). destruct RD as [r1 r2 r3 r4 r5 r6 r7 r8 r9 r10 r11 r12 r13].
  assert (C : ctx cl pl (slab_cap (ob_bids o)) (slab_cap (ob_asks o)) o) by (constructor; auto).
  assert (FR : lfind id (book_of A sd) = None) by (apply lfind_None; assumption).
  assert (ZP : forall p, is_send_take p = true <-> op_owner p = 0) by (intros p; unfold is_send_take, system_id; lia).
  unfold new_order. fold (MatchOrder.params ot id owner slot t cid st). fold params.
  unfold events_needed, most_rounds.
  destruct sd; cbn [other book_of] in *.
  - assert (W : bid_wf cl pl params A pr_zero qty pc).
    { constructor; cbn [p_pc_unlocked p_pc_debit p_coin_credit pr_zero]; try assumption; try lia; try (apply r13; reflexivity).
      - intros X. apply ZP in X. destruct (r11 X) as [Y _]. unfold params, MatchOrder.params. cbn. rewrite Y. reflexivity. }
    pose proof (zlen_nonneg (a_asks A)) as ZN. intros H.
    assert (OWN : ot_post_only ot = false /\ own_ask pl params A qty pc (Z.of_nat limit) -> st = AbortTransaction /\ ot <> PostOnly /\ meets_own (a_asks A) Bid (id / B64) owner qty pc pl (Z.of_nat limit)).
    { intros (PO & X & Y). split; [exact X|]. split; [intros ->; discriminate|exact Y]. }
    destruct (own_in_reach (a_asks A) Bid (id / B64) owner) eqn:EO.
    + destruct st.
      1: destruct (bid_blame_limit cl pl _ _ params limit o A pr_zero qty pc (ot_post_only ot) er C R0 W H) as [[-> X]|[-> X]]; [left; auto|right; split; [reflexivity|]; apply fits_false; [exact R0|lia|exact X]].
      all: destruct (bid_blame cl pl _ _ params limit o A pr_zero qty pc (ot_post_only ot) er C R0 W ltac:(discriminate) H) as [[-> X]|[-> X]]; [left; auto|right; split; [reflexivity|]; apply fits_false; [exact R0|lia|exact X]].
    + destruct (bid_blame cl pl _ _ params limit o A pr_zero qty pc (ot_post_only ot) er C R0 W (fun _ => own_in_reach_ask owner (id / B64) A EO) H) as [[-> X]|[-> X]]; [left; auto|].
      right. split; [reflexivity|]. destruct st; apply fits_false; try exact R0; try lia; exact X.
  - destruct (r12 eq_refl) as (-> & QC & SUM).
    assert (W : ask_wf cl pl params A pr_zero qty).
    { constructor; cbn [p_coin_unlocked p_coin_debit p_pc_credit pr_zero]; try assumption; try lia.
      - intros X. apply QC. intros Y. assert (is_send_take params = true) by (apply ZP; exact Y). congruence.
      - intros X. apply ZP in X. destruct (r11 X) as [Y1 Y2]. unfold params, MatchOrder.params. cbn. rewrite Y1, Y2. split; reflexivity. }
    pose proof (zlen_nonneg (a_bids A)) as ZN. intros H.
    destruct (ask_blame cl pl _ _ params limit o A pr_zero qty (ot_post_only ot) er C R0 W H) as [[-> X]|[-> X]].
    + left. split; [reflexivity|]. destruct X as (PO & X & Y). split; [exact X|]. split; [intros ->; discriminate|exact Y].
    + right. split; [reflexivity|]. apply (fits_false _ _ _ R0) in X; [|lia]. lia.
Qed.

(** Matching never aborts the transaction. *)
Section Calm.
Variables (cl pl capb capa : Z) (p : order_params).
Lemma ask_calm n : forall o A pr q po, ctx cl pl capb capa o -> rep o A -> ask_wf cl pl p A pr q -> new_order_loop n o pr p Ask po q 0 <> Panic.
Proof.
  induction n as [|n IH]; intros o A pr q po C R W; rewrite ask_loop_eq by apply W.
  - destruct (ask_turn cl pl capb capa p o A pr q true C R W) as [(o1 & pr1 & A1 & fee & rq & -> & _)|[[-> X]|[-> X]]]; cbn [rbind]; discriminate.
  - destruct (ask_turn cl pl capb capa p o A pr q po C R W) as [(o1 & pr1 & A1 & fee & rq & -> & S1 & R1 & F1 & C1)|[[-> X]|[-> X]]]; cbn [rbind]; [|discriminate..].
    destruct rq as [q1|]; cbn [option_map]; [|discriminate].
    destruct (rep_sorted o A R) as [SB SA].
    destruct (ask_step_wf cl pl capa p po A pr q A1 pr1 fee q1 (c_clp _ _ _ _ _ C) (c_plp _ _ _ _ _ C) (conj (aw_fit _ _ _ _ _ _ W) (conj SB SA)) W S1) as (W1 & _ & ->).
    exact (IH _ _ _ _ _ C1 R1 W1).
Qed.
Lemma bid_calm n : forall o A pr q L po, ctx cl pl capb capa o -> rep o A -> bid_wf cl pl p A pr q L -> new_order_loop n o pr p Bid po q L <> Panic.
Proof.
  induction n as [|n IH]; intros o A pr q L po C R W; rewrite bid_loop_eq by apply W.
  - destruct (bid_turn cl pl capb capa p o A pr q L true C R W) as [(o1 & pr1 & A1 & fee & rq & -> & _)|[[-> X]|[-> X]]]; cbn [rbind]; discriminate.
  - destruct (bid_turn cl pl capb capa p o A pr q L po C R W) as [(o1 & pr1 & A1 & fee & rq & -> & S1 & R1 & F1 & C1)|[[-> X]|[-> X]]]; cbn [rbind]; [|discriminate..].
    destruct rq as [[q1 L1]|]; [|discriminate].
    destruct (rep_sorted o A R) as [SB SA].
    destruct (bid_step_wf cl pl capb p po A pr q L A1 pr1 fee q1 L1 (c_clp _ _ _ _ _ C) (c_plp _ _ _ _ _ C) (conj (bw_fit _ _ _ _ _ _ _ W) (conj SB SA)) W S1) as (W1 & _ & _ & ->).
    exact (IH _ _ _ _ _ _ C1 R1 W1).
Qed.
End Calm.
Theorem order_calm o A sd ot id owner slot t qty pc cid st limit : rep o A -> ready o A sd ot id owner qty pc st ->
  new_order o sd ot id owner slot t qty pc cid st limit <> Panic.
Proof.
  intros R0 RD. set (cl := m_coin_lot (ob_mkt o)). set (pl := m_pc_lot (ob_mkt o)).
  set (params := params ot id owner slot t cid st). destruct RD as [r1 r2 r3 r4 r5 r6 r7 r8 r9 r10 r11 r12 r13].
  assert (C : ctx cl pl (slab_cap (ob_bids o)) (slab_cap (ob_asks o)) o) by (constructor; auto).
  assert (FR : lfind id (book_of A sd) = None) by (apply lfind_None; assumption).
  assert (ZP : forall p, is_send_take p = true <-> op_owner p = 0) by (intros p; unfold is_send_take, system_id; lia).
  unfold new_order. fold (MatchOrder.params ot id owner slot t cid st). fold params.
  destruct sd; cbn [other book_of] in *.
  - apply (bid_calm cl pl _ _ params limit o A pr_zero qty pc (ot_post_only ot) C R0).
    constructor; cbn [p_pc_unlocked p_pc_debit p_coin_credit pr_zero]; try assumption; try lia; try (apply r13; reflexivity).
    intros X. apply ZP in X. destruct (r11 X) as [Y _]. unfold params, MatchOrder.params. cbn. rewrite Y. reflexivity.
  - destruct (r12 eq_refl) as (-> & QC & SUM).
    apply (ask_calm cl pl _ _ params limit o A pr_zero qty (ot_post_only ot) C R0).
    constructor; cbn [p_coin_unlocked p_coin_debit p_pc_credit pr_zero]; try assumption; try lia.
    + intros X. apply QC. intros Y. assert (is_send_take params = true) by (apply ZP; exact Y). congruence.
    + intros X. apply ZP in X. destruct (r11 X) as [Y1 Y2]. unfold params, MatchOrder.params. cbn. rewrite Y1, Y2. split; reflexivity.
Qed.
