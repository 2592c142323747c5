(** How much room in the event queue a new order needs: with that much room it is never refused for
    lack of it, and it is refused for self trading only when it meets its owner's own order. *)
From Verif Require Import Base BaseProofs Fees FeesSpec FeesProofs Critbit CritbitProofs CritbitSlab CritbitOps
  CritbitSpec CritbitRefine ListSum Queue QueueSpec QueueProofs Codec Market Matching MatchSteps MatchRefine
  MatchAsk MatchBid MatchRun.

(** ** Errors come from a full queue or from self trading only *)
Definition pure {X} (r : res X) : Prop := forall e, r = Err e -> e <> EEventQueueFull /\ e <> EWouldSelfTrade.
Lemma pure_bind {X Y} (r : res X) (f : X -> res Y) : pure r -> (forall x, pure (f x)) -> pure (rbind r f).
Proof. intros H1 H2. destruct r; cbn [rbind]; [apply H2| |]; intros e' E; [|discriminate]. apply H1. congruence. Qed.
Lemma pure_ok {X} (x : X) : pure (Ok x). Proof. intros e H. discriminate. Qed.
Lemma pure_panic {X} : pure (@Panic X). Proof. intros e H. discriminate. Qed.
Lemma pure_unwrap {X} (x : option X) : pure (unwrap x). Proof. destruct x; intros e H; discriminate. Qed.
Lemma pure_cadd a b : pure (cadd a b). Proof. unfold cadd. destruct (_ <? _); intros e H; discriminate. Qed.
Lemma pure_passert b : pure (passert b). Proof. destruct b; intros e H; discriminate. Qed.
Lemma pure_assert b : pure (check b EAssert). Proof. destruct b; intros e H; inversion H. split; discriminate. Qed.
Ltac pur := repeat (first [apply pure_ok | apply pure_panic | apply pure_unwrap | apply pure_cadd | apply pure_passert
  | apply pure_assert | assumption | (apply pure_bind; [|intros]) | match goal with |- pure (match ?x with _ => _ end) => destruct x end ]).

Lemma pure_mm f s b r : pure (find_min_max_loop f s b r).
Proof. revert r. induction f as [|f IH]; intros r; cbn [find_min_max_loop]; pur. apply IH. Qed.
Lemma pure_fmm s b : pure (find_min_max s b).
Proof. unfold find_min_max. destruct (slab_root s); [|pur]. apply pure_bind; [apply pure_mm|intros; pur]. Qed.
Lemma pure_bbo o s : pure (find_bbo o s).
Proof. destruct s; apply pure_fmm. Qed.
Lemma pure_leaf s h : pure (get_leaf s h).
Proof. unfold get_leaf. pur. Qed.
Lemma pure_price l : pure (leaf_price l).
Proof. unfold leaf_price. pur. Qed.
Lemma pure_sins s n : pure (slab_insert s n).
Proof. unfold slab_insert. pur. Qed.
Lemma pure_insl f s n r : pure (insert_loop f s n r).
Proof. revert r. induction f as [|f IH]; intros r; cbn [insert_loop]; pur; try apply pure_sins. apply IH. Qed.
Lemma pure_ins s l : pure (insert_leaf s l).
Proof. unfold insert_leaf. destruct (slab_root s); [apply pure_insl|]. apply pure_bind; [apply pure_sins|intros; pur]. Qed.
Lemma pure_walk f s k a b c : pure (remove_walk f s k a b c).
Proof. revert a b c. induction f as [|f IH]; intros a b c; cbn [remove_walk]; pur. apply IH. Qed.
Lemma pure_rem s k : pure (remove_by_key s k).
Proof.
  unfold remove_by_key. destruct (slab_root s); [|pur]. destruct (slab_get s z); [|pur]. destruct n; try solve [pur].
  apply pure_bind; [apply pure_walk|intros; pur].
Qed.
Lemma pure_ext s b : pure (remove_extreme s b).
Proof. unfold remove_extreme. pur; [apply pure_fmm|apply pure_rem]. Qed.
Lemma pure_net t L : pure (remove_taker_fee t L).
Proof. unfold remove_taker_fee. pur. Qed.
Lemma pure_tier l : pure (tier_of_leaf l).
Proof. unfold tier_of_leaf. pur. Qed.

(** ** Counting events *)
(** There is room for [k] more events. *)
Definition fits (k : Z) (o : obs) : Prop :=
  0 <= k /\ 0 <= q_count (ob_eq o) /\ q_count (ob_eq o) + k <= zlen (q_buf (ob_eq o)).
(** If the computation succeeds, room for [k] more events is left; it does not fail for lack of room,
    and for self trading only when [S] holds. *)
Definition within {X} (S : Prop) (k : Z) (f : X -> obs) (r : res X) : Prop :=
  match r with
  | Ok x => fits k (f x)
  | Err e => e <> EEventQueueFull /\ (e = EWouldSelfTrade -> S)
  | Panic => True
  end.
Lemma fits_less k k' o : fits k o -> 0 <= k' <= k -> fits k' o.
Proof. unfold fits. lia. Qed.
Lemma fits_eq k o o' : fits k o -> ob_eq o' = ob_eq o -> fits k o'.
Proof. unfold fits. intros H ->. exact H. Qed.
Lemma within_less {X} S k k' (f : X -> obs) r : within S k f r -> 0 <= k' <= k -> within S k' f r.
Proof. destruct r; cbn [within]; auto. intros H1 H2. eapply fits_less; eauto. Qed.
Lemma within_S {X} (S S' : Prop) k (f : X -> obs) r : within S k f r -> (S -> S') -> within S' k f r.
Proof. destruct r; cbn [within]; auto. intuition. Qed.
Lemma bind_pure {X Y} S k (f : Y -> obs) (r : res X) g : pure r -> (forall x, r = Ok x -> within S k f (g x)) ->
  within S k f (rbind r g).
Proof. intros H1 H2. destruct r as [x|e|]; cbn [rbind]; [auto| |exact I]. destruct (H1 e eq_refl). cbn. intuition. Qed.
Lemma bind_within {X Y} S k k' (f : Y -> obs) (f' : X -> obs) (r : res X) g : within S k' f' r ->
  (forall x, r = Ok x -> fits k' (f' x) -> within S k f (g x)) -> within S k f (rbind r g).
Proof. intros H1 H2. destruct r as [x|e|]; cbn [rbind within] in *; auto. Qed.

Lemma emit_room S k o v : fits k o -> 1 <= k -> within S (k - 1) (fun o' : obs => o') (emit o v).
Proof.
  intros (F0 & F1 & F2) K. unfold emit, push_back, q_full, rem_len.
  replace (q_count (ob_eq o) =? zlen (q_buf (ob_eq o))) with false by lia.
  destruct (zlen (q_buf (ob_eq o)) =? 0); [exact I|]. cbn [rbind].
  destruct (znth (q_buf (ob_eq o)) _); cbn [unwrap rbind]; [|exact I].
  cbn [within]. unfold fits. cbn [set_eq ob_eq q_count q_buf]. rewrite zupd_len.
  assert (wadd (q_count (ob_eq o)) 1 <= q_count (ob_eq o) + 1) by (unfold wadd, w64; apply Z.mod_le; lia).
  assert (0 <= wadd (q_count (ob_eq o)) 1) by (unfold wadd, w64; apply Z.mod_pos_bound; lia). lia.
Qed.
Lemma remove_pure o s k : pure (remove_order_by_key o s k).
Proof. unfold remove_order_by_key. pur. apply pure_rem. Qed.
Lemma remove_eq o s k o' : remove_order_by_key o s k = Ok o' -> ob_eq o' = ob_eq o.
Proof.
  unfold remove_order_by_key. intros H. apply rbind_ok in H. destruct H as ([sl l] & _ & H).
  apply rbind_ok in H. destruct H as (? & _ & [= <-]). destruct s; reflexivity.
Qed.
Lemma remove_room S k o s x : fits k o -> within S k (fun o' : obs => o') (remove_order_by_key o s x).
Proof.
  intros F. destruct (remove_order_by_key o s x) as [o'|e|] eqn:E; cbn [within]; [| |exact I].
  - apply remove_eq in E. eapply fits_eq; eauto.
  - destruct (remove_pure o s x e E). intuition.
Qed.
Lemma write_eq o s h l q : ob_eq (write_qty o s h l q) = ob_eq o.
Proof. destruct s; reflexivity. Qed.
Lemma set_orders_eq o s x : ob_eq (set_orders o s x) = ob_eq o.
Proof. destruct s; reflexivity. Qed.

Lemma post_room S k o s l : fits k o -> 1 <= k -> within S (k - 1) (fun o' : obs => o') (post_order o s l).
Proof.
  intros F K. unfold post_order. apply bind_pure; [apply pure_ins|]. intros [s1 out] _.
  destruct out as [h old|].
  - cbn [within]. eapply fits_eq; [|apply set_orders_eq]. eapply fits_less; [exact F|destruct F; lia].
  - apply bind_pure; [apply pure_ext|]. intros [s2 ev] _. apply bind_pure; [pur|]. intros ord _.
    apply bind_pure; [pur; apply pure_price|]. intros u _.
    eapply bind_within; [apply emit_room; [eapply fits_eq; [exact F|apply set_orders_eq]|exact K]|].
    intros o1 _ F1. apply bind_pure; [apply pure_ins|]. intros [s3 out2] _.
    destruct out2; [|exact I]. cbn [within]. eapply fits_eq; [exact F1|apply set_orders_eq].
Qed.

Definition res_obs (x : obs * proceeds * remaining) : obs := fst (fst x).
Lemma pr1_pure p x : pure (pr_unlock_coin p x) /\ pure (pr_unlock_pc p x) /\ pure (pr_credit_coin p x) /\
  pure (pr_credit_pc p x) /\ pure (pr_debit_coin p x) /\ pure (pr_debit_pc p x).
Proof. unfold pr_unlock_coin, pr_unlock_pc, pr_credit_coin, pr_credit_pc, pr_debit_coin, pr_debit_pc. repeat (match goal with |- _ /\ _ => split end); pur. Qed.
Ltac pure_pr := first [apply (pr1_pure _ _)|exact (proj1 (pr1_pure _ _))].

Lemma ask_finish_room S k o pr p mq un ac rb cr dn : fits k o -> 2 <= k ->
  within S (k - 2) res_obs (ask_finish o pr p mq un ac rb cr dn).
Proof.
  intros F K. unfold ask_finish.
  apply bind_pure; [pure_pr|]. intros pr1 _. apply bind_pure; [pure_pr|]. intros pr2 _.
  apply bind_within with (k' := k - 1) (f' := fun o' : obs => o').
  { destruct (_ && _); [apply emit_room; [exact F|lia]|]. cbn [within]. eapply fits_less; [exact F|lia]. }
  intros o1 _ F1.
  assert (F2 : fits (k - 1) (set_mkt o1 (accrue (ob_mkt o) (taker_fee (op_tier p) (wmul ac (m_pc_lot (ob_mkt o)))) rb))) by (eapply fits_eq; [exact F1|reflexivity]).
  destruct (negb dn && _). { cbn [within res_obs fst]. eapply fits_less; [exact F2|lia]. }
  destruct (op_post_allowed p && _ && _).
  { apply bind_pure; [pur|]. intros _ _. eapply bind_within; [apply post_room; [exact F2|lia]|].
    intros o3 _ F3. cbn [within res_obs fst]. eapply fits_less; [exact F3|lia]. }
  destruct (negb (is_send_take p)).
  { apply bind_pure; [pure_pr|]. intros pr3 _. eapply bind_within; [apply emit_room; [exact F2|lia]|].
    intros o3 _ F3. cbn [within res_obs fst]. eapply fits_less; [exact F3|lia]. }
  cbn [within res_obs fst]. eapply fits_less; [exact F2|lia].
Qed.

(** The best order on the other side is the owner's own and within the limit price. *)
Definition meets_own_bid (o : obs) (p : order_params) (lim : Z) : Prop :=
  op_st p = AbortTransaction /\ exists h b, find_bbo o Bid = Ok (Some h) /\ get_leaf (ob_bids o) h = Ok b /\
    lim <= l_price b /\ op_owner p = l_owner b.
Definition meets_own_ask (o : obs) (p : order_params) (lim : Z) : Prop :=
  op_st p = AbortTransaction /\ exists h b, find_bbo o Ask = Ok (Some h) /\ get_leaf (ob_asks o) h = Ok b /\
    (lim = 0 \/ l_price b <= lim) /\ op_owner p = l_owner b.

Lemma new_ask_room k o pr p q lim po : fits k o -> 4 <= k ->
  within (meets_own_bid o p lim) (k - 4) res_obs (new_ask o pr p q lim po).
Proof.
  intros F K. unfold new_ask.
  assert (FIN : forall a b c d, within (meets_own_bid o p lim) (k - 4) res_obs (ask_finish o pr p q q a b c d)).
  { intros. eapply within_less; [apply ask_finish_room; [exact F|lia]|lia]. }
  apply bind_pure; [apply pure_bbo|]. intros [h|] HB; [|apply FIN].
  apply bind_pure; [apply pure_leaf|]. intros b Hb. apply bind_pure; [apply pure_price|]. intros price Hp.
  assert (price = l_price b) as -> by (unfold leaf_price in Hp; destruct (_ =? 0); congruence).
  destruct (negb (lim <=? l_price b) || po) eqn:EC; [apply FIN|].
  destruct (Z.min (l_qty b) q =? 0); [apply FIN|].
  destruct (op_owner p =? l_owner b) eqn:EO.
  - destruct (op_st p) eqn:ES; cbn [rbind].
    1-2: eapply bind_within; [apply emit_room; [exact F|lia]|]; intros o1 _ F1;
      (apply bind_within with (k' := k - 1) (f' := fun o' : obs => o');
       [destruct (_ =? 0); [apply remove_room; exact F1|cbn [within]; eapply fits_eq; [exact F1|apply write_eq]]|]); intros o2 _ F2;
      (eapply bind_within; [apply emit_room; [exact F2|lia]|]); intros o3 _ F3;
      (apply bind_pure; [pure_pr|]); intros pr1 _; cbn [within res_obs fst]; eapply fits_less; [exact F3|lia].
    cbn [within]. split; [discriminate|]. intros _. split; [exact ES|]. exists h, b. repeat split; try assumption; lia.
  - apply bind_pure; [apply pure_tier|]. intros mt _.
    eapply bind_within; [apply emit_room; [exact F|lia]|]. intros o1 _ F1.
    apply bind_within with (k' := k - 2) (f' := fun o' : obs => o').
    { destruct (_ =? 0).
      - eapply bind_within; [apply emit_room; [eapply fits_eq; [exact F1|apply write_eq]|lia]|]. intros o3 _ F3.
        apply remove_room. eapply fits_less; [exact F3|lia].
      - cbn [within]. eapply fits_eq; [|apply write_eq]. eapply fits_less; [exact F1|lia]. }
    intros o4 _ F4. eapply within_less; [apply ask_finish_room; [exact F4|lia]|lia].
Qed.

Lemma bid_finish_room S k o pr p mq lk lim mp cr pr0 rb (crossed dn : bool) : fits k o -> 2 + (if crossed then 0 else 1) <= k ->
  within S (k - 2 - (if crossed then 0 else 1)) res_obs (bid_finish o pr p mq lk lim mp cr pr0 rb crossed dn).
Proof.
  intros F K. unfold bid_finish.
  apply bind_pure; [pure_pr|]. intros pr1 _. apply bind_pure; [pure_pr|]. intros pr2 _.
  apply bind_within with (k' := k - 1) (f' := fun o' : obs => o').
  { destruct (_ && negb (is_send_take p)); [apply emit_room; [exact F|destruct crossed; lia]|]. cbn [within]. eapply fits_less; [exact F|destruct crossed; lia]. }
  intros o1 _ F1. cbv zeta.
  match goal with |- context [set_mkt o1 ?m] => assert (F2 : fits (k - 1) (set_mkt o1 m)) by (eapply fits_eq; [exact F1|reflexivity]); set (o2 := set_mkt o1 m) in * end.
  clearbody o2.
  destruct (negb dn && _ && _). { cbn [within res_obs fst]. eapply fits_less; [exact F2|destruct crossed; lia]. }
  apply bind_pure. { pur. } intros [post keep] HP.
  apply bind_within with (k' := k - 2) (f' := fun x : obs * proceeds => fst x).
  { destruct (negb (is_send_take p)).
    - apply bind_pure; [pure_pr|]. intros pr3 _. eapply bind_within; [apply emit_room; [exact F2|destruct crossed; lia]|].
      intros o3 _ F3. cbn [within fst]. eapply fits_less; [exact F3|destruct crossed; lia].
    - cbn [within fst]. eapply fits_less; [exact F2|destruct crossed; lia]. }
  intros [o3 pr3] _ F3. cbn [fst] in F3.
  destruct (0 <? keep) eqn:EK.
  - destruct crossed.
    { rewrite andb_false_r in HP. injection HP as <- <-. discriminate. }
    eapply bind_within; [apply post_room; [exact F3|lia]|]. intros o4 _ F4. cbn [within res_obs fst]. eapply fits_less; [exact F4|lia].
  - cbn [within res_obs fst]. eapply fits_less; [exact F3|destruct crossed; lia].
Qed.

Lemma new_bid_room k o pr p q L lim po : fits k o -> 4 <= k ->
  within (meets_own_ask o p lim) (k - 4) res_obs (new_bid o pr p q L lim po).
Proof.
  intros F K. unfold new_bid.
  apply bind_pure; [pur|]. intros _ _. apply bind_pure; [apply pure_net|]. intros net _.
  destruct (m_pc_lot (ob_mkt o) =? 0); [exact I|]. cbv zeta.
  assert (FIN : forall c a b d e f, within (meets_own_ask o p lim) (k - 4) res_obs (bid_finish o pr p q L lim a b d e c f)).
  { intros c. intros. eapply within_less; [apply bid_finish_room; [exact F|destruct c; lia]|destruct c; lia]. }
  apply bind_pure; [apply pure_bbo|]. intros [h|] HB; [|apply FIN].
  apply bind_pure; [apply pure_leaf|]. intros b Hb. apply bind_pure; [apply pure_price|]. intros price Hp.
  assert (price = l_price b) as -> by (unfold leaf_price in Hp; destruct (_ =? 0); congruence).
  destruct (negb (if lim =? 0 then true else l_price b <=? lim) || po) eqn:EC; [apply FIN|].
  destruct (Z.min _ _ =? 0); [apply FIN|].
  destruct (op_owner p =? l_owner b) eqn:EO.
  - destruct (op_st p) eqn:ES; cbn [rbind].
    1-2: eapply bind_within; [apply emit_room; [exact F|lia]|]; intros o1 _ F1;
      (apply bind_within with (k' := k - 1) (f' := fun o' : obs => o');
       [match goal with |- within _ _ _ (if ?c then _ else _) => destruct c end; [apply remove_room; exact F1|cbn [within]; eapply fits_eq; [exact F1|apply write_eq]]|]); intros o2 _ F2;
      match goal with |- context [if ?c then (_, _) else _] => destruct c end;
      (apply bind_pure; [pure_pr|]); intros pr1 _;
      (eapply bind_within; [apply emit_room; [exact F2|lia]|]); intros o3 _ F3; cbn [within res_obs fst]; eapply fits_less; [exact F3|lia | exact F3|lia].
    cbn [within]. split; [discriminate|]. intros _. split; [exact ES|]. exists h, b.
    apply orb_false_iff in EC. destruct EC as [EC _]. apply negb_false_iff in EC.
    repeat split; try assumption; [|lia]. destruct (lim =? 0) eqn:E0; lia.
  - apply bind_pure; [apply pure_tier|]. intros mt _.
    eapply bind_within; [apply emit_room; [exact F|lia]|]. intros o1 _ F1.
    apply bind_within with (k' := k - 2) (f' := fun o' : obs => o').
    { match goal with |- within _ _ _ (if ?c then _ else _) => destruct c end.
      - eapply bind_within; [apply emit_room; [eapply fits_eq; [exact F1|apply write_eq]|lia]|]. intros o3 _ F3.
        apply remove_room. eapply fits_less; [exact F3|lia].
      - cbn [within]. eapply fits_eq; [|apply write_eq]. eapply fits_less; [exact F1|lia]. }
    intros o4 _ F4. eapply within_less; [apply bid_finish_room; [exact F4|lia]|lia].
Qed.

(** ** Whole orders *)
Lemma zlen_shrink b n bk : sorted bk -> In b bk -> zlen (shrink b n bk) = zlen bk - (if n =? 0 then 1 else 0).
Proof.
  intros S H. unfold shrink. destruct (n =? 0); [|rewrite lset_len; lia].
  apply ldel_len_some with b; [assumption|]. apply lfind_In; auto.
Qed.
Lemma best_ask_shrink A b n : best_ask A = Some b -> n <> 0 ->
  first_leaf false (shrink b n (a_asks A)) = Some (set_qty b n).
Proof.
  unfold best_ask, first_leaf, shrink. intros H N. replace (n =? 0) with false by lia.
  destruct (a_asks A) as [|x l]; [discriminate|]. cbn [hd_error] in *. injection H as ->.
  unfold lset. cbn [map hd_error set_qty l_key]. rewrite Z.eqb_refl. reflexivity.
Qed.

Section Accept.
Variables (cl pl capb capa : Z) (p : order_params).
Let lim := price_of_id (op_order_id p).
Definition no_own_bid (A : astate) : Prop := forall l, In l (a_bids A) -> l_owner l = op_owner p -> l_price l < lim.
Definition no_own_ask (A : astate) : Prop := forall l, In l (a_asks A) -> l_owner l = op_owner p -> lim < l_price l.

Lemma no_own_bid_meets o A : rep o A -> no_own_bid A -> ~ meets_own_bid o p lim.
Proof.
  intros R N (_ & h & b & E1 & E2 & E3 & E4). pose proof (find_bbo_spec o A Bid R) as FB. cbn [get_book orders_of] in FB.
  destruct (first_leaf true (a_bids A)) as [x|] eqn:EX; [|destruct FB; congruence].
  destruct FB as (h' & F1 & (F2 & _) & F3). rewrite E1 in F1. injection F1 as ->. unfold get_leaf in E2. cbn [orders_of] in F2. rewrite F2 in E2.
  injection E2 as ->. specialize (N b F3 (eq_sym E4)). lia.
Qed.
Lemma no_own_ask_meets o A : rep o A -> 0 < lim -> no_own_ask A -> ~ meets_own_ask o p lim.
Proof.
  intros R P N (_ & h & b & E1 & E2 & E3 & E4). pose proof (find_bbo_spec o A Ask R) as FB. cbn [get_book orders_of] in FB.
  destruct (first_leaf false (a_asks A)) as [x|] eqn:EX; [|destruct FB; congruence].
  destruct FB as (h' & F1 & (F2 & _) & F3). rewrite E1 in F1. injection F1 as ->. unfold get_leaf in E2. cbn [orders_of] in F2. rewrite F2 in E2.
  injection E2 as ->. specialize (N b F3 (eq_sym E4)). lia.
Qed.
Lemma no_own_bid_shrink A b n ev : best_bid A = Some b -> no_own_bid A -> no_own_bid (mkA (shrink b n (a_bids A)) (a_asks A) ev).
Proof.
  intros H N l Hl E. cbn [a_bids] in Hl. apply shrink_In in Hl. destruct Hl as [[_ ->]|[Hl _]]; [|auto].
  apply (N b); [apply best_bid_In; exact H|exact E].
Qed.
Lemma no_own_ask_shrink A b n ev : best_ask A = Some b -> no_own_ask A -> no_own_ask (mkA (a_bids A) (shrink b n (a_asks A)) ev).
Proof.
  intros H N l Hl E. cbn [a_asks] in Hl. apply shrink_In in Hl. destruct Hl as [[_ ->]|[Hl _]]; [|auto].
  apply (N b); [apply best_ask_In; exact H|exact E].
Qed.

(** One iteration with enough room succeeds. *)
Lemma ask_iter o A pr q po k : ctx cl pl capb capa o -> rep o A -> ask_wf cl pl p A pr q -> fits k o -> 4 <= k ->
  (op_st p = AbortTransaction -> no_own_bid A) ->
  exists o1 pr1 A1 fee rq, new_ask o pr p q lim po = Ok (o1, pr1, option_map (fun n => (n, 0)) rq) /\
    ask_step cl pl capa p lim po A pr q A1 pr1 fee rq /\ rep o1 A1 /\ fits (k - 4) o1 /\ ctx cl pl capb capa o1.
Proof.
  intros C R W F K N.
  pose proof (new_ask_step cl pl capb capa p o A pr q po C R W) as H1. fold lim in H1.
  pose proof (new_ask_room k o pr p q lim po F K) as H2.
  destruct (new_ask o pr p q lim po) as [[[o1 pr1] rem]|e|]; cbn [outcome within] in *; [| |destruct H1].
  - destruct H1 as (A1 & fee & rq & S1 & -> & R1 & K1 & M1). exists o1, pr1, A1, fee, rq. rewrite (accrue_after p) in M1.
    split; [reflexivity|]. split; [exact S1|]. split; [exact R1|]. split; [exact H2|]. exact (ctx_after cl pl capb capa p o o1 _ _ C M1 K1).
  - exfalso. destruct H2 as [H2 H3]. destruct H1 as [H1|H1]; [contradiction|]. specialize (H3 H1). pose proof H3 as (X & _).
    eapply no_own_bid_meets; [exact R| |exact H3]. apply N. exact X.
Qed.
Lemma bid_iter o A pr q L po k : ctx cl pl capb capa o -> rep o A -> bid_wf cl pl p A pr q L -> fits k o -> 4 <= k ->
  (op_st p = AbortTransaction -> no_own_ask A) ->
  exists o1 pr1 A1 fee rem, new_bid o pr p q L lim po = Ok (o1, pr1, rem) /\
    bid_step cl pl capb p lim po A pr q L A1 pr1 fee rem /\ rep o1 A1 /\ fits (k - 4) o1 /\ ctx cl pl capb capa o1.
Proof.
  intros C R W F K N.
  pose proof (new_bid_step cl pl capb capa p o A pr q L po C R W) as H1. fold lim in H1.
  pose proof (new_bid_room k o pr p q L lim po F K) as H2.
  destruct (new_bid o pr p q L lim po) as [[[o1 pr1] rem]|e|]; cbn [outcome within] in *; [| |destruct H1].
  - destruct H1 as (A1 & fee & S1 & R1 & K1 & M1). exists o1, pr1, A1, fee, rem. rewrite (accrue_after p) in M1.
    split; [reflexivity|]. split; [exact S1|]. split; [exact R1|]. split; [exact H2|]. exact (ctx_after cl pl capb capa p o o1 _ _ C M1 K1).
  - exfalso. destruct H2 as [H2 H3]. destruct H1 as [H1|H1]; [contradiction|]. specialize (H3 H1). pose proof H3 as (X & _).
    eapply no_own_ask_meets; [exact R|apply W| |exact H3]. apply N. exact X.
Qed.

Lemma ask_loop_eq n o pr po q : 0 < lim -> new_order_loop n o pr p Ask po q 0 =
  ('(o1, pr1, rem) <- new_ask o pr p q lim (match n with O => true | S _ => po end) ;;
   match n with O => Ok (o1, pr1, rem) | S n => match rem with None => Ok (o1, pr1, None) | Some (q, pc) => new_order_loop n o1 pr1 p Ask po q pc end end).
Proof.
  intros H. destruct n; cbn [new_order_loop]; change (0 =? 0) with true; cbn [passert rbind]; fold lim;
  replace (lim =? 0) with false by lia; cbn [negb passert rbind]; reflexivity.
Qed.
Lemma bid_loop_eq n o pr po q L : 0 < L -> new_order_loop n o pr p Bid po q L =
  ('(o1, pr1, rem) <- new_bid o pr p q L lim (match n with O => true | S _ => po end) ;;
   match n with O => Ok (o1, pr1, rem) | S n => match rem with None => Ok (o1, pr1, None) | Some (q, pc) => new_order_loop n o1 pr1 p Bid po q pc end end).
Proof.
  intros H. destruct n; cbn [new_order_loop]; replace (L =? 0) with false by lia; cbn [negb passert rbind]; reflexivity.
Qed.

Lemma ask_accepted n : forall o A pr q po, ctx cl pl capb capa o -> rep o A -> ask_wf cl pl p A pr q ->
  fits (4 * (Z.min (Z.of_nat n) (zlen (a_bids A)) + 1)) o -> (op_st p = AbortTransaction -> no_own_bid A) ->
  exists x, new_order_loop n o pr p Ask po q 0 = Ok x.
Proof.
  induction n as [|n IH]; intros o A pr q po C R W F N.
  all: rewrite ask_loop_eq by apply W; pose proof (zlen_nonneg (a_bids A)) as ZN.
  - destruct (ask_iter o A pr q true _ C R W F ltac:(lia) N) as (o1 & pr1 & A1 & fee & rq & -> & _). cbn [rbind]. eauto.
  - destruct (ask_iter o A pr q po _ C R W F ltac:(lia) N) as (o1 & pr1 & A1 & fee & rq & -> & S1 & R1 & F1 & C1). cbn [rbind].
    destruct rq as [q1|]; cbn [option_map]; [|eauto].
    destruct (rep_sorted o A R) as [SB SA].
    destruct (ask_step_wf cl pl capa p po A pr q A1 pr1 fee q1 (c_clp _ _ _ _ _ C) (c_plp _ _ _ _ _ C) (conj (aw_fit _ _ _ _ _ _ W) (conj SB SA)) W S1) as (W1 & _ & ->).
    assert (LEN : zlen (a_bids A1) = zlen (a_bids A) - 1 /\ (op_st p = AbortTransaction -> no_own_bid A1)).
    { inversion S1; subst; name_step; cbn [a_bids].
      - destruct (q - ctake =? 0) eqn:EQ; [discriminate|].
        rewrite zlen_shrink by (try assumption; apply best_bid_In; assumption).
        unfold self_qty in HSelf. destruct (op_st p) eqn:ST; try discriminate; injection HSelf as <- <-.
        + replace (l_qty b - Z.min (l_qty b) q =? 0) with true by lia. split; [lia|discriminate].
        + replace (l_qty b - l_qty b =? 0) with true by lia. split; [lia|discriminate].
      - destruct (q - Z.min (l_qty b) q =? 0) eqn:EQ; [discriminate|].
        rewrite zlen_shrink by (try assumption; apply best_bid_In; assumption).
        replace (l_qty b - Z.min (l_qty b) q =? 0) with true by lia. split; [lia|].
        intros X. apply no_own_bid_shrink; auto. }
    destruct LEN as [LEN N1]. pose proof (zlen_nonneg (a_bids A1)) as ZN1.
    eapply IH; try eassumption. eapply fits_less; [exact F1|]. lia.
Qed.

(** Enough room for every iteration the limit allows. *)
Lemma bid_accepted_limit n : forall o A pr q L po, ctx cl pl capb capa o -> rep o A -> bid_wf cl pl p A pr q L ->
  fits (4 * (Z.of_nat n + 1)) o -> (op_st p = AbortTransaction -> no_own_ask A) ->
  exists x, new_order_loop n o pr p Bid po q L = Ok x.
Proof.
  induction n as [|n IH]; intros o A pr q L po C R W F N.
  all: rewrite bid_loop_eq by apply W.
  - destruct (bid_iter o A pr q L true _ C R W F ltac:(lia) N) as (o1 & pr1 & A1 & fee & rq & -> & _). cbn [rbind]. eauto.
  - destruct (bid_iter o A pr q L po _ C R W F ltac:(lia) N) as (o1 & pr1 & A1 & fee & rq & -> & S1 & R1 & F1 & C1). cbn [rbind].
    destruct rq as [[q1 L1]|]; [|eauto].
    destruct (rep_sorted o A R) as [SB SA].
    destruct (bid_step_wf cl pl capb p po A pr q L A1 pr1 fee q1 L1 (c_clp _ _ _ _ _ C) (c_plp _ _ _ _ _ C) (conj (bw_fit _ _ _ _ _ _ _ W) (conj SB SA)) W S1) as (W1 & _ & _ & ->).
    assert (N1 : op_st p = AbortTransaction -> no_own_ask A1).
    { intros X. inversion S1; subst; name_step; apply no_own_ask_shrink; auto. }
    eapply IH; try eassumption. eapply fits_less; [exact F1|]. lia.
Qed.

(** A budget that does not pay for one more lot at price [c] after a purchase at that price. *)
Lemma budget_exhausted L c t v : 0 < L < B64 -> 0 < pl -> 0 < c -> t = bid_budget pl p L / c -> v = t * c * pl ->
  0 < L - v - taker_fee (op_tier p) v -> bid_budget pl p (L - v - taker_fee (op_tier p) v) / c = 0.
Proof.
  intros HL Hpl Hc Et Ev HL1.
  destruct (budget_spec pl p L HL Hpl) as (n & E & EB & B1 & B2).
  assert (T0 : 0 <= t) by (rewrite Et; apply Z.div_pos; lia).
  assert (TC : t * c <= bid_budget pl p L) by (rewrite Et, Z.mul_comm; apply Z.mul_div_le; lia).
  assert (TC0 : 0 <= t * c) by nia.
  assert (TM : bid_budget pl p L < (t + 1) * c).
  { rewrite Et. pose proof (Z.div_mod (bid_budget pl p L) c ltac:(lia)) as D. pose proof (Z.mod_pos_bound (bid_budget pl p L) c Hc). nia. }
  destruct (B2 (t * c) ltac:(lia)) as [B3 B4]. rewrite <- Ev in B3, B4.
  assert (UV : u64 v) by (unfold u64; lia). pose proof (taker_fee_le (op_tier p) v UV) as FV.
  remember (L - v - taker_fee (op_tier p) v) as L1 eqn:EL1.
  destruct (budget_spec pl p L1 ltac:(lia) Hpl) as (n1 & E1 & EB1 & B11 & _).
  assert (HU : u64 L) by (unfold u64; lia). assert (HU1 : u64 L1) by (unfold u64; lia).
  assert (KEY : n1 + v <= n).
  { destruct (remove_taker_fee_ok (op_tier p) L HU) as (x & X1 & X2 & X3). rewrite E in X1. injection X1 as <-.
    destruct (remove_taker_fee_ok (op_tier p) L1 HU1) as (x & Y1 & Y2 & Y3). rewrite E1 in Y1. injection Y1 as <-.
    pose proof (taker_fee_spec (op_tier p) v UV) as [Z1 Z2]. pose proof (taker_rate_bounds (op_tier p)) as RB.
    clear - X3 Y3 Z1 EL1 RB. set (r := taker_rate (op_tier p)) in *. set (f := taker_fee (op_tier p) v) in *. clearbody r f. subst L1.
    assert ((n1 + v) * (B64 + r) < (n + 1) * (B64 + r)) by lia. nia. }
  apply Z.div_small. split; [lia|]. rewrite <- EB1, <- EB in *.
  assert (n1 / pl <= n / pl - t * c).
  { replace (n / pl - t * c) with ((n - t * c * pl) / pl) by (replace (n - t * c * pl) with (n + (- (t * c)) * pl) by ring; rewrite Z.div_add by lia; lia).
    apply Z.div_le_mono; lia. }
  lia.
Qed.

Lemma bid_accepted n : forall o A pr q L po, ctx cl pl capb capa o -> rep o A -> bid_wf cl pl p A pr q L ->
  fits (4 * (Z.min (Z.of_nat n) (zlen (a_asks A) + 1) + 1)) o -> (op_st p <> CancelProvide -> no_own_ask A) ->
  exists x, new_order_loop n o pr p Bid po q L = Ok x.
Proof.
  induction n as [|n IH]; intros o A pr q L po C R W F N.
  all: rewrite bid_loop_eq by apply W; pose proof (zlen_nonneg (a_asks A)) as ZN.
  all: assert (NA : op_st p = AbortTransaction -> no_own_ask A) by (intros X; apply N; congruence).
  - destruct (bid_iter o A pr q L true _ C R W F ltac:(lia) NA) as (o1 & pr1 & A1 & fee & rq & -> & _). cbn [rbind]. eauto.
  - destruct (bid_iter o A pr q L po _ C R W F ltac:(lia) NA) as (o1 & pr1 & A1 & fee & rq & -> & S1 & R1 & F1 & C1). cbn [rbind].
    destruct rq as [[q1 L1]|]; [|eauto].
    destruct (rep_sorted o A R) as [SB SA]. pose proof (c_plp _ _ _ _ _ C) as PL.
    destruct (bid_step_wf cl pl capb p po A pr q L A1 pr1 fee q1 L1 (c_clp _ _ _ _ _ C) PL (conj (bw_fit _ _ _ _ _ _ _ W) (conj SB SA)) W S1) as (W1 & _ & _ & ->).
    assert (N1 : op_st p <> CancelProvide -> no_own_ask A1).
    { intros X. inversion S1; subst; name_step; apply no_own_ask_shrink; auto. }
    assert (ALT : zlen (a_asks A1) = zlen (a_asks A) - 1 \/
       (1 <= zlen (a_asks A) /\ exists b, best_ask A1 = Some b /\ bid_budget pl p L1 / l_price b = 0)).
    { pose proof (bw_L _ _ _ _ _ _ _ W1) as HL1. clear IH W1 N1.
      inversion S1; subst; name_step; cbn [a_asks].
      - pose proof (best_ask_In _ _ HBest) as Hb. left. rewrite zlen_shrink by assumption.
        unfold self_qty in HSelf. destruct (op_st p) eqn:ST; try discriminate; injection HSelf as <- <-.
        + exfalso. assert (X : no_own_ask A) by (apply N; discriminate). specialize (X b Hb). lia.
        + replace (l_qty b - l_qty b =? 0) with true by lia. reflexivity.
      - pose proof (best_ask_In _ _ HBest) as Hb.
        destruct (f_asks _ _ _ (bw_fit _ _ _ _ _ _ _ W) b Hb) as (G1 & G2 & _ & _).
        set (t := Z.min (Z.min (l_qty b) q) (bid_budget pl p L / l_price b)) in *.
        destruct ((q - t =? 0) || _) eqn:EQ; [discriminate|]. apply orb_false_iff in EQ. destruct EQ as [EQ1 EQ2].
        injection HRem as <- <-.
        rewrite zlen_shrink by assumption. destruct (l_qty b - t =? 0) eqn:EL; [left; reflexivity|right].
        split. { destruct (a_asks A); [destruct Hb|]. unfold zlen. cbn [length]. lia. }
        exists (set_qty b (l_qty b - t)). split; [unfold best_ask; cbn [a_asks]; apply best_ask_shrink; [exact HBest|lia]|].
        change (l_price (set_qty b (l_qty b - t))) with (l_price b).
        apply budget_exhausted with (t := t); try assumption; try reflexivity; try lia; apply W. }
    destruct ALT as [LEN|(LEN & b & HB & HZ)].
    + pose proof (zlen_nonneg (a_asks A1)) as ZN1. eapply IH; try eassumption. eapply fits_less; [exact F1|]. lia.
    + rewrite bid_loop_eq by apply W1.
      assert (NA1 : op_st p = AbortTransaction -> no_own_ask A1) by (intros X; apply N1; congruence).
      destruct (bid_iter o1 A1 pr1 q1 L1 (match n with O => true | S _ => false end) _ C1 R1 W1 F1 ltac:(lia) NA1) as (o2 & pr2 & A2 & fee2 & rq & -> & S2 & _). cbn [rbind].
      destruct n; [eauto|]. destruct rq as [[q2 L2]|]; [|eauto]. exfalso.
      inversion S2; subst; name_step; rewrite HB in HBest; injection HBest as <-; lia.
Qed.
End Accept.
