(** Consequences of [new_order_result], one per property. *)
From Verif Require Import Base BaseProofs Fees FeesSpec FeesProofs Critbit CritbitProofs CritbitSlab CritbitOps
  CritbitSpec CritbitRefine ListSum Queue QueueSpec QueueProofs Codec Market Matching MatchSteps MatchRefine
  MatchAsk MatchBid MatchRun Ledger LedgerSteps LedgerSums MatchSpec LedgerRun MatchReport MatchOrder.

Lemma mkt_after_0 m : mkt_u64 m -> mkt_after m 0 0 = m.
Proof. intros H. rewrite <- (accrue_0 m H) at 2. symmetry. apply (accrue_after (mkParams 0 0 0 TBase 0 DecrementTake false) m 0). Qed.

(** Taking quantities out of a book only reduces orders. *)
Lemma same_order_trans a b c : same_order a b -> same_order b c -> same_order a c.
Proof. unfold same_order. intuition; try congruence; lia. Qed.
Lemma same_order_refl a : same_order a a.
Proof. unfold same_order. intuition; lia. Qed.
Lemma rounds_less k q bk tr q' bk' : rounds k q bk tr q' bk' ->
  forall l, In l bk' -> exists l0, In l0 bk /\ same_order l0 l.
Proof.
  induction 1 as [q bk|q bk b t tr q' bk' B _ T _ _ _ _ IH]; intros l Hl.
  - exists l. split; [assumption|apply same_order_refl].
  - destruct (IH l Hl) as (l1 & H1 & S1). unfold take_from in H1. apply in_flat_map in H1. destruct H1 as (x & Hx & Hl1).
    exists x. split; [assumption|]. eapply same_order_trans; [|exact S1].
    destruct (l_key x =? l_key b).
    + destruct (l_qty x =? t); [destruct Hl1|]. destruct Hl1 as [<-|[]]. unfold same_order. cbn. intuition lia.
    + destruct Hl1 as [<-|[]]. apply same_order_refl.
Qed.
Lemma rounds_q k q bk tr q' bk' : rounds k q bk tr q' bk' -> q' = q - zsum (used k) tr /\ (0 <= q -> 0 <= q').
Proof. induction 1; cbn [zsum]; lia. Qed.
Lemma rounds_used k q bk tr q' bk' : rounds k q bk tr q' bk' ->
  0 <= zsum (tr_coin k) tr <= zsum (used k) tr.
Proof.
  induction 1 as [q bk|q bk b t tr q' bk' B _ T _ _ _ _ IH]; cbn [zsum]; [lia|].
  unfold tr_coin at 1 3, used at 1. destruct (self k (b, t)); cbn [snd]; [|lia]. destruct (tk_st k); lia.
Qed.
Lemma rounds_fees pl k q bk tr q' bk' : rounds k q bk tr q' bk' -> 0 <= pl -> (forall b t, In (b, t) tr -> 0 <= l_price b) ->
  0 <= zsum (tr_value pl k) tr.
Proof.
  induction 1 as [q bk|q bk b t tr q' bk' B _ T _ _ _ _ IH]; cbn [zsum]; intros P PR; [lia|].
  assert (0 <= zsum (tr_value pl k) tr) by (apply IH; [assumption|]; intros; eapply PR; right; eassumption).
  unfold tr_value at 1. destruct (self k (b, t)); [lia|]. unfold value. cbn [fst snd].
  assert (0 <= t * l_price b * pl).
  { apply Z.mul_nonneg_nonneg; [apply Z.mul_nonneg_nonneg|]; try lia. apply (PR b t). left. reflexivity. }
  lia.
Qed.

Section Facts.
Variables (o : obs) (A : astate) (sd : side) (ot : order_type) (id owner slot : Z) (t : tier)
  (qty pc cid : Z) (st : self_trade) (limit : nat) (o' : obs) (pr : proceeds) (rem : remaining).
Let cl := m_coin_lot (ob_mkt o). Let pl := m_pc_lot (ob_mkt o).
Let k := the_taker sd id owner slot t cid st.
Hypothesis (HR : rep o A) (RD : ready o A sd ot id owner qty pc st)
  (HN : new_order o sd ot id owner slot t qty pc cid st limit = Ok (o', pr, rem))
  (NW : owner <> 0 \/ spent o sd pr < B64).

Lemma result : rem = None /\ exists A' tr q' n E F R,
  order_result o A sd ot id owner slot t qty pc cid st limit o' pr A' tr q' n E F R.
Proof.
  pose proof (new_order_result o A sd ot id owner slot t qty pc cid st limit HR RD) as H.
  rewrite HN in H. cbn in H. destruct H as (E & H1 & H2 & H3 & _). split; [assumption|]. apply H1.
  destruct NW as [N|N]; [auto|assumption].
Qed.

Lemma ioc : ot = ImmediateOrCancel ->
  exists A', rep o' A' /\ forall s l, In l (book_of A' s) -> exists l0, In l0 (book_of A s) /\ same_order l0 l.
Proof.
  intros EO. destruct result as (_ & A' & tr & q' & n & E & F & R & H).
  exists A'. split; [apply H|]. pose proof (or_report _ _ _ _ _ _ _ _ _ _ _ _ _ _ _ _ _ _ _ _ _ _ H) as RP.
  destruct RP as [r1 r2 r3 (gs & Ee & r4 & r5 & r6)].
  intros s l Hl. destruct (side_cases sd s) as [->| ->].
  - rewrite EO in r6. inversion r6; subst; try discriminate. exists l.
    split; [congruence|apply same_order_refl].
  - eapply rounds_less; eauto.
Qed.

Lemma finish_nofill hr al can opp own own' E n : finish cl pl k hr al can opp own own' E n -> nofill E.
Proof.
  intros H v Hv. inversion H; subst.
  - destruct H0 as [->|[_ [u ->]]]; [destruct Hv|]. destruct Hv as [<-|[]]. reflexivity.
  - match goal with G : E = [] \/ _ |- _ => destruct G as [->|(_ & u & s & ->)] end; [destruct Hv|]. destruct Hv as [<-|[]]. reflexivity.
  - apply in_app_or in Hv. destruct Hv as [Hv|[<-|[]]]; [|reflexivity].
    match goal with G : ?X = [] \/ _ |- _ => destruct G as [->|(_ & u & s & ->)] end; [destruct Hv|]. destruct Hv as [<-|[]]. reflexivity.
Qed.

Lemma finish_cases hr al can opp own own' E n : finish cl pl k hr al can opp own own' E n ->
  let l := mkLeaf slot (tier_to_u8 t) id owner n cid in
  (own' = own /\ n = 0 /\ (can = 0 \/ al = false \/ exists x, In x opp /\ within sd (id / B64) (l_price x))) \/
  (n = can /\ 0 < n /\ al = true /\ (forall x, In x opp -> ~ within sd (id / B64) (l_price x)) /\ hr /\ own' = lins l own) \/
  (n = can /\ 0 < n /\ al = true /\ (forall x, In x opp -> ~ within sd (id / B64) (l_price x)) /\ ~ hr /\
   exists w E0, worst_of sd w own /\ own' = lins l (ldel (l_key w) own) /\
     E = E0 ++ [EvOut sd true (backing cl pl sd (l_qty w) (l_price w)) 0 (l_key w) (l_owner w) (l_slot w) (l_cid w)]).
Proof.
  intros H. inversion H; subst.
  - left. auto.
  - right. left. auto 10.
  - right. right. repeat (split; [assumption || reflexivity|]). exists w. eexists. split; [assumption|]. split; reflexivity.
Qed.

(** A post-only order. *)
Lemma post_only_facts : ot = PostOnly ->
  exists A' E, rep o' A' /\ a_evs A' = a_evs A ++ E /\ nofill E /\ ob_mkt o' = ob_mkt o /\
    book_of A' (other sd) = book_of A (other sd) /\
    p_coin_debit pr = 0 /\ p_pc_debit pr = 0 /\ p_coin_credit pr = 0 /\ p_pc_credit pr = 0 /\
    (book_of A' sd = book_of A sd \/
     exists n, let l := mkLeaf slot (tier_to_u8 t) id owner n cid in
       0 < n <= qty /\
       (book_of A' sd = lins l (book_of A sd) \/
        ~ room o A sd /\ exists w, worst_of sd w (book_of A sd) /\ book_of A' sd = lins l (ldel (l_key w) (book_of A sd)))) /\
    ((exists x, In x (book_of A (other sd)) /\ within sd (id / B64) (l_price x)) ->
     book_of A' sd = book_of A sd /\ p_coin_unlocked pr = match sd with Ask => qty | Bid => 0 end /\
     p_pc_unlocked pr = match sd with Ask => 0 | Bid => pc end).
Proof.
  intros EO. assert (NZ : owner <> 0) by (intros X; destruct (rd_st _ _ _ _ _ _ _ _ _ RD X); congruence).
  assert (NST : forall p, op_owner p = owner -> is_send_take p = false) by (intros p X; unfold is_send_take, system_id; lia).
  destruct result as (_ & A' & tr & q' & n & E & F & R & H).
  destruct H as [h1 h2 h3 h4 h5 h6 _]. destruct h5 as [r1 r2 r3 (gs & Ee & r4 & r5 & r6)].
  rewrite EO in *. specialize (r3 eq_refl). subst tr. inversion r5; subst gs. cbn [concat app] in r4. subst Ee.
  inversion r1. subst q' . assert (OPP : book_of A' (other sd) = book_of A (other sd)) by congruence.
  assert (FR : F = 0 /\ R = 0) by (destruct sd; destruct h6 as [a1 a2 a3 a4 a5 a6]; cbn [zsum] in *; auto).
  destruct FR as [-> ->].
  exists A', E. split; [assumption|]. split; [assumption|].
  split; [eapply finish_nofill; exact r6|].
  split; [rewrite h3; apply mkt_after_0, (rd_mkt _ _ _ _ _ _ _ _ _ RD)|].
  split; [assumption|].
  assert (ZZ : p_coin_debit pr = 0 /\ p_pc_debit pr = 0 /\ p_coin_credit pr = 0 /\ p_pc_credit pr = 0).
  { destruct sd; destruct h6 as [a1 a2 a3 a4 a5 (a6 & a7 & a8)]; cbn [zsum pr_zero p_coin_debit p_pc_debit p_coin_credit p_pc_credit] in *; auto. }
  destruct ZZ as (Z1 & Z2 & Z3 & Z4). repeat (split; [assumption|]).
  pose proof (rd_qty _ _ _ _ _ _ _ _ _ RD) as Q.
  split.
  - destruct (finish_cases _ _ _ _ _ _ _ _ r6) as [(C1 & _)|[(C1 & C2 & _ & _ & _ & C3)|(C1 & C2 & _ & _ & C3 & w & E0 & C4 & C5 & _)]].
    + left. assumption.
    + right. exists n. split; [destruct sd; cbn [tk_side the_taker] in *; lia|]. left. assumption.
    + right. exists n. split; [destruct sd; cbn [tk_side the_taker] in *; lia|]. right. split; [assumption|]. exists w. split; assumption.
  - intros (x & Hx & Wx). assert (N0 : book_of A' sd = book_of A sd /\ n = 0).
    { destruct (finish_cases _ _ _ _ _ _ _ _ r6) as [(C1 & C2 & _)|[(_ & _ & _ & C3 & _)|(_ & _ & _ & C3 & _)]];
        [split; assumption| |]; exfalso; apply (C3 x); [congruence|exact Wx|congruence|exact Wx]. }
    destruct N0 as [N1 ->]. split; [assumption|].
    destruct sd; destruct h6 as [a1 a2 a3 a4 a5 (a6 & a7 & a8)]; rewrite NST in a5 by reflexivity;
      cbn [zsum pr_zero p_coin_unlocked p_pc_unlocked] in *; lia.
Qed.

(** Every fill. *)
Lemma trades : exists A' tr q' gs Eend, rep o' A' /\ a_evs A' = a_evs A ++ concat gs ++ Eend /\
  rounds k qty (book_of A (other sd)) tr q' (book_of A' (other sd)) /\ Forall2 (reported cl pl k) tr gs /\ nofill Eend.
Proof.
  destruct result as (_ & A' & tr & q' & n & E & F & R & H).
  destruct H as [h1 h2 h3 h4 h5 h6 _]. destruct h5 as [r1 r2 r3 (gs & Ee & r4 & r5 & r6)].
  exists A', tr, q', gs, Ee. split; [assumption|]. split; [rewrite h4, r4; reflexivity|]. split; [assumption|].
  split; [assumption|]. eapply finish_nofill; exact r6.
Qed.

Lemma rounds_self k0 q bk tr q' bk' : rounds k0 q bk tr q' bk' -> forall b n, In (b, n) tr -> l_owner b = tk_owner k0 ->
  tk_st k0 <> AbortTransaction /\ (tk_st k0 = CancelProvide -> n = l_qty b).
Proof.
  induction 1 as [q bk|q bk b n tr q' bk' B _ T _ _ S _ IH]; intros b0 n0 Hin Ho; [destruct Hin|].
  destruct Hin as [E|Hin]; [|eauto]. inversion E; subst. apply S. unfold self. cbn. lia.
Qed.
Lemma self_trades : exists A' tr q' gs Eend, rep o' A' /\ a_evs A' = a_evs A ++ concat gs ++ Eend /\
    rounds k qty (book_of A (other sd)) tr q' (book_of A' (other sd)) /\
    Forall2 (reported cl pl k) tr gs /\
    (forall b n, In (b, n) tr -> l_owner b = owner ->
       st <> AbortTransaction /\
       (st = CancelProvide -> n = l_qty b /\ used k (b, n) = 0) /\
       (st = DecrementTake -> used k (b, n) = n) /\
       tr_fee pl k (b, n) = 0) /\
    (forall b n g, In ((b, n), g) (combine tr gs) -> l_owner b = owner -> nofill g).
Proof.
  destruct trades as (A' & tr & q' & gs & Ee & h1 & h2 & h3 & h4 & _).
  exists A', tr, q', gs, Ee. split; [assumption|]. split; [assumption|]. split; [assumption|]. split; [assumption|].
  assert (SE : forall b n, l_owner b = owner -> self k (b, n) = true) by (intros; unfold self; cbn; lia).
  split.
  - intros b n Hin Ho. destruct (rounds_self _ _ _ _ _ _ h3 b n Hin Ho) as [S1 S2]. cbn [k the_taker tk_st] in S1, S2.
    split; [assumption|]. unfold used, tr_fee. rewrite (SE b n Ho). cbn [k the_taker tk_st snd]. split; [|split; [|reflexivity]].
    + intros X. split; [auto|]. rewrite X. reflexivity.
    + intros X. rewrite X. reflexivity.
  - intros b n g Hin Ho. clear h2 h3. revert Hin. induction h4 as [|x g0 tr gs RP _ IH]; cbn [combine]; [intros []|].
    intros [E|Hin]; [|auto]. inversion E; subst. unfold reported in RP. rewrite (SE b n eq_refl) in RP.
    destruct RP as (u & s & ->). intros v [<-|[<-|[]]]; reflexivity.
Qed.

(** The money. *)
Lemma spending : exists A' tr q' n, rep o' A' /\
  rounds k qty (book_of A (other sd)) tr q' (book_of A' (other sd)) /\
  0 <= n /\ n + zsum (tr_coin k) tr <= qty /\
  match sd with
  | Ask => p_coin_debit pr = zsum (tr_coin k) tr /\ p_pc_credit pr = zsum (tr_value pl k) tr - zsum (tr_fee pl k) tr /\
           (owner <> 0 -> p_coin_debit pr + p_coin_unlocked pr + n = qty)
  | Bid => p_coin_credit pr = zsum (tr_coin k) tr /\ p_pc_debit pr = zsum (tr_value pl k) tr + zsum (tr_fee pl k) tr /\
           p_pc_debit pr <= pc /\ (owner <> 0 -> p_pc_debit pr + p_pc_unlocked pr + n * (id / B64) * pl = pc)
  end /\
  (book_of A' sd = book_of A sd /\ n = 0 \/
   0 < n /\ In (mkLeaf slot (tier_to_u8 t) id owner n cid) (book_of A' sd)).
Proof.
  destruct result as (_ & A' & tr & q' & n & E & F & R & H).
  destruct H as [h1 h2 h3 h4 h5 h6 h7]. destruct h5 as [r1 r2 r3 (gs & Ee & r4 & r5 & r6)].
  exists A', tr, q', n. split; [assumption|]. split; [assumption|].
  pose proof (rounds_q _ _ _ _ _ _ r1) as [Q1 Q2]. pose proof (rounds_used _ _ _ _ _ _ r1) as U.
  pose proof (rd_qty _ _ _ _ _ _ _ _ _ RD) as Q.
  assert (N : 0 <= n <= q').
  { destruct (finish_cases _ _ _ _ _ _ _ _ r6) as [(_ & C2 & _)|[(C1 & C2 & _)|(C1 & C2 & _)]];
      [lia| |]; cbn [tk_side the_taker] in *; destruct sd; lia. }
  split; [lia|]. split; [fold k in U, Q1; lia|]. split.
  - destruct sd; destruct h6 as [a1 a2 a3 a4 a5 (a6 & a7 & a8)]; cbn [pr_zero p_coin_debit p_pc_debit p_coin_credit p_pc_credit p_coin_unlocked p_pc_unlocked] in *.
    + change (tk_of (params ot id owner slot t cid st) Bid) with k in *. fold pl in a1, a2, a3, a5.
      split; [lia|]. split; [rewrite a1, a3; lia|]. split.
      * destruct h7 as [_ _ [_ _ _ _ _ _ s7 s8] _ _]. cbn [pr_zero p_pc_unlocked p_pc_debit] in *. lia.
      * intros NZ. unfold is_send_take, system_id, price_of_id in a5. cbn [params op_owner op_order_id] in a5.
        replace (owner =? 0) with false in a5 by lia. lia.
    + change (tk_of (params ot id owner slot t cid st) Ask) with k in *. fold pl in a1, a2, a3, a5.
      split; [lia|]. split; [rewrite a2, a3; lia|].
      intros NZ. unfold is_send_take, system_id in a5. cbn [params op_owner op_order_id] in a5.
      replace (owner =? 0) with false in a5 by lia. lia.
  - destruct (finish_cases _ _ _ _ _ _ _ _ r6) as [(C1 & C2 & _)|[(_ & C2 & _ & _ & _ & C3)|(_ & C2 & _ & _ & _ & w & E0 & _ & C3 & _)]].
    + left. split; assumption.
    + right. split; [lia|]. rewrite C3. apply lins_In_iff; [|auto]. rewrite <- get_book_of. apply (rep_sorted_book o A sd HR).
    + right. split; [lia|]. rewrite C3. apply lins_In_iff; [|auto]. apply ldel_sorted. rewrite <- get_book_of. apply (rep_sorted_book o A sd HR).
Qed.

(** The limit. *)
Lemma limits : exists A' tr q', rep o' A' /\ rem = None /\
  rounds k qty (book_of A (other sd)) tr q' (book_of A' (other sd)) /\ (length tr <= limit)%nat /\
  ((exists x, In x (book_of A' (other sd)) /\ within sd (id / B64) (l_price x)) -> book_of A' sd = book_of A sd) /\
  (ot <> ImmediateOrCancel -> sd = Ask -> 0 < q' ->
   (forall x, In x (book_of A' (other sd)) -> ~ within sd (id / B64) (l_price x)) ->
   In (mkLeaf slot (tier_to_u8 t) id owner q' cid) (book_of A' sd)).
Proof.
  destruct result as (-> & A' & tr & q' & n & E & F & R & H).
  destruct H as [h1 h2 h3 h4 h5 h6 h7]. destruct h5 as [r1 r2 r3 (gs & Ee & r4 & r5 & r6)].
  exists A', tr, q'. split; [assumption|]. split; [reflexivity|]. split; [assumption|]. split; [assumption|]. split.
  - intros (x & Hx & Wx).
    destruct (finish_cases _ _ _ _ _ _ _ _ r6) as [(C1 & _)|[(_ & _ & _ & C3 & _)|(_ & _ & _ & C3 & _)]];
      [assumption| |]; exfalso; apply (C3 x Hx Wx).
  - intros NI ES Q0 NX.
    assert (SO : sorted (book_of A sd)) by (rewrite <- get_book_of; apply (rep_sorted_book o A sd HR)).
    destruct (finish_cases _ _ _ _ _ _ _ _ r6) as [(_ & _ & C)|[(C1 & C2 & _ & _ & _ & C3)|(C1 & C2 & _ & _ & _ & w & E0 & _ & C3 & _)]];
      cbn [tk_side the_taker] in *; rewrite ES in *.
    + exfalso. destruct C as [C|[C|(x & Hx & Wx)]].
      * lia.
      * destruct ot; [discriminate|contradiction|discriminate].
      * apply (NX x Hx Wx).
    + rewrite C3. subst n. apply lins_In_iff; [assumption|auto].
    + rewrite C3. subst n. apply lins_In_iff; [apply ldel_sorted; assumption|auto].
Qed.

(** Eviction. *)
Lemma eviction : ~ room o A sd ->
  exists A' E, rep o' A' /\ a_evs A' = a_evs A ++ E /\
  (book_of A' sd = book_of A sd \/
   exists w n E0, worst_of sd w (book_of A sd) /\ 0 < n /\
     (forall l, In l (book_of A' sd) <->
        l = mkLeaf slot (tier_to_u8 t) id owner n cid \/ In l (book_of A sd) /\ l_key l <> l_key w) /\
     E = E0 ++ [EvOut sd true (backing cl pl sd (l_qty w) (l_price w)) 0 (l_key w) (l_owner w) (l_slot w) (l_cid w)]).
Proof.
  intros NR. destruct result as (_ & A' & tr & q' & n & E & F & R & H).
  destruct H as [h1 h2 h3 h4 h5 h6 h7]. destruct h5 as [r1 r2 r3 (gs & Ee & r4 & r5 & r6)].
  exists A', E. split; [assumption|]. split; [assumption|].
  assert (SO : sorted (book_of A sd)) by (rewrite <- get_book_of; apply (rep_sorted_book o A sd HR)).
  destruct (finish_cases _ _ _ _ _ _ _ _ r6) as [(C1 & _)|[(_ & _ & _ & _ & C3 & _)|(C1 & C2 & _ & _ & _ & w & E0 & C4 & C3 & C5)]].
  - left. assumption.
  - contradiction.
  - right. exists w, n, (concat gs ++ E0). split; [assumption|]. split; [lia|]. split.
    + rewrite C3. intros l. rewrite lins_In_iff by (apply ldel_sorted; assumption).
      rewrite ldel_In. cbn [l_key].
      pose proof (rd_fresh _ _ _ _ _ _ _ _ _ RD) as FR. split.
      * intros [->|[[H1 H2] H3]]; [left; reflexivity|right; auto].
      * intros [->|[H1 H2]]; [left; reflexivity|right]. split; [auto|]. apply FR. assumption.
    + rewrite r4, C5, app_assoc. reflexivity.
Qed.

Lemma stays_uncrossed : uncrossed (a_bids A) (a_asks A) -> exists A', rep o' A' /\ uncrossed (a_bids A') (a_asks A').
Proof.
  intros U. destruct result as (_ & A' & tr & q' & n & E & F & R & H).
  exists A'. split; [apply H|]. destruct H as [_ _ _ _ _ _ h7]. destruct sd; destruct h7 as [_ _ _ u _]; exact (u U).
Qed.
End Facts.

Lemma never_panics o A sd ot id owner slot t qty pc cid st limit :
  rep o A -> ready o A sd ot id owner qty pc st ->
  match new_order o sd ot id owner slot t qty pc cid st limit with
  | Ok (_, _, rem) => rem = None
  | Err e => e = EEventQueueFull \/ e = EWouldSelfTrade
  | Panic => False
  end.
Proof.
  intros R RD. pose proof (new_order_result o A sd ot id owner slot t qty pc cid st limit R RD) as H.
  destruct (new_order _ _ _ _ _ _ _ _ _ _ _ _) as [[[x y] z]|e|]; cbn in H; [apply H|exact H|exact H].
Qed.

Lemma taker_fee_nonneg t x : 0 <= taker_fee t x.
Proof. unfold taker_fee, wadd, w64. lia. Qed.
Lemma abort_refuses o A sd ot id owner slot t qty pc cid limit b :
  rep o A -> ready o A sd ot id owner qty pc AbortTransaction ->
  best_of (other sd) b (book_of A (other sd)) -> within sd (id / B64) (l_price b) -> l_owner b = owner ->
  ot <> PostOnly -> (0 < limit)%nat ->
  (sd = Bid -> l_price b * m_pc_lot (ob_mkt o) + taker_fee t (l_price b * m_pc_lot (ob_mkt o)) <= pc) ->
  new_order o sd ot id owner slot t qty pc cid AbortTransaction limit = Err EWouldSelfTrade.
Proof.
  intros R RD BB WI OW PO LI AFF. destruct RD as [r1 r2 r3 r4 r5 r6 r7 r8 r9 r10 r11 r12 r13].
  destruct (rep_sorted o A R) as [SB SA]. destruct limit as [|limit]; [lia|].
  assert (P0 : ot_post_only ot = false) by (destruct ot; [reflexivity..|congruence]).
  unfold new_order. cbn [new_order_loop]. rewrite P0. cbn [op_order_id]. change (price_of_id id) with (id / B64).
  pose proof (find_bbo_spec o A (other sd) R) as FB. destruct sd; cbn [other book_of] in *.
  - replace (pc =? 0) with false by (pose proof (r13 eq_refl); lia). cbn [negb passert rbind]. unfold new_bid.
    set (lim := id / B64) in *. replace (lim =? 0) with false by lia. cbn [negb op_tier op_post_allowed op_owner op_st].
    destruct (remove_taker_fee_ok t pc) as (n & EN & N1 & N2); [unfold u64; pose proof (r13 eq_refl); lia|].
    assert (AS : (if ot_post_allowed ot then check true EAssert else Ok tt) = Ok tt) by (destruct (ot_post_allowed ot); reflexivity).
    rewrite AS, EN. cbn [rbind]. replace (m_pc_lot (ob_mkt o) =? 0) with false by lia.
    cbn [get_book] in FB. destruct (first_leaf false (a_asks A)) as [b'|] eqn:EB; [|destruct FB as [_ FB]; rewrite FB in BB; destruct BB as [[] _]].
    assert (b' = b).
    { destruct (best_ask_best A b' SA EB) as [I1 I2]. destruct BB as [I3 I4]. destruct (I4 b' I1) as [|X]; [assumption|].
      destruct (I2 b I3) as [|Y]; [congruence|]. unfold before in *. lia. }
    subst b'. destruct FB as (h & -> & HL & Hb). cbn [rbind]. unfold get_leaf. destruct HL as [HL0 HLb].
    cbn [orders_of] in HL0. rewrite HL0. cbn [rbind].
    destruct (f_asks _ _ _ r6 b Hb) as (F1 & F2 & F3 & F4). unfold leaf_price.
    replace (l_price b =? 0) with false by lia. cbn [rbind]. cbn [within] in WI.
    replace (l_price b <=? lim) with true by lia. cbn [negb orb].
    specialize (AFF eq_refl). set (v := l_price b * m_pc_lot (ob_mkt o)) in *.
    assert (V : v <= n).
    { pose proof (taker_fee_nonneg t v). assert (UV : u64 v) by (unfold u64; pose proof (r13 eq_refl); unfold v; nia).
      destruct (taker_fee_spec t v UV) as [S1 _]. pose proof (taker_rate_bounds t). clearbody v. nia. }
    assert (D : 1 <= n / m_pc_lot (ob_mkt o) / l_price b).
    { apply Z.div_le_lower_bound; [lia|]. apply Z.div_le_lower_bound; [lia|]. unfold v in V. lia. }
    replace (Z.min (Z.min (l_qty b) qty) (n / m_pc_lot (ob_mkt o) / l_price b) =? 0) with false by lia.
    rewrite OW, Z.eqb_refl. reflexivity.
  - destruct (r12 eq_refl) as (-> & _). cbn [Z.eqb passert rbind]. set (lim := id / B64) in *.
    replace (lim =? 0) with false by lia. cbn [negb passert rbind]. unfold new_ask.
    cbn [get_book] in FB. destruct (first_leaf true (a_bids A)) as [b'|] eqn:EB; [|destruct FB as [_ FB]; rewrite FB in BB; destruct BB as [[] _]].
    assert (b' = b).
    { destruct (best_bid_best A b' SB EB) as [I1 I2]. destruct BB as [I3 I4]. destruct (I4 b' I1) as [|X]; [assumption|].
      destruct (I2 b I3) as [|Y]; [congruence|]. unfold before in *. lia. }
    subst b'. destruct FB as (h & -> & HL & Hb). cbn [rbind]. unfold get_leaf. destruct HL as [HL0 HLb].
    cbn [orders_of] in HL0. rewrite HL0. cbn [rbind].
    destruct (f_bids _ _ _ r6 b Hb) as (F1 & F2 & F3 & F4). unfold leaf_price.
    replace (l_price b =? 0) with false by lia. cbn [rbind]. cbn [within] in WI.
    replace (lim <=? l_price b) with true by lia. cbn [negb orb].
    replace (Z.min (l_qty b) qty =? 0) with false by lia. cbn [op_owner op_st].
    rewrite OW, Z.eqb_refl. reflexivity.
Qed.
