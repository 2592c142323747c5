(** The model of matching.rs performs exactly the list-level steps of MatchSteps.v. *)
From Verif Require Import Base BaseProofs Fees FeesSpec FeesProofs Critbit CritbitProofs CritbitSlab CritbitOps
  CritbitSpec CritbitRefine ListSum Queue QueueSpec QueueProofs Codec Market Matching MatchSteps.

Definition outcome {X} (r : res X) (P : X -> Prop) (E : err -> Prop) : Prop :=
  match r with Ok x => P x | Err e => E e | Panic => False end.
Lemma outcome_bind {X Y} (r : res X) (f : X -> res Y) (Q : X -> Prop) P E :
  outcome r Q E -> (forall x, Q x -> outcome (f x) P E) -> outcome (rbind r f) P E.
Proof. destruct r; cbn; auto. Qed.
Lemma outcome_weaken {X} (r : res X) (P Q : X -> Prop) (E E' : err -> Prop) :
  outcome r P E -> (forall x, P x -> Q x) -> (forall e, E e -> E' e) -> outcome r Q E'.
Proof. destruct r; cbn; auto. Qed.
Lemma outcome_ok {X} (r : res X) (P : X -> Prop) E x : outcome r P E -> r = Ok x -> P x.
Proof. intros H ->. exact H. Qed.

(** [o] holds the orders and events of [A]. *)
Record rep (o : obs) (A : astate) : Prop := mkRep {
  r_bids_ok : slab_ok (ob_bids o);
  r_asks_ok : slab_ok (ob_asks o);
  r_bids : book (ob_bids o) = a_bids A;
  r_asks : book (ob_asks o) = a_asks A;
  r_q_ok : q_ok (ob_eq o);
  r_evs : q_list (ob_eq o) = map event_new (a_evs A)
}.
(** Capacities never change. *)
Definition keeps (o o' : obs) : Prop :=
  slab_cap (ob_bids o') = slab_cap (ob_bids o) /\ slab_cap (ob_asks o') = slab_cap (ob_asks o) /\
  zlen (q_buf (ob_eq o')) = zlen (q_buf (ob_eq o)).
Lemma keeps_refl o : keeps o o.
Proof. repeat split. Qed.
Lemma keeps_trans a b c : keeps a b -> keeps b c -> keeps a c.
Proof. unfold keeps. intuition congruence. Qed.
Lemma same_cap_slab s s' : same_cap s s' -> slab_cap s' = slab_cap s.
Proof. unfold same_cap, slab_cap. congruence. Qed.

Definition full_q (o : obs) (e : err) : Prop := e = EEventQueueFull.

Lemma emit_spec o A v : rep o A ->
  (emit o v = Err EEventQueueFull /\ zlen (a_evs A) = zlen (q_buf (ob_eq o))) \/
  (exists q', emit o v = Ok (set_eq o q') /\ rep (set_eq o q') (mkA (a_bids A) (a_asks A) (a_evs A ++ [v])) /\
     zlen (q_buf q') = zlen (q_buf (ob_eq o)) /\ zlen (a_evs A) < zlen (q_buf (ob_eq o))).
Proof.
  intros R. unfold emit. pose proof (r_evs _ _ R) as EV.
  assert (ZL : zlen (q_list (ob_eq o)) = zlen (a_evs A)).
  { rewrite EV. unfold zlen. rewrite map_length. reflexivity. }
  destruct (push_back_spec (ob_eq o) (event_new v) (r_q_ok _ _ R)) as [[E L]|(q' & E & L & Q & QL & B & _)];
    rewrite E; cbn [rbind].
  - left. split; [reflexivity|]. lia.
  - right. exists q'. split; [reflexivity|]. split; [|split; [assumption|lia]].
    constructor; cbn [set_eq ob_bids ob_asks ob_eq a_bids a_asks a_evs]; try apply R; [assumption|].
    rewrite QL, EV, map_app. reflexivity.
Qed.

Definition set_book (A : astate) (s : side) (bk : list leaf) : astate :=
  match s with Bid => mkA bk (a_asks A) (a_evs A) | Ask => mkA (a_bids A) bk (a_evs A) end.
Definition get_book (A : astate) (s : side) : list leaf :=
  match s with Bid => a_bids A | Ask => a_asks A end.

Lemma rep_slab o A s : rep o A -> slab_ok (orders_of o s) /\ book (orders_of o s) = get_book A s.
Proof. intros R. destruct s; split; apply R. Qed.
Lemma rep_set o A s sl bk : rep o A -> slab_ok sl -> book sl = bk -> rep (set_orders o s sl) (set_book A s bk).
Proof. intros R H1 H2. destruct s; constructor; cbn; try apply R; assumption. Qed.
Lemma keeps_set o s sl : same_cap (orders_of o s) sl -> keeps o (set_orders o s sl).
Proof. intros H. destruct s; repeat split; cbn in *; apply same_cap_slab; assumption. Qed.
Lemma rep_sorted_book o A s : rep o A -> sorted (get_book A s).
Proof. intros R. destruct (rep_slab o A s R) as [H1 H2]. rewrite <- H2. apply book_sorted. assumption. Qed.
Lemma rep_set_mkt o A m : rep o A -> rep (set_mkt o m) A.
Proof. intros R. constructor; cbn; apply R. Qed.

Lemma remove_spec o A s b : rep o A -> In b (get_book A s) ->
  exists sl, remove_order_by_key o s (l_key b) = Ok (set_orders o s sl) /\
    rep (set_orders o s sl) (set_book A s (ldel (l_key b) (get_book A s))) /\ keeps o (set_orders o s sl).
Proof.
  intros R Hb. destruct (rep_slab o A s R) as [H1 H2]. unfold remove_order_by_key.
  destruct (remove_by_key_spec (orders_of o s) (l_key b) H1) as (sl & E & K1 & K2 & K3).
  rewrite E, H2. rewrite (lfind_In _ _ b); [|apply (rep_sorted_book o A s R)|assumption|reflexivity].
  cbn [rbind unwrap]. exists sl. split; [reflexivity|]. split.
  - apply rep_set; [assumption..|]. rewrite K3, H2. reflexivity.
  - apply keeps_set. assumption.
Qed.
Lemma write_spec o A s h b q : rep o A -> leaf_at (orders_of o s) h b ->
  rep (write_qty o s h b q) (set_book A s (lset (set_qty b q) (get_book A s))) /\ keeps o (write_qty o s h b q).
Proof.
  intros R Hb. destruct (rep_slab o A s R) as [H1 H2]. unfold write_qty.
  destruct (slab_set_spec (orders_of o s) h b (set_qty b q) H1 Hb eq_refl) as (K1 & K2 & K3).
  split.
  - apply rep_set; [assumption..|]. rewrite K2, H2. reflexivity.
  - apply keeps_set. assumption.
Qed.
Lemma ldel_lset b b' l : l_key b' = l_key b -> ldel (l_key b) (lset b' l) = ldel (l_key b) l.
Proof.
  intros E. unfold ldel, lset. induction l as [|x l IH]; [reflexivity|]. cbn [map filter].
  destruct (l_key x =? l_key b') eqn:K.
  - replace (l_key b' =? l_key b) with true by lia. replace (l_key x =? l_key b) with true by lia. exact IH.
  - replace (l_key x =? l_key b) with false by lia. cbn [negb]. rewrite IH. reflexivity.
Qed.
Lemma set_book_set A s a b : set_book (set_book A s a) s b = set_book A s b.
Proof. destruct s; reflexivity. Qed.
Lemma get_set_book A s a : get_book (set_book A s a) s = a.
Proof. destruct s; reflexivity. Qed.
Lemma set_eq_orders o s sl q : set_orders (set_eq o q) s sl = set_eq (set_orders o s sl) q.
Proof. destruct s; reflexivity. Qed.

Lemma find_bbo_spec o A s : rep o A ->
  match first_leaf (match s with Bid => true | Ask => false end) (get_book A s) with
  | None => find_bbo o s = Ok None /\ get_book A s = []
  | Some l => exists h, find_bbo o s = Ok (Some h) /\ leaf_at (orders_of o s) h l /\ In l (get_book A s)
  end.
Proof.
  intros R. destruct (rep_slab o A s R) as [H1 H2].
  set (b := match s with Bid => true | Ask => false end).
  assert (E : find_bbo o s = find_min_max (orders_of o s) b) by (destruct s; reflexivity).
  pose proof (find_min_max_spec (orders_of o s) b H1) as F. rewrite H2 in F. rewrite E.
  destruct (first_leaf b (get_book A s)) as [l|] eqn:FL; [|exact F].
  destruct F as (h & F1 & F2). exists h. split; [assumption|]. split; [assumption|]. apply first_leaf_In in FL. assumption.
Qed.

Lemma post_spec o A s l : rep o A -> u128 (l_key l) -> lfind (l_key l) (get_book A s) = None ->
  2 < slab_cap (orders_of o s) ->
  (forall x, In x (get_book A s) -> 0 < l_price x) ->
  let cap := slab_cap (orders_of o s) in
  let worst := first_leaf (match s with Ask => true | Bid => false end) (get_book A s) in
  let nat_of w := match s with Ask => wmul (l_qty w) (m_coin_lot (ob_mkt o))
                             | Bid => wmul (wmul (l_qty w) (l_price w)) (m_pc_lot (ob_mkt o)) end in
  outcome (post_order o s l)
    (fun o' => keeps o o' /\ ob_mkt o' = ob_mkt o /\
       ((nodes_for (zlen (get_book A s) + 1) <= cap /\
         rep o' (set_book A s (lins l (get_book A s)))) \/
        (~ nodes_for (zlen (get_book A s) + 1) <= cap /\ exists w, worst = Some w /\
         rep o' (let A1 := set_book A s (lins l (ldel (l_key w) (get_book A s))) in
                 mkA (a_bids A1) (a_asks A1) (a_evs A ++ [out_of s true (nat_of w) 0 w])))))
    (full_q o).
Proof.
  intros R Hk Hf Hcap Hpos cap worst nat_of. destruct (rep_slab o A s R) as [H1 H2]. unfold post_order.
  destruct (insert_leaf_spec (orders_of o s) l H1 Hk) as (s1 & out & E & K1 & K2 & K3). rewrite E. cbn [rbind].
  rewrite H2 in K3. destruct out as [h old|].
  - destruct K3 as (B1 & B2 & _ & _ & B3). rewrite Hf in B2. cbn [outcome].
    split; [apply keeps_set; assumption|]. split; [destruct s; reflexivity|]. left.
    split; [apply B3; assumption|]. apply rep_set; assumption.
  - destruct K3 as (B1 & _ & B3).
    destruct (remove_extreme_spec s1 (match s with Ask => true | Bid => false end) K1) as (s2 & F1 & F2 & F3 & F4).
    rewrite F1. cbn [rbind]. rewrite B1 in F4 |- *. fold worst in F4 |- *.
    destruct worst as [w|] eqn:Ew.
    2:{ exfalso. apply first_leaf_None in Ew. rewrite Ew in *. cbn in B3. unfold cap in *. lia. }
    cbn [unwrap rbind].
    assert (Hw : In w (get_book A s)) by (eapply first_leaf_In; exact Ew).
    assert (EN : (match s with
                  | Ask => Ok (wmul (l_qty w) (m_coin_lot (ob_mkt o)))
                  | Bid => p <- leaf_price w ;; Ok (wmul (wmul (l_qty w) p) (m_pc_lot (ob_mkt o)))
                  end) = Ok (nat_of w)).
    { unfold nat_of. destruct s; [|reflexivity]. unfold leaf_price. specialize (Hpos w Hw).
      replace (l_price w =? 0) with false by lia. reflexivity. }
    rewrite EN. cbn [rbind].
    assert (R2 : rep (set_orders o s s2) (set_book A s (ldel (l_key w) (get_book A s)))).
    { apply rep_set; [assumption..|]. rewrite F4. reflexivity. }
    assert (C2 : same_cap (orders_of o s) s2) by (unfold same_cap in *; congruence).
    destruct (emit_spec _ _ (EvOut s true (nat_of w) 0 (l_key w) (l_owner w) (l_slot w) (l_cid w)) R2)
      as [[G _]|(q' & G & R3 & G2 & _)]; rewrite G; cbn [rbind outcome]; [reflexivity|].
    destruct (rep_slab _ _ s R3) as [S1 S2].
    destruct (insert_leaf_spec (orders_of (set_eq (set_orders o s s2) q') s) l S1 Hk) as (s3 & out2 & I1 & I2 & I3 & I4).
    rewrite I1. cbn [rbind].
    assert (O3 : orders_of (set_eq (set_orders o s s2) q') s = s2) by (destruct s; reflexivity).
    rewrite O3 in *.
    assert (GB : forall q'', get_book {| a_bids := a_bids (set_book A s (ldel (l_key w) (get_book A s)));
            a_asks := a_asks (set_book A s (ldel (l_key w) (get_book A s))); a_evs := q'' |} s = ldel (l_key w) (get_book A s))
      by (intros; destruct s; reflexivity).
    rewrite GB in S2. rewrite S2 in I4.
    assert (SO : sorted (get_book A s)) by (eapply rep_sorted_book; eassumption).
    assert (LF : lfind (l_key l) (ldel (l_key w) (get_book A s)) = None).
    { rewrite lfind_None in *. intros x Hx. apply ldel_In in Hx. apply Hf. apply Hx. }
    destruct out2 as [h2 old2|].
    + destruct I4 as (J1 & _). cbn [outcome].
      split; [|split].
      * apply keeps_trans with (set_orders o s s2); [apply keeps_set; assumption|].
        apply keeps_trans with (set_eq (set_orders o s s2) q').
        { repeat split; cbn; auto. }
        apply keeps_set. rewrite O3. assumption.
      * destruct s; reflexivity.
      * right. split; [unfold cap; lia|]. exists w. split; [reflexivity|].
        assert (A2 : forall X Y : astate, a_bids X = a_bids Y -> a_asks X = a_asks Y -> a_evs X = a_evs Y -> X = Y)
          by (intros [] []; cbn; congruence).
        pose proof (rep_set _ _ s s3 _ R3 I2 J1) as R4.
        match type of R4 with rep _ ?X => match goal with |- rep _ ?Y => replace Y with X; [exact R4|] end end.
        destruct s; reflexivity.
    + exfalso. destruct I4 as (_ & _ & J3).
      assert (zlen (ldel (l_key w) (get_book A s)) = zlen (get_book A s) - 1).
      { apply ldel_len_some with w; [assumption|]. apply lfind_In; auto. }
      pose proof (book_cap _ H1) as BC. rewrite H2 in BC. apply same_cap_slab in C2.
      rewrite H in J3. replace (zlen (get_book A s) - 1 + 1) with (zlen (get_book A s)) in J3 by lia. lia.
Qed.

(** Continuation forms. *)
Definition addev (A : astate) (l : list event_view) : astate := mkA (a_bids A) (a_asks A) (a_evs A ++ l).
Lemma addev_addev A l l' : addev (addev A l) l' = addev A (l ++ l').
Proof. unfold addev. cbn. rewrite app_assoc. reflexivity. Qed.
Lemma addev_nil A : addev A [] = A.
Proof. unfold addev. rewrite app_nil_r. destruct A; reflexivity. Qed.
Lemma get_book_addev A l s : get_book (addev A l) s = get_book A s.
Proof. destruct s; reflexivity. Qed.
Lemma set_book_addev A l s bk : set_book (addev A l) s bk = addev (set_book A s bk) l.
Proof. destruct s; reflexivity. Qed.

Lemma emit_out {X} o A v (f : obs -> res X) P (E : err -> Prop) :
  rep o A -> E EEventQueueFull ->
  (forall q', rep (set_eq o q') (addev A [v]) -> keeps o (set_eq o q') -> outcome (f (set_eq o q')) P E) ->
  outcome (rbind (emit o v) f) P E.
Proof.
  intros R HE H. destruct (emit_spec o A v R) as [[G _]|(q' & G & R' & K & _)]; rewrite G; cbn [rbind].
  - exact HE.
  - apply H; [exact R'|]. repeat split; cbn; auto.
Qed.
Lemma remove_out {X} o A s b (f : obs -> res X) P E :
  rep o A -> In b (get_book A s) ->
  (forall sl, rep (set_orders o s sl) (set_book A s (ldel (l_key b) (get_book A s))) ->
     keeps o (set_orders o s sl) -> outcome (f (set_orders o s sl)) P E) ->
  outcome (rbind (remove_order_by_key o s (l_key b)) f) P E.
Proof.
  intros R Hb H. destruct (remove_spec o A s b R Hb) as (sl & E1 & R1 & K1). rewrite E1. cbn [rbind]. auto.
Qed.

Lemma w64_small x : 0 <= x < B64 -> w64 x = x.
Proof. intros. unfold w64. apply Z.mod_small. assumption. Qed.
Lemma wmul_small a b : 0 <= a * b < B64 -> wmul a b = a * b.
Proof. intros. apply w64_small. assumption. Qed.
Lemma wadd_small a b : 0 <= a + b < B64 -> wadd a b = a + b.
Proof. intros. apply w64_small. assumption. Qed.
Lemma wsub_small a b : 0 <= a - b < B64 -> wsub a b = a - b.
Proof. intros. apply w64_small. assumption. Qed.
Lemma cadd_small a b : a + b < B64 -> cadd a b = Ok (a + b).
Proof. intros. unfold cadd. replace (a + b <? B64) with true by lia. reflexivity. Qed.

(** Market counters in range. *)
Definition mkt_u64 (m : market) : Prop := u64 (m_pc_deposits m) /\ u64 (m_pc_fees m) /\ u64 (m_rebates m).
Lemma accrue_0 m : mkt_u64 m -> accrue m 0 0 = m.
Proof.
  intros (H1 & H2 & H3). unfold accrue, referrer_rebate, u64 in *.
  change (wsub 0 0) with 0. change (0 / 5) with 0. change (wsub 0 0) with 0.
  rewrite wsub_small, !wadd_small by lia. rewrite !Z.add_0_r, Z.sub_0_r. destruct m; reflexivity.
Qed.
Lemma accrue_u64 m f r : mkt_u64 (accrue m f r).
Proof.
  unfold mkt_u64, accrue, u64. cbn [set_counters m_pc_deposits m_pc_fees m_rebates].
  unfold wsub, wadd, w64. repeat split; lia.
Qed.
Lemma accrue_fields m f r :
  m_coin_lot (accrue m f r) = m_coin_lot m /\ m_pc_lot (accrue m f r) = m_pc_lot m.
Proof. split; reflexivity. Qed.

(** Orders whose value fits in 64 bits. *)
Definition tier_ok (l : leaf) : Prop := tier_of_u8 (l_tier l) <> None.
Definition bid_val (pl : Z) (l : leaf) : Z := l_qty l * l_price l * pl.
Definition ask_val (cl : Z) (l : leaf) : Z := l_qty l * cl.
Definition bid_fit (pl : Z) (l : leaf) : Prop :=
  0 < l_qty l /\ 0 < l_price l /\ bid_val pl l < B64 /\ tier_ok l.
Definition ask_fit (cl : Z) (l : leaf) : Prop :=
  0 < l_qty l /\ 0 < l_price l /\ ask_val cl l < B64 /\ tier_ok l.
Lemma tier_of_leaf_ok l : tier_ok l -> tier_of_leaf l = Ok (leaf_tier l).
Proof. unfold tier_ok, tier_of_leaf, leaf_tier. destruct (tier_of_u8 (l_tier l)); cbn; congruence. Qed.
Lemma mul_le_r a b c : a <= b -> 0 <= c -> a * c <= b * c.
Proof. nia. Qed.
Lemma part_bounds a n price pl M : 0 <= a <= n -> 0 < price -> 0 < pl -> n * price * pl < M ->
  0 <= a < M /\ 0 <= a * price < M /\ 0 <= a * price * pl < M /\ a * price * pl <= n * price * pl.
Proof.
  intros. assert (0 < price * pl) by nia.
  assert (a * (price * pl) <= n * (price * pl)) by nia. assert (0 <= a * (price * pl)) by nia.
  assert (a * price <= a * price * pl) by nia. assert (a <= a * price) by nia. nia.
Qed.
Lemma part_bounds1 a n cl M : 0 <= a <= n -> 0 < cl -> n * cl < M ->
  0 <= a < M /\ 0 <= a * cl < M /\ a * cl <= n * cl.
Proof. intros. nia. Qed.
