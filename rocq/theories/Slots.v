(** The slot bitmaps of an open-orders account. *)
From Verif Require Import Base BaseProofs Market.

Notation P128 := (2 ^ 128).
Lemma P128_eq : P128 = B128.
Proof. reflexivity. Qed.
Lemma u128_bits x : u128 x <-> 0 <= x /\ forall j, 128 <= j -> Z.testbit x j = false.
Proof.
  unfold u128. split.
  - intros [H1 H2]. split; [assumption|]. intros j Hj. destruct (Z.eq_dec x 0) as [->|N]; [apply Z.bits_0|].
    apply Z.bits_above_log2; [lia|]. assert (Z.log2 x < 128) by (apply Z.log2_lt_pow2; [lia|rewrite P128_eq; lia]). lia.
  - intros [H1 H2]. split; [assumption|]. rewrite <- P128_eq.
    replace x with (x mod P128). { apply Z.mod_pos_bound. rewrite P128_eq. lia. }
    apply Z.bits_inj'. intros n Hn. destruct (Z_lt_le_dec n 128).
    + apply Z.mod_pow2_bits_low. lia.
    + rewrite Z.mod_pow2_bits_high by lia. symmetry. auto.
Qed.
Lemma not128_bit x j : u128 x -> 0 <= j < 128 -> Z.testbit (not128 x) j = negb (Z.testbit x j).
Proof.
  unfold u128. intros Hx Hj. unfold not128, U128_MAX.
  replace (B128 - 1 - x) with ((Z.lnot x) mod P128).
  - rewrite Z.mod_pow2_bits_low by lia. apply Z.lnot_spec. lia.
  - rewrite P128_eq. unfold Z.lnot. symmetry. apply Z.mod_unique with (q := -1); lia.
Qed.
Lemma not128_u x : u128 x -> u128 (not128 x).
Proof. unfold u128, not128, U128_MAX. lia. Qed.
Lemma lor_u a b : u128 a -> u128 b -> u128 (Z.lor a b).
Proof.
  rewrite !u128_bits. intros [A1 A2] [B1 B2]. split; [apply Z.lor_nonneg; auto|].
  intros j Hj. rewrite Z.lor_spec, A2, B2 by assumption. reflexivity.
Qed.
Lemma land_u a b : u128 a -> 0 <= b -> u128 (Z.land a b).
Proof.
  rewrite !u128_bits. intros [A1 A2] B1. split; [apply Z.land_nonneg; auto|].
  intros j Hj. rewrite Z.land_spec, A2 by assumption. reflexivity.
Qed.
Lemma mask_eq i : 0 <= i < 128 -> slot_mask i = 2 ^ i.
Proof. intros H. unfold slot_mask. rewrite Z.mod_small by lia. apply Z.shiftl_1_l. Qed.
Lemma mask_bit i j : 0 <= i < 128 -> 0 <= j -> Z.testbit (slot_mask i) j = (i =? j).
Proof. intros Hi Hj. rewrite mask_eq by assumption. rewrite Z.pow2_bits_eqb by lia. reflexivity. Qed.
Lemma mask_u i : 0 <= i < 128 -> u128 (slot_mask i).
Proof.
  intros H. apply u128_bits. split; [rewrite mask_eq by assumption; apply Z.pow_nonneg; lia|].
  intros j Hj. rewrite mask_bit by lia. lia.
Qed.
Lemma land_mask b i : 0 <= i < 128 -> negb (Z.land b (slot_mask i) =? 0) = Z.testbit b i.
Proof.
  intros Hi. destruct (Z.testbit b i) eqn:E.
  - apply negb_true_iff. apply Z.eqb_neq. intros H.
    assert (T : Z.testbit (Z.land b (slot_mask i)) i = true) by (rewrite Z.land_spec, mask_bit, E by lia; lia).
    rewrite H, Z.bits_0 in T. discriminate.
  - apply negb_false_iff. apply Z.eqb_eq. apply Z.bits_inj'. intros n Hn.
    rewrite Z.land_spec, mask_bit, Z.bits_0 by lia. destruct (i =? n) eqn:EN; [|apply andb_false_r].
    assert (i = n) by lia. subst. rewrite E. reflexivity.
Qed.
Lemma set_bit b i j : 0 <= i < 128 -> 0 <= j < 128 ->
  Z.testbit (Z.lor b (slot_mask i)) j = (i =? j) || Z.testbit b j.
Proof. intros. rewrite Z.lor_spec, mask_bit by lia. apply orb_comm. Qed.
Lemma clear_bit b i j : 0 <= i < 128 -> 0 <= j < 128 ->
  Z.testbit (Z.land b (not128 (slot_mask i))) j = negb (i =? j) && Z.testbit b j.
Proof. intros. rewrite Z.land_spec, not128_bit, mask_bit by (try apply mask_u; lia). apply andb_comm. Qed.

Lemma tz_from_spec n : forall b i, 0 <= i -> i + Z.of_nat n = 128 -> let r := tz_from n b i in
  i <= r <= 128 /\ (forall j, i <= j < r -> Z.testbit b j = false) /\ (r < 128 -> Z.testbit b r = true).
Proof.
  induction n; intros b i Hi Hn; cbn [tz_from].
  - repeat split; intros; lia.
  - destruct (Z.testbit b i) eqn:E.
    + repeat split; intros; try lia; assumption.
    + destruct (IHn b (i + 1)) as (H1 & H2 & H3); [lia|lia|]. split; [lia|]. split; [|assumption].
      intros j Hj. destruct (Z.eq_dec j i) as [->|]; [assumption|]. apply H2. lia.
Qed.
Lemma tz_spec b : u128 b -> b <> 0 -> let r := trailing_zeros b in
  0 <= r < 128 /\ Z.testbit b r = true /\ forall j, 0 <= j < r -> Z.testbit b j = false.
Proof.
  intros U N. unfold trailing_zeros. destruct (tz_from_spec 128 b 0) as (H1 & H2 & H3); [lia|lia|].
  cbn zeta in *. set (r := tz_from 128 b 0) in *.
  assert (r < 128).
  { destruct (Z_lt_le_dec r 128); [assumption|]. exfalso. apply N. apply Z.bits_inj'. intros j Hj. rewrite Z.bits_0.
    destruct (Z_lt_le_dec j 128); [apply H2; lia|]. apply u128_bits in U. apply U. assumption. }
  repeat split; try lia; auto.
Qed.

(** ** Well-formed slots *)
Record oo_wf (o : open_orders) : Prop := mkOOwf {
  w_free : u128 (oo_free_bits o); w_bid : u128 (oo_bid_bits o);
  w_orders : zlen (oo_orders o) = 128; w_cids : zlen (oo_cids o) = 128 }.
Definition is_free (o : open_orders) (i : Z) : bool := Z.testbit (oo_free_bits o) i.
Definition side_at (o : open_orders) (i : Z) : side := if Z.testbit (oo_bid_bits o) i then Bid else Ask.
Definition order_at (o : open_orders) (i : Z) : Z := match znth (oo_orders o) i with Some x => x | None => 0 end.
Definition cid_at (o : open_orders) (i : Z) : Z := match znth (oo_cids o) i with Some x => x | None => 0 end.

Lemma slot_is_free_bit o i : 0 <= i < 128 -> slot_is_free o i = is_free o i.
Proof. intros H. apply land_mask. assumption. Qed.
Lemma slot_side_bit o i : 0 <= i < 128 -> slot_side o i = if is_free o i then None else Some (side_at o i).
Proof.
  intros H. unfold slot_side. rewrite !land_mask by assumption. unfold is_free, side_at.
  destruct (Z.testbit (oo_free_bits o) i), (Z.testbit (oo_bid_bits o) i); reflexivity.
Qed.

(** Only the slots differ. *)
Definition same_but_slots (o o' : open_orders) : Prop :=
  oo_flags o' = oo_flags o /\ oo_market o' = oo_market o /\ oo_owner o' = oo_owner o /\
  oo_coin_free o' = oo_coin_free o /\ oo_coin_total o' = oo_coin_total o /\
  oo_pc_free o' = oo_pc_free o /\ oo_pc_total o' = oo_pc_total o /\ oo_rebates o' = oo_rebates o.

Lemma add_order_ok o id sd : oo_wf o -> oo_free_bits o <> 0 ->
  exists o' slot, add_order o id sd = Ok (o', slot) /\ oo_wf o' /\ same_but_slots o o' /\
    0 <= slot < 128 /\ is_free o slot = true /\ is_free o' slot = false /\ order_at o' slot = id /\ side_at o' slot = sd /\
    oo_cids o' = oo_cids o /\
    forall j, 0 <= j < 128 -> j <> slot -> is_free o' j = is_free o j /\ order_at o' j = order_at o j /\ side_at o' j = side_at o j.
Proof.
  intros W N. pose proof W as [Wf Wb Wo Wc]. destruct (tz_spec _ Wf N) as (S1 & S2 & _). unfold add_order.
  replace (oo_free_bits o =? 0) with false by lia. cbn [negb check rbind].
  set (slot := trailing_zeros (oo_free_bits o)) in *. rewrite slot_is_free_bit by assumption. unfold is_free at 1. rewrite S2.
  cbn [check rbind]. destruct (znth_lt (oo_orders o) slot) as [x Ex]; [lia|]. rewrite Ex. cbn [unwrap rbind].
  eexists _, slot. split; [reflexivity|]. pose proof (mask_u slot S1) as MU. split; [|split; [repeat split|]].
  - constructor; cbn [oo_free_bits oo_bid_bits oo_orders oo_cids set_slots].
    + apply land_u; [assumption|apply not128_u; assumption].
    + destruct sd; [apply lor_u; assumption|apply land_u; [assumption|apply not128_u; assumption]].
    + rewrite zupd_len. assumption.
    + assumption.
  - unfold is_free, order_at, side_at. cbn [oo_free_bits oo_bid_bits oo_orders oo_cids set_slots].
    repeat (match goal with |- _ /\ _ => split end); try (assumption || reflexivity || lia).
    + rewrite clear_bit by assumption. rewrite Z.eqb_refl. reflexivity.
    + rewrite znth_zupd_same by lia. reflexivity.
    + destruct sd.
      * rewrite set_bit by assumption. rewrite Z.eqb_refl. reflexivity.
      * rewrite clear_bit by assumption. rewrite Z.eqb_refl. reflexivity.
    + intros j Hj NJ. rewrite clear_bit, znth_zupd_other by lia. replace (slot =? j) with false by lia.
      cbn [negb andb]. split; [reflexivity|]. split; [reflexivity|].
      destruct sd; [rewrite set_bit by lia|rewrite clear_bit by lia]; replace (slot =? j) with false by lia; reflexivity.
Qed.
Lemma add_order_full o id sd : oo_free_bits o = 0 -> add_order o id sd = Err ETooManyOpenOrders.
Proof. intros H. unfold add_order. rewrite H. reflexivity. Qed.
Lemma remove_order_ok o i : oo_wf o -> 0 <= i < 128 -> is_free o i = false ->
  exists o', remove_order o i = Ok o' /\ oo_wf o' /\ same_but_slots o o' /\ is_free o' i = true /\ cid_at o' i = 0 /\
    forall j, 0 <= j < 128 -> j <> i -> is_free o' j = is_free o j /\ order_at o' j = order_at o j /\ side_at o' j = side_at o j /\
      cid_at o' j = cid_at o j.
Proof.
  intros W Hi F. pose proof W as [Wf Wb Wo Wc]. unfold remove_order. replace (i <? 128) with true by lia. cbn [check rbind].
  rewrite slot_is_free_bit, F by assumption. cbn [negb check rbind]. eexists. split; [reflexivity|].
  pose proof (mask_u i Hi) as MU. split; [|split; [repeat split|]].
  - constructor; cbn [oo_free_bits oo_bid_bits oo_orders oo_cids set_slots]; rewrite ?zupd_len; try assumption.
    + apply lor_u; assumption.
    + apply land_u; [assumption|apply not128_u; assumption].
  - unfold is_free, order_at, side_at, cid_at. cbn [oo_free_bits oo_bid_bits oo_orders oo_cids set_slots].
    split; [rewrite set_bit by assumption; rewrite Z.eqb_refl; reflexivity|].
    split; [rewrite znth_zupd_same by lia; reflexivity|]. intros j Hj NJ.
    rewrite set_bit, clear_bit, !znth_zupd_other by lia. replace (i =? j) with false by lia. repeat split.
Qed.
Lemma init_wf o mkt owner o' : oo_wf o -> oo_init o mkt owner = Ok o' -> oo_wf o' /\ forall i, 0 <= i < 128 -> is_free o' i = true.
Proof.
  intros [Wf Wb Wo Wc]. unfold oo_init. destruct (oo_flags o =? 0); [|discriminate]. cbn [check rbind]. intros [= <-].
  split; [constructor; cbn [oo_free_bits oo_bid_bits oo_orders oo_cids set_slots]; try assumption; unfold u128, U128_MAX; lia|]. intros i Hi. unfold is_free. cbn [oo_free_bits].
  change U128_MAX with (Z.ones 128). apply Z.ones_spec_low. assumption.
Qed.
Lemma all_free o : u128 (oo_free_bits o) -> oo_free_bits o = U128_MAX <-> forall i, 0 <= i < 128 -> is_free o i = true.
Proof.
  intros U. unfold is_free. split.
  - intros -> i Hi. change U128_MAX with (Z.ones 128). apply Z.ones_spec_low. assumption.
  - intros H. change U128_MAX with (Z.ones 128). apply Z.bits_inj'. intros n Hn. destruct (Z_lt_le_dec n 128).
    + rewrite Z.ones_spec_low by lia. apply H. lia.
    + rewrite Z.ones_spec_high by lia. apply u128_bits in U. apply U. assumption.
Qed.

(** ** The occupied slots, in ascending order *)
Fixpoint zrange (lo : Z) (n : nat) : list Z := match n with O => [] | S n' => lo :: zrange (lo + 1) n' end.
Lemma zrange_In n : forall lo x, In x (zrange lo n) <-> lo <= x < lo + Z.of_nat n.
Proof. induction n; intros lo x; cbn [zrange In]; [lia|]. rewrite IHn. lia. Qed.
Lemma zrange_skip b t n : forall lo, 0 <= lo -> lo <= t < lo + Z.of_nat n -> Z.testbit b t = true ->
  (forall j, lo <= j < t -> Z.testbit b j = false) ->
  filter (Z.testbit b) (zrange lo n) = t :: filter (Z.testbit b) (zrange (t + 1) (Z.to_nat (lo + Z.of_nat n - t - 1))).
Proof.
  induction n as [|n IH]; intros lo Hlo Ht Hb Hz; [lia|]. cbn [zrange filter].
  destruct (Z.eq_dec lo t) as [->|N].
  - rewrite Hb. do 3 f_equal. lia.
  - rewrite Hz by lia. rewrite (IH (lo + 1)) by (try lia; auto; intros; apply Hz; lia). do 4 f_equal. lia.
Qed.
Lemma filled_from_spec f : forall bits lo, u128 bits -> 0 <= lo <= 128 -> 128 - lo <= Z.of_nat f ->
  (forall j, 0 <= j < lo -> Z.testbit bits j = false) ->
  filled_from f bits = filter (Z.testbit bits) (zrange lo (Z.to_nat (128 - lo))).
Proof.
  induction f as [|f IH]; intros bits lo U Hlo Hf Hz.
  - replace (Z.to_nat (128 - lo)) with O by lia. reflexivity.
  - cbn [filled_from]. destruct (Z.eqb_spec bits 0) as [->|N].
    + symmetry. clear. generalize (Z.to_nat (128 - lo)) as n. intros n. revert lo. induction n; intros lo; cbn [zrange filter]; [reflexivity|].
      rewrite Z.bits_0. apply IHn.
    + destruct (tz_spec bits U N) as (T1 & T2 & T3). cbv zeta in *. set (t := trailing_zeros bits) in *.
      assert (TL : lo <= t). { destruct (Z_lt_le_dec t lo); [|assumption]. rewrite Hz in T2 by lia. discriminate. }
      rewrite (zrange_skip bits t) by (try lia; auto; intros; apply T3; lia). f_equal.
      rewrite (IH _ (t + 1)); [|apply land_u; [assumption|apply not128_u, mask_u; lia]|lia|lia|].
      * replace (Z.to_nat (lo + Z.of_nat (Z.to_nat (128 - lo)) - t - 1)) with (Z.to_nat (128 - (t + 1))) by lia.
        apply filter_ext_in. intros j Hj. apply zrange_In in Hj. rewrite clear_bit by lia. replace (t =? j) with false by lia. reflexivity.
      * intros j Hj. rewrite clear_bit by lia. destruct (Z.eqb_spec t j) as [->|]; [reflexivity|]. apply T3. lia.
Qed.
Definition slots128 : list Z := zrange 0 128.
Lemma slots128_In i : In i slots128 <-> 0 <= i < 128.
Proof. unfold slots128. rewrite zrange_In. lia. Qed.
Lemma filled_slots_spec o : oo_wf o -> filled_slots o = filter (fun i => negb (is_free o i)) slots128.
Proof.
  intros W. unfold filled_slots. rewrite (filled_from_spec 128 _ 0); [|apply not128_u, W|lia|lia|lia].
  unfold slots128. change (Z.to_nat (128 - 0)) with 128%nat. apply filter_ext_in. intros j Hj. apply zrange_In in Hj.
  rewrite not128_bit by (try apply W; lia). reflexivity.
Qed.
(** Orders carrying a client id, as the account records them. *)
Definition tagged (o : open_orders) : list Z := filter (fun i => negb (is_free o i) && negb (cid_at o i =? 0)) slots128.
Definition slot_entry (o : open_orders) (i : Z) : Z * Z * side := (cid_at o i, order_at o i, side_at o i).
Lemma with_cids_spec o ls : oo_wf o -> (forall i, In i ls -> 0 <= i < 128 /\ is_free o i = false) ->
  with_cids o ls = Ok (map (slot_entry o) (filter (fun i => negb (cid_at o i =? 0)) ls)).
Proof.
  intros W. induction ls as [|i r IH]; intros H; cbn [with_cids filter map]; [reflexivity|].
  destruct (H i (or_introl eq_refl)) as [Hi Fi].
  destruct (znth_lt (oo_cids o) i) as [c Ec]; [rewrite (w_cids _ W); lia|]. rewrite Ec. cbn [unwrap rbind].
  assert (CA : cid_at o i = c) by (unfold cid_at; rewrite Ec; reflexivity). rewrite CA. specialize (IH (fun j Hj => H j (or_intror Hj))).
  destruct (c =? 0); cbn [negb]; [exact IH|].
  destruct (znth_lt (oo_orders o) i) as [x Ex]; [rewrite (w_orders _ W); lia|]. rewrite Ex. cbn [unwrap rbind].
  rewrite slot_side_bit, Fi by assumption. cbn [unwrap rbind]. rewrite IH. cbn [rbind map]. unfold slot_entry at 2. rewrite CA.
  replace (order_at o i) with x by (unfold order_at; rewrite Ex; reflexivity). reflexivity.
Qed.
Lemma orders_with_client_ids_spec o : oo_wf o -> orders_with_client_ids o = Ok (map (slot_entry o) (tagged o)).
Proof.
  intros W. unfold orders_with_client_ids. rewrite filled_slots_spec by assumption. rewrite with_cids_spec; [|assumption|].
  - do 2 f_equal. unfold tagged. induction slots128 as [|i r IH]; cbn [filter]; [reflexivity|].
    destruct (is_free o i); cbn [negb andb filter]; [exact IH|]. destruct (cid_at o i =? 0); cbn [negb]; [exact IH|]. f_equal. exact IH.
  - intros i Hi. apply filter_In in Hi. destruct Hi as [Hi Fi]. apply slots128_In in Hi. split; [assumption|]. destruct (is_free o i); [discriminate|reflexivity].
Qed.
Lemma tagged_In o i : In i (tagged o) <-> 0 <= i < 128 /\ is_free o i = false /\ cid_at o i <> 0.
Proof.
  unfold tagged. rewrite filter_In, slots128_In, andb_true_iff, !negb_true_iff, Z.eqb_neq. tauto.
Qed.
