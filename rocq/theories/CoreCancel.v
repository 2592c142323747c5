(** Cancelling and pruning keep the market invariant, and cannot fail except on a full event queue. *)
From Coq Require Import Permutation.
From Verif Require Import Base BaseProofs Fees Critbit CritbitProofs CritbitSlab CritbitOps CritbitSpec CritbitRefine
  Queue QueueSpec QueueProofs Codec ListSum Market Matching MatchSteps MatchRefine MatchAsk MatchBid MatchRun Ledger
  LedgerSteps MatchSpec LedgerRun Slots Core CoreInv CoreNew.

(** ** The part of the invariant that does not mention the stored slabs and queue *)
Record ainv (m : market) (seq : Z) (L : list acct) (A : astate) : Prop := mkAinv {
  ai_sorted : both_sorted A;
  ai_cl : 0 < m_coin_lot m; ai_pl : 0 < m_pc_lot m;
  ai_coin_dep : u64 (m_coin_deposits m); ai_mkt : mkt_u64 m;
  ai_fit : books_fit (m_coin_lot m) (m_pc_lot m) A;
  ai_unx : unx A; ai_evs : evs_ok A;
  ai_seq : 0 <= seq < B64;
  ai_keys : forall s l, In l (book_of A s) -> issued seq s (l_key l);
  ai_nodup : NoDup (map fst L); ai_nz : ~ In 0 (map fst L);
  ai_acct : forall k oo, In (k, oo) L -> acct_ok (m_coin_lot m) (m_pc_lot m) seq k oo A;
  ai_own : forall s l, In l (book_of A s) -> In (l_owner l) (map fst L) /\ 0 <= l_slot l < 128;
  ai_evown : forall v, In v (a_evs A) -> In (ev_owner v) (map fst L) /\ 0 <= ev_slot v < 128;
  ai_coin : sum_coin L + zsum ev_coin (a_evs A) = m_coin_deposits m;
  ai_pc : sum_pc L + zsum ev_pc (a_evs A) = m_pc_deposits m;
  ai_reb : sum_reb L + zsum ev_rebate (a_evs A) <= m_rebates m
}.
Lemma cinv_ainv o seq L A : cinv o seq L A -> ainv (ob_mkt o) seq L A.
Proof. intros C. pose proof (cinv_sorted _ _ _ _ C). destruct C. constructor; assumption. Qed.
Lemma ainv_cinv o seq L A : rep o A -> 2 < slab_cap (ob_bids o) -> 2 < slab_cap (ob_asks o) ->
  ainv (ob_mkt o) seq L A -> cinv o seq L A.
Proof. intros R B1 B2 []. constructor; assumption. Qed.

(** ** One order leaves the book *)
Definition leaf_val (m : market) (s : side) (l : leaf) : Z :=
  match s with Bid => pc_of (m_pc_lot m) l | Ask => coin_of (m_coin_lot m) l end.
Definition refund (oo : open_orders) (s : side) (n : Z) : open_orders :=
  match s with Bid => set_pc_free oo (oo_pc_free oo + n) | Ask => set_coin_free oo (oo_coin_free oo + n) end.
Definition cancel_ev (m : market) (s : side) (l : leaf) : event_view :=
  EvOut s false (leaf_val m s l) 0 (l_key l) (l_owner l) (l_slot l) (l_cid l).
Definition cancelled (m : market) (A : astate) (s : side) (l : leaf) : astate := hit A s l 0 [cancel_ev m s l].

Lemma cancel_hit m s l : hit_events l s 0 [cancel_ev m s l].
Proof.
  constructor.
  - intros v [<-|[]]. repeat split.
  - congruence.
  - intros _. exists [], (cancel_ev m s l). split; [reflexivity|]. split; [reflexivity|]. intros v [].
Qed.
Lemma cancelled_book m A s l : book_of (cancelled m A s l) s = ldel (l_key l) (book_of A s).
Proof. unfold cancelled, hit. rewrite book_addev, book_set_same, get_book_of. reflexivity. Qed.
Lemma cancelled_other m A s l : book_of (cancelled m A s l) (other s) = book_of A (other s).
Proof. unfold cancelled, hit. rewrite book_addev, book_set_other. reflexivity. Qed.
Lemma cancelled_evs m A s l : a_evs (cancelled m A s l) = a_evs A ++ [cancel_ev m s l].
Proof. unfold cancelled, hit, addev. cbn [a_evs]. rewrite evs_set_book. reflexivity. Qed.
Lemma cancelled_In m A s l s' x : In x (book_of (cancelled m A s l) s') -> In x (book_of A s').
Proof. intros H. apply hit_book_In in H. destruct H as [(_ & H & _)|[H _]]; [congruence|assumption]. Qed.

Section One.
Variables (m : market) (seq : Z) (L : list acct) (A : astate).
Hypothesis AI : ainv m seq L A.
Lemma leaf_slot s l oo : In (l_owner l, oo) L -> In l (book_of A s) ->
  is_free oo (l_slot l) = false /\ order_at oo (l_slot l) = l_key l /\ side_at oo (l_slot l) = s.
Proof.
  intros IO IL. destruct (ai_own _ _ _ _ AI s l IL) as [_ SL].
  pose proof (ao_slots _ _ _ _ _ _ (ai_acct _ _ _ _ AI _ _ IO) _ SL) as SS.
  assert (AT : at_slot (l_owner l) (l_slot l) l) by (split; reflexivity).
  destruct (is_free oo (l_slot l)).
  - exfalso. exact (proj1 SS s l IL AT).
  - destruct SS as [(B1 & B2 & B3 & B4) _]. split; [reflexivity|].
    destruct (side_cases (side_at oo (l_slot l)) s) as [->| ->].
    + split; [symmetry; apply B2; assumption|reflexivity].
    + exfalso. exact (B3 l IL AT).
Qed.
Lemma leaf_val_bounds s l : In l (book_of A s) -> 0 <= leaf_val m s l < B64.
Proof.
  intros IL. pose proof (ai_pl _ _ _ _ AI). pose proof (ai_cl _ _ _ _ AI). destruct s; unfold leaf_val.
  - destruct (f_bids _ _ _ (ai_fit _ _ _ _ AI) l IL) as (? & ? & ? & _). unfold bid_val in *. unfold pc_of. nia.
  - destruct (f_asks _ _ _ (ai_fit _ _ _ _ AI) l IL) as (? & ? & ? & _). unfold ask_val in *. unfold coin_of. nia.
Qed.
Lemma sum_ge_one {X} (f : X -> Z) l x : (forall y, In y l -> 0 <= f y) -> In x l -> f x <= zsum f l.
Proof.
  intros NN H. induction l as [|y r IH]; [destruct H|]. cbn [zsum].
  assert (0 <= zsum f r) by (apply zsum_nonneg; intros; apply NN; right; assumption).
  pose proof (NN y (or_introl eq_refl)).
  destruct H as [->|H]; [lia|]. assert (f x <= zsum f r) by (apply IH; [intros; apply NN; right; assumption|assumption]). lia.
Qed.
Lemma sum_mine {X} own (f : X -> Z) l x : (forall y, In y l -> 0 <= f y) -> In x l -> f x <= zsum (mine own (own x) f) l.
Proof.
  intros NN H. replace (f x) with (mine own (own x) f x) by (unfold mine; rewrite Z.eqb_refl; reflexivity).
  apply sum_ge_one; [|assumption]. intros y Hy. unfold mine. destruct (own y =? own x); [apply NN; assumption|lia].
Qed.
Lemma evs_each v : In v (a_evs A) -> ev_ok v.
Proof. intros H. pose proof (ai_evs _ _ _ _ AI) as E. unfold evs_ok in E. rewrite Forall_forall in E. auto. Qed.
(** The locked balance covers the order. *)
Lemma leaf_locked s l : In l (book_of A s) ->
  leaf_val m s l <= match s with Bid => locked_pc (m_pc_lot m) (l_owner l) A | Ask => locked_coin (m_coin_lot m) (l_owner l) A end.
Proof.
  intros IL. pose proof (ai_pl _ _ _ _ AI). pose proof (ai_cl _ _ _ _ AI).
  destruct s; unfold leaf_val; [unfold locked_pc|unfold locked_coin].
  - assert (0 <= zsum (mine ev_owner (l_owner l) ev_lock_pc) (a_evs A)).
    { apply zsum_nonneg. intros v Hv. pose proof (ev_lock_nonneg v (evs_each v Hv)). unfold mine. destruct (ev_owner v =? l_owner l); lia. }
    assert (pc_of (m_pc_lot m) l <= zsum (mine l_owner (l_owner l) (pc_of (m_pc_lot m))) (a_bids A)); [|lia].
    apply sum_mine; [|assumption]. intros y Hy. exact (proj1 (leaf_val_bounds Bid y Hy)).
  - assert (0 <= zsum (mine ev_owner (l_owner l) ev_lock_coin) (a_evs A)).
    { apply zsum_nonneg. intros v Hv. pose proof (ev_lock_nonneg v (evs_each v Hv)). unfold mine. destruct (ev_owner v =? l_owner l); lia. }
    assert (coin_of (m_coin_lot m) l <= zsum (mine l_owner (l_owner l) (coin_of (m_coin_lot m))) (a_asks A)); [|lia].
    apply sum_mine; [|assumption]. intros y Hy. exact (proj1 (leaf_val_bounds Ask y Hy)).
Qed.
Lemma cancelled_lpc s l k : In l (book_of A s) ->
  locked_pc (m_pc_lot m) k (cancelled m A s l) = locked_pc (m_pc_lot m) k A -
    (if (l_owner l =? k) then match s with Bid => leaf_val m s l | Ask => 0 end else 0).
Proof.
  intros IL. unfold locked_pc. rewrite cancelled_evs, zsum_app. cbn [zsum].
  assert (E0 : mine ev_owner k ev_lock_pc (cancel_ev m s l) = 0) by (unfold mine; destruct s; cbn; destruct (l_owner l =? k); reflexivity).
  rewrite E0. change (a_bids (cancelled m A s l)) with (book_of (cancelled m A s l) Bid).
  change (a_bids A) with (book_of A Bid). destruct s.
  - rewrite cancelled_book, zsum_ldel by (try apply AI; assumption). unfold mine at 2. unfold leaf_val. destruct (l_owner l =? k); lia.
  - change Bid with (other Ask). rewrite cancelled_other. destruct (l_owner l =? k); lia.
Qed.
Lemma cancelled_lcoin s l k : In l (book_of A s) ->
  locked_coin (m_coin_lot m) k (cancelled m A s l) = locked_coin (m_coin_lot m) k A -
    (if (l_owner l =? k) then match s with Ask => leaf_val m s l | Bid => 0 end else 0).
Proof.
  intros IL. unfold locked_coin. rewrite cancelled_evs, zsum_app. cbn [zsum].
  assert (E0 : mine ev_owner k ev_lock_coin (cancel_ev m s l) = 0) by (unfold mine; destruct s; cbn; destruct (l_owner l =? k); reflexivity).
  rewrite E0. change (a_asks (cancelled m A s l)) with (book_of (cancelled m A s l) Ask).
  change (a_asks A) with (book_of A Ask). destruct s.
  - change Ask with (other Bid). rewrite cancelled_other. destruct (l_owner l =? k); lia.
  - rewrite cancelled_book, zsum_ldel by (try apply AI; assumption). unfold mine at 2. unfold leaf_val. destruct (l_owner l =? k); lia.
Qed.

(** What a cancellation keeps of any account, its balances aside. *)
Lemma cancelled_acct s l k oo oo' : In l (book_of A s) -> In (k, oo) L -> keeps_slots oo oo' ->
  0 <= oo_coin_free oo' <= oo_coin_total oo' -> oo_coin_total oo' < B64 ->
  0 <= oo_pc_free oo' <= oo_pc_total oo' -> oo_pc_total oo' < B64 ->
  oo_coin_total oo' - oo_coin_free oo' = locked_coin (m_coin_lot m) k (cancelled m A s l) ->
  oo_pc_total oo' - oo_pc_free oo' = locked_pc (m_pc_lot m) k (cancelled m A s l) ->
  acct_ok (m_coin_lot m) (m_pc_lot m) seq k oo' (cancelled m A s l).
Proof.
  intros IL IO KS B1 B2 B3 B4 B5 B6. pose proof (ai_acct _ _ _ _ AI _ _ IO) as AO. destruct AO.
  destruct KS as (K1 & K2 & K3 & K4 & K5 & K6 & K7 & K8).
  assert (F : forall j, is_free oo' j = is_free oo j /\ order_at oo' j = order_at oo j /\ side_at oo' j = side_at oo j /\ cid_at oo' j = cid_at oo j).
  { intros j. unfold is_free, order_at, side_at, cid_at. rewrite K4, K5, K6, K7. auto. }
  constructor; try assumption.
  - destruct ao_wf. constructor; congruence.
  - rewrite K8. assumption.
  - intros i Hi. destruct (F i) as (F1 & F2 & F3 & F4). unfold slot_named. rewrite F1, F2, F3. specialize (ao_slots i Hi). destruct (is_free oo i).
    + apply hit_free; [assumption|apply cancel_hit|assumption].
    + destruct ao_slots as [B [N1 N2]]. split; [apply hit_busy; try assumption; [apply AI|apply cancel_hit]|].
      split; [assumption|]. intros x Hx. apply N2. eapply cancelled_In. eassumption.
  - intros s' x Hx OW. destruct (F (l_slot x)) as (_ & _ & _ & ->). eapply ao_leaf_cid; [|assumption]. eapply cancelled_In. eassumption.
  - intros v Hv OW. destruct (F (ev_slot v)) as (_ & _ & _ & ->). rewrite cancelled_evs in Hv. apply in_app_or in Hv.
    destruct Hv as [Hv|[<-|[]]]; [auto|]. cbn in *. eapply ao_leaf_cid; eassumption.
Qed.
End One.

Lemma keeps_refund oo s n : keeps_slots oo (refund oo s n).
Proof. destruct s; repeat split. Qed.
Theorem ainv_cancel m seq k oo L A s l : ainv m seq ((k, oo) :: L) A -> In l (book_of A s) -> l_owner l = k ->
  let n := leaf_val m s l in
  ainv m seq ((k, refund oo s n) :: L) (cancelled m A s l) /\
  match s with Bid => oo_pc_free oo + n <= oo_pc_total oo | Ask => oo_coin_free oo + n <= oo_coin_total oo end.
Proof.
  intros AI IL OW n. pose proof (leaf_val_bounds _ _ _ _ AI s l IL) as NB. fold n in NB.
  pose proof (leaf_locked _ _ _ _ AI s l IL) as LL. fold n in LL. rewrite OW in LL.
  pose proof (ai_acct _ _ _ _ AI k oo (or_introl eq_refl)) as AO.
  pose proof (ao_coin _ _ _ _ _ _ AO). pose proof (ao_coin_max _ _ _ _ _ _ AO). pose proof (ao_pc _ _ _ _ _ _ AO). pose proof (ao_pc_max _ _ _ _ _ _ AO).
  pose proof (ao_lcoin _ _ _ _ _ _ AO). pose proof (ao_lpc _ _ _ _ _ _ AO).
  pose proof (cancelled_lpc _ _ _ _ AI s l) as LP. pose proof (cancelled_lcoin _ _ _ _ AI s l) as LC. fold n in LP, LC.
  assert (COV : match s with Bid => oo_pc_free oo + n <= oo_pc_total oo | Ask => oo_coin_free oo + n <= oo_coin_total oo end) by (destruct s; lia).
  split; [|exact COV].
  assert (BAL : oo_coin_free (refund oo s n) = oo_coin_free oo + (match s with Ask => n | Bid => 0 end) /\ oo_coin_total (refund oo s n) = oo_coin_total oo /\
    oo_pc_free (refund oo s n) = oo_pc_free oo + (match s with Bid => n | Ask => 0 end) /\ oo_pc_total (refund oo s n) = oo_pc_total oo /\ oo_rebates (refund oo s n) = oo_rebates oo).
  { destruct s; cbn [refund set_pc_free set_coin_free set_balances oo_coin_free oo_coin_total oo_pc_free oo_pc_total oo_rebates]; lia. }
  destruct BAL as (B1 & B2 & B3 & B4 & B5).
  assert (EVO : ev_owner (cancel_ev m s l) = k) by (cbn; assumption).
  constructor; try apply AI.
  - apply hit_sorted. apply AI.
  - destruct (ai_fit _ _ _ _ AI) as [FB FA]. constructor.
    + intros x Hx. apply FB. change (In x (book_of A Bid)). eapply cancelled_In. exact Hx.
    + intros x Hx. apply FA. change (In x (book_of A Ask)). eapply cancelled_In. exact Hx.
  - pose proof (ai_unx _ _ _ _ AI) as UX. unfold unx, uncrossed in *. intros b a Hb Ha. apply UX.
    + change (In b (book_of A Bid)). eapply cancelled_In. exact Hb.
    + change (In a (book_of A Ask)). eapply cancelled_In. exact Ha.
  - unfold evs_ok. rewrite cancelled_evs. apply Forall_app. split; [apply AI|]. constructor; [|constructor]. cbn. fold n. lia.
  - intros s' x Hx. eapply ai_keys; [exact AI|]. eapply cancelled_In. eassumption.
  - intros k' oo' [[= <- <-]|HI].
    + eapply cancelled_acct; [exact AI|assumption|left; reflexivity|apply keeps_refund|..]; rewrite ?B1, ?B2, ?B3, ?B4, ?LP, ?LC by assumption;
        replace (l_owner l =? k) with true by lia; destruct s; lia.
    + assert (N : k' <> k) by (intros ->; pose proof (ai_nodup _ _ _ _ AI) as ND; cbn [map fst] in ND; inversion ND as [|? ? X]; apply X;
        change k with (fst (k, oo')); apply in_map; assumption).
      pose proof (ai_acct _ _ _ _ AI k' oo' (or_intror HI)) as AO'. 
      eapply cancelled_acct; [exact AI|assumption|right; exact HI|repeat split|apply AO'|apply AO'|apply AO'|apply AO'|..]; rewrite ?LP, ?LC by assumption;
        replace (l_owner l =? k') with false by lia; rewrite Z.sub_0_r; apply AO'.
  - intros s' x Hx. eapply (ai_own _ _ _ _ AI). eapply cancelled_In. eassumption.
  - intros v Hv. rewrite cancelled_evs in Hv. apply in_app_or in Hv. destruct Hv as [Hv|[<-|[]]]; [exact (ai_evown _ _ _ _ AI v Hv)|].
    cbn. exact (ai_own _ _ _ _ AI s l IL).
  - rewrite cancelled_evs, zsum_app. pose proof (ai_coin _ _ _ _ AI) as X. unfold sum_coin in *. cbn [zsum snd] in *.
    rewrite B2. replace (ev_coin (cancel_ev m s l)) with 0 by (destruct s; reflexivity). lia.
  - rewrite cancelled_evs, zsum_app. pose proof (ai_pc _ _ _ _ AI) as X. unfold sum_pc in *. cbn [zsum snd] in *.
    rewrite B4. replace (ev_pc (cancel_ev m s l)) with 0 by (destruct s; reflexivity). lia.
  - rewrite cancelled_evs, zsum_app. pose proof (ai_reb _ _ _ _ AI) as X. unfold sum_reb in *. cbn [zsum snd] in *.
    rewrite B5. replace (ev_rebate (cancel_ev m s l)) with 0 by (destruct s; reflexivity). lia.
Qed.

(** ** The stored event queue alone *)
Definition qrep (o : obs) (A : astate) : Prop := q_ok (ob_eq o) /\ q_list (ob_eq o) = map event_new (a_evs A).
Lemma emit_q o A v : qrep o A ->
  (emit o v = Err EEventQueueFull /\ zlen (a_evs A) = zlen (q_buf (ob_eq o))) \/
  (exists q', emit o v = Ok (set_eq o q') /\ q_ok q' /\ q_list q' = map event_new (a_evs A ++ [v]) /\
     zlen (q_buf q') = zlen (q_buf (ob_eq o)) /\ zlen (a_evs A) < zlen (q_buf (ob_eq o))).
Proof.
  intros [QO EV]. unfold emit.
  assert (ZL : zlen (q_list (ob_eq o)) = zlen (a_evs A)) by (rewrite EV; unfold zlen; rewrite map_length; reflexivity).
  destruct (push_back_spec (ob_eq o) (event_new v) QO) as [[E L]|(q' & E & L & Q & QL & B & _)]; rewrite E; cbn [rbind].
  - left. split; [reflexivity|]. lia.
  - right. exists q'. split; [reflexivity|]. split; [assumption|]. split; [|split; [assumption|lia]]. rewrite QL, EV, map_app. reflexivity.
Qed.

Lemma order_native_ok m s l seq L A : ainv m seq L A -> In l (book_of A s) -> order_native m s l = Ok (leaf_val m s l).
Proof.
  intros AI IL. pose proof (ai_pl _ _ _ _ AI). pose proof (ai_cl _ _ _ _ AI). destruct s; unfold order_native, leaf_val.
  - destruct (f_bids _ _ _ (ai_fit _ _ _ _ AI) l IL) as (Q & P & V & _). unfold bid_val in V.
    unfold leaf_price. replace (l_price l =? 0) with false by lia. cbn [rbind unwrap].
    destruct (part_bounds (l_qty l) (l_qty l) (l_price l) (m_pc_lot m) B64) as (X1 & X2 & X3 & _); try lia.
    rewrite (wmul_small (l_qty l)) by lia. rewrite wmul_small by lia. reflexivity.
  - destruct (f_asks _ _ _ (ai_fit _ _ _ _ AI) l IL) as (Q & P & V & _). unfold ask_val in V.
    rewrite wmul_small by nia. reflexivity.
Qed.

Lemma cancel_leaf_spec o seq k oo L A s l : ainv (ob_mkt o) seq ((k, oo) :: L) A -> In l (book_of A s) -> l_owner l = k -> qrep o A ->
  (cancel_leaf_node o l s oo k (l_key l) = Err EEventQueueFull /\ zlen (a_evs A) = zlen (q_buf (ob_eq o))) \/
  (exists q', cancel_leaf_node o l s oo k (l_key l) = Ok (set_eq o q', refund oo s (leaf_val (ob_mkt o) s l)) /\
     qrep (set_eq o q') (cancelled (ob_mkt o) A s l) /\
     zlen (q_buf q') = zlen (q_buf (ob_eq o)) /\ zlen (a_evs A) < zlen (q_buf (ob_eq o))).
Proof.
  intros AI IL OW QR. unfold cancel_leaf_node. rewrite OW, Z.eqb_refl. cbn [check rbind].
  assert (IO : In (l_owner l, oo) ((k, oo) :: L)) by (left; congruence).
  destruct (leaf_slot _ _ _ _ AI s l oo IO IL) as (F1 & F2 & F3).
  destruct (ai_own _ _ _ _ AI s l IL) as [_ SL].
  pose proof (ai_acct _ _ _ _ AI k oo (or_introl eq_refl)) as AO.
  destruct (znth_lt (oo_orders oo) (l_slot l)) as [x Ex]; [rewrite (w_orders _ (ao_wf _ _ _ _ _ _ AO)); lia|].
  unfold order_at in F2. rewrite Ex in F2 |- *. subst x. cbn [unwrap rbind]. rewrite Z.eqb_refl. cbn [check rbind].
  rewrite slot_side_bit, F1, F3 by assumption. replace (side_eqb s s) with true by (destruct s; reflexivity). cbn [check rbind].
  rewrite (order_native_ok _ _ _ _ _ _ AI IL). cbn [rbind].
  destruct (ainv_cancel _ _ _ _ _ _ _ _ AI IL OW) as [_ COV]. cbv zeta in COV.
  pose proof (ao_coin_max _ _ _ _ _ _ AO). pose proof (ao_pc_max _ _ _ _ _ _ AO).
  assert (U : match s with Bid => unlock_pc oo (leaf_val (ob_mkt o) s l) | Ask => unlock_coin oo (leaf_val (ob_mkt o) s l) end
     = Ok (refund oo s (leaf_val (ob_mkt o) s l))).
  { destruct s; unfold unlock_pc, unlock_coin, refund; rewrite cadd_small by lia; cbn [rbind].
    - replace (_ <=? _) with true by lia. reflexivity.
    - replace (_ <=? _) with true by lia. reflexivity. }
  rewrite U. cbn [rbind].
  assert (EV : EvOut s false (leaf_val (ob_mkt o) s l) 0 (l_key l) k (l_slot l) (l_cid l) = cancel_ev (ob_mkt o) s l) by (unfold cancel_ev; rewrite OW; reflexivity).
  rewrite EV. destruct (emit_q o A (cancel_ev (ob_mkt o) s l) QR) as [[E1 E2]|(q' & E1 & E2 & E3 & E4 & E5)]; rewrite E1; cbn [rbind].
  - left. auto.
  - right. exists q'. split; [reflexivity|]. split; [|auto]. split; [assumption|]. rewrite cancelled_evs. assumption.
Qed.

Lemma remove_none s k s' : remove_by_key s k = Ok (s', None) -> s' = s.
Proof.
  unfold remove_by_key. intros H.
  destruct (slab_root s); [|congruence]. destruct (slab_get s z) as [[]|]; try discriminate.
  - apply rbind_ok in H. destruct H as ([[[p c] b]|] & _ & H); [|congruence].
    destruct (slab_get s p) as [[]|]; try discriminate. apply rbind_ok in H. destruct H as ([s1 ?] & _ & H). apply rbind_ok in H.
    destruct H as (? & _ & H). apply rbind_ok in H. destruct H as ([s4 []] & _ & H); discriminate.
  - destruct (l_key l =? k); [|congruence]. destruct (s_leafs s =? 1); [|discriminate]. apply rbind_ok in H. destruct H as ([] & _ & H). discriminate.
Qed.

(** What a cancellation instruction leaves alone. *)
Record cancel_done (o o' : obs) : Prop := mkCD { cd_mkt : ob_mkt o' = ob_mkt o; cd_keeps : keeps o o' }.

Lemma slab_removed o A s key : rep o A ->
  exists sl, remove_by_key (orders_of o s) key = Ok (sl, lfind key (book_of A s)) /\
    rep (set_orders o s sl) (set_book A s (ldel key (get_book A s))) /\ keeps o (set_orders o s sl) /\
    (lfind key (book_of A s) = None -> set_orders o s sl = o).
Proof.
  intros R. destruct (rep_slab o A s R) as [H1 H2].
  destruct (remove_by_key_spec (orders_of o s) key H1) as (sl & E & K1 & K2 & K3).
  exists sl. rewrite H2, get_book_of in E. split; [exact E|]. split; [apply rep_set; [assumption..|]; rewrite K3, H2; reflexivity|].
  split; [apply keeps_set; assumption|]. intros N. rewrite N in E. apply remove_none in E. rewrite E. destruct s, o; reflexivity.
Qed.
Lemma qrep_rep o A : rep o A -> qrep o A.
Proof. intros R. split; apply R. Qed.
Lemma rep_books_q o A q A' : rep o A -> qrep (set_eq o q) A' -> (forall s, book_of A' s = book_of A s) -> rep (set_eq o q) A'.
Proof.
  intros R [Q1 Q2] B. constructor; cbn [set_eq ob_bids ob_asks ob_eq] in *; try apply R; try assumption.
  - rewrite (r_bids _ _ R). symmetry. apply (B Bid).
  - rewrite (r_asks _ _ R). symmetry. apply (B Ask).
Qed.

(** Cancelling by order id. *)
Theorem cancel_v2_spec o seq k oo L A sd id : cinv o seq ((k, oo) :: L) A ->
  match lfind id (book_of A sd) with
  | None => cancel_order_v2 o sd k oo id = Err EOrderNotFound
  | Some l =>
      if l_owner l =? k then
        (cancel_order_v2 o sd k oo id = Err EEventQueueFull /\ zlen (a_evs A) = zlen (q_buf (ob_eq o))) \/
        (exists o', cancel_order_v2 o sd k oo id = Ok (o', refund oo sd (leaf_val (ob_mkt o) sd l)) /\
           cinv o' seq ((k, refund oo sd (leaf_val (ob_mkt o) sd l)) :: L) (cancelled (ob_mkt o) A sd l) /\
           cancel_done o o' /\ zlen (a_evs A) < zlen (q_buf (ob_eq o)))
      else cancel_order_v2 o sd k oo id = Err EOrderNotYours
  end.
Proof.
  intros C. pose proof (cinv_ainv _ _ _ _ C) as AI. pose proof (ci_rep _ _ _ _ C) as R.
  destruct (slab_removed o A sd id R) as (sl & E & R1 & K1 & _). unfold cancel_order_v2. rewrite E. cbn [rbind].
  destruct (lfind id (book_of A sd)) as [l|] eqn:LF; cbn [ok_or rbind]; [|reflexivity].
  destruct (lfind_Some _ _ _ LF) as [IL KL].
  destruct (Z.eqb_spec (l_owner l) k) as [OW|NO].
  2: { unfold cancel_leaf_node. replace (l_owner l =? k) with false by lia. reflexivity. }
  set (o1 := set_orders o sd sl) in *. assert (M1 : ob_mkt o1 = ob_mkt o) by (destruct sd; reflexivity).
  assert (Q1 : ob_eq o1 = ob_eq o) by (destruct sd; reflexivity).
  assert (QR : qrep o1 A) by (unfold qrep; rewrite Q1; apply qrep_rep; assumption).
  rewrite <- KL, <- M1. rewrite <- M1 in AI.
  destruct (cancel_leaf_spec o1 seq k oo L A sd l AI IL OW QR) as [[E1 E2]|(q' & E1 & E2 & E3 & E4)]; rewrite Q1 in *.
  - left. auto.
  - right. exists (set_eq o1 q'). split; [assumption|]. split; [|split; [|assumption]].
    + assert (KP : keeps o (set_eq o1 q')).
      { destruct K1 as (X1 & X2 & X3). unfold keeps. cbn [set_eq ob_bids ob_asks ob_eq]. rewrite X1, X2, E3. auto. }
      apply ainv_cinv.
      * eapply rep_books_q; [exact R1|exact E2|]. intros s'. destruct (side_cases sd s') as [->| ->].
        -- etransitivity; [apply cancelled_book|]. rewrite book_set_same, KL. destruct sd; reflexivity.
        -- etransitivity; [apply cancelled_other|]. rewrite book_set_other. reflexivity.
      * destruct KP as (-> & _ & _). apply C.
      * destruct KP as (_ & -> & _). apply C.
      * cbn [set_eq ob_mkt]. apply ainv_cancel; assumption.
    + constructor; [assumption|]. destruct K1 as (X1 & X2 & X3). unfold keeps. cbn [set_eq ob_bids ob_asks ob_eq]. rewrite X1, X2, E3. auto.
Qed.

(** ** Prune *)
Fixpoint cancelled_list (m : market) (A : astate) (s : side) (ls : list leaf) : astate :=
  match ls with [] => A | l :: r => cancelled_list m (cancelled m A s l) s r end.
Definition dels (ls : list leaf) (bk : list leaf) : list leaf := fold_left (fun b l => ldel (l_key l) b) ls bk.
Lemma dels_In ls : forall bk x, In x (dels ls bk) <-> In x bk /\ ~ In (l_key x) (map l_key ls).
Proof.
  unfold dels. induction ls as [|l r IH]; intros bk x; cbn [fold_left map].
  - cbn [In]. tauto.
  - rewrite IH, ldel_In. cbn [In]. intuition congruence.
Qed.
Lemma cancelled_list_book m s ls : forall A, book_of (cancelled_list m A s ls) s = dels ls (book_of A s).
Proof. induction ls as [|l r IH]; intros A; cbn [cancelled_list dels fold_left]; [reflexivity|]. rewrite IH, cancelled_book. reflexivity. Qed.
Lemma cancelled_list_other m s ls : forall A, book_of (cancelled_list m A s ls) (other s) = book_of A (other s).
Proof. induction ls as [|l r IH]; intros A; cbn [cancelled_list]; [reflexivity|]. rewrite IH, cancelled_other. reflexivity. Qed.
Lemma cancelled_list_evs m s ls : forall A, a_evs (cancelled_list m A s ls) = a_evs A ++ map (cancel_ev m s) ls.
Proof.
  induction ls as [|l r IH]; intros A; cbn [cancelled_list map]; [rewrite app_nil_r; reflexivity|].
  rewrite IH, cancelled_evs, <- app_assoc. reflexivity.
Qed.
Lemma refund_0 oo s : refund oo s 0 = oo.
Proof. destruct s, oo; unfold refund, set_pc_free, set_coin_free, set_balances; cbn; rewrite Z.add_0_r; reflexivity. Qed.
Lemma refund_refund oo s a b : refund (refund oo s a) s b = refund oo s (a + b).
Proof. destruct s, oo; unfold refund, set_pc_free, set_coin_free, set_balances; cbn; rewrite Z.add_assoc; reflexivity. Qed.

Lemma cancel_leaves_spec seq k L s ls : forall o oo A, ainv (ob_mkt o) seq ((k, oo) :: L) A ->
  (forall l, In l ls -> In l (book_of A s) /\ l_owner l = k) -> NoDup (map l_key ls) -> qrep o A ->
  (cancel_leaves o oo s k ls = Err EEventQueueFull /\ zlen (q_buf (ob_eq o)) < zlen (a_evs A) + zlen ls) \/
  (exists q', cancel_leaves o oo s k ls = Ok (set_eq o q', refund oo s (zsum (leaf_val (ob_mkt o) s) ls)) /\
     ainv (ob_mkt o) seq ((k, refund oo s (zsum (leaf_val (ob_mkt o) s) ls)) :: L) (cancelled_list (ob_mkt o) A s ls) /\
     qrep (set_eq o q') (cancelled_list (ob_mkt o) A s ls) /\ zlen (q_buf q') = zlen (q_buf (ob_eq o))).
Proof.
  induction ls as [|l r IH]; intros o oo A AI HL ND QR; cbn [cancel_leaves zsum cancelled_list].
  - right. exists (ob_eq o). rewrite refund_0. replace (set_eq o (ob_eq o)) with o by (destruct o; reflexivity). auto.
  - destruct (HL l (or_introl eq_refl)) as [IL OW]. cbn [map] in ND. inversion ND as [|? ? N1 N2]; subst.
    assert (IO : In (l_owner l, oo) ((l_owner l, oo) :: L)) by (left; reflexivity).
    destruct (leaf_slot _ _ _ _ AI s l oo IO IL) as (F1 & F2 & F3).
    destruct (ai_own _ _ _ _ AI s l IL) as [_ SL].
    pose proof (ai_acct _ _ _ _ AI _ oo IO) as AO.
    destruct (znth_lt (oo_orders oo) (l_slot l)) as [x Ex]; [rewrite (w_orders _ (ao_wf _ _ _ _ _ _ AO)); lia|].
    unfold order_at in F2. rewrite Ex in F2 |- *. subst x. cbn [unwrap rbind].
    pose proof (zlen_nonneg r) as ZR. assert (ZC : zlen (l :: r) = 1 + zlen r) by (unfold zlen; cbn [length]; lia).
    destruct (cancel_leaf_spec o seq _ oo L A s l AI IL eq_refl QR) as [[E1 E2]|(q' & E1 & E2 & E3 & E4)]; rewrite E1; cbn [rbind].
    + left. split; [reflexivity|lia].
    + destruct (ainv_cancel _ _ _ _ _ _ _ _ AI IL eq_refl) as [AI' _]. cbv zeta in AI'.
      destruct (IH (set_eq o q') (refund oo s (leaf_val (ob_mkt o) s l)) (cancelled (ob_mkt o) A s l)) as [[G1 G2]|(q2 & G1 & G2 & G3 & G4)]; try assumption.
      * intros y Hy. destruct (HL y (or_intror Hy)) as [Y1 Y2]. split; [|assumption]. rewrite cancelled_book, ldel_In. split; [assumption|].
        intros E. apply N1. rewrite <- E. apply in_map. assumption.
      * left. split; [exact G1|]. rewrite cancelled_evs in G2. unfold zlen in *. rewrite app_length in G2. cbn [length set_eq ob_eq] in *. lia.
      * right. exists q2. cbn [set_eq ob_mkt ob_eq ob_bids ob_asks] in *. rewrite refund_refund in *. split; [exact G1|]. split; [exact G2|]. split; [exact G3|]. lia.
Qed.

Lemma remove_keys_spec xs : forall s, slab_ok s -> (forall x, In x xs -> In x (book s)) -> NoDup (map l_key xs) ->
  exists s', remove_keys s (map l_key xs) = Ok (s', xs) /\ slab_ok s' /\ same_cap s s' /\ book s' = dels xs (book s).
Proof.
  induction xs as [|x r IH]; intros s SO IN ND; cbn [map remove_keys].
  - exists s. split; [reflexivity|]. split; [assumption|]. split; reflexivity.
  - cbn [map] in ND. inversion ND as [|? ? N1 N2]; subst.
    destruct (remove_by_key_spec s (l_key x) SO) as (s1 & E & K1 & K2 & K3). rewrite E. cbn [rbind].
    destruct (IH s1 K1) as (s2 & G1 & G2 & G3 & G4).
    + intros y Hy. rewrite K3, ldel_In. split; [apply IN; right; assumption|]. intros EQ. apply N1. rewrite <- EQ. apply in_map. assumption.
    + assumption.
    + rewrite G1. cbn [rbind]. rewrite (lfind_In _ _ x); [|apply book_sorted; assumption|apply IN; left; reflexivity|reflexivity].
      exists s2. split; [reflexivity|]. split; [assumption|]. split; [unfold same_cap in *; congruence|]. rewrite G4, K3. reflexivity.
Qed.
Lemma app_map_prefix {X Y} (f : X -> Y) (a b : list Y) : forall l, a ++ b = map f l -> exists l1 l2, l = l1 ++ l2 /\ a = map f l1 /\ b = map f l2.
Proof.
  induction a as [|y a IH]; intros l H; cbn in H.
  - exists [], l. auto.
  - destruct l as [|x l]; [discriminate|]. cbn in H. injection H as -> H. destruct (IH l H) as (l1 & l2 & -> & -> & ->).
    exists (x :: l1), l2. auto.
Qed.
Lemma NoDup_app_l {X} (a b : list X) : NoDup (a ++ b) -> NoDup a.
Proof. induction a as [|x a IH]; cbn; intros H; [constructor|]. inversion H; subst. constructor; [rewrite in_app_iff in *; tauto|auto]. Qed.
Lemma sorted_nodup_keys l : sorted l -> NoDup (map l_key l).
Proof.
  induction 1 as [|x l S IH F]; cbn [map]; constructor; [|assumption].
  intros H. apply in_map_iff in H. destruct H as (y & E & Hy). rewrite Forall_forall in F. specialize (F y Hy). unfold klt in F. lia.
Qed.
Lemma nodup_map_filter {X} (f : X -> Z) p (l : list X) : NoDup (map f l) -> NoDup (map f (filter p l)).
Proof.
  induction l as [|x l IH]; cbn [filter map]; intros H; [constructor|]. inversion H as [|? ? N1 N2]; subst.
  destruct (p x); [|auto]. cbn [map]. constructor; [|auto]. intros K. apply N1. apply in_map_iff in K. destruct K as (y & E & Hy).
  apply filter_In in Hy. rewrite <- E. apply in_map. tauto.
Qed.
Lemma find_by_loop_count s p : forall limit st found, (length (fst (find_by_loop limit s p st found)) + snd (find_by_loop limit s p st found) <= length found + limit)%nat.
Proof.
  induction limit as [|n IH]; intros st found; destruct st as [|h r]; cbn [find_by_loop fst snd]; try lia.
  destruct (slab_get s h) as [[|plen key c0 c1|l| |]|]; cbn [fst snd]; try lia.
  - specialize (IH (c1 :: c0 :: r) found). lia.
  - specialize (IH r (if p l then found ++ [l_key l] else found)). destruct (p l); [rewrite app_length in IH; cbn [length] in IH|]; lia.
Qed.
Lemma find_by_count s limit p : (length (fst (find_by s limit p)) + snd (find_by s limit p) <= limit)%nat.
Proof. unfold find_by. destruct (slab_root s); [apply (find_by_loop_count s p limit [_] [])|cbn; lia]. Qed.
Lemma find_by_leaves s limit p : slab_ok s ->
  exists xs, fst (find_by s limit p) = map l_key xs /\ (forall x, In x xs -> In x (book s) /\ p x = true) /\ NoDup (map l_key xs) /\
    (nodes_for (zlen (book s)) <= Z.of_nat limit -> (forall x, In x (book s) -> p x = true -> In x xs) /\
       Z.of_nat (snd (find_by s limit p)) = Z.of_nat limit - nodes_for (zlen (book s))).
Proof.
  intros SO. destruct (find_by_spec s limit p SO) as (rest & E & BIG). destruct (app_map_prefix _ _ _ _ E) as (l1 & l2 & E1 & E2 & E3).
  assert (IN : forall x, In x (filter p (rev (book s))) <-> In x (book s) /\ p x = true).
  { intros x. rewrite filter_In, <- in_rev. reflexivity. }
  exists l1. split; [assumption|]. split; [|split].
  - intros x Hx. apply IN. rewrite E1. apply in_or_app. auto.
  - apply (NoDup_app_l _ (map l_key l2)). rewrite <- map_app, <- E1. apply nodup_map_filter.
    rewrite map_rev. apply NoDup_rev. apply sorted_nodup_keys. apply book_sorted. assumption.
  - intros B. destruct (BIG B) as [B1 B2]. split; [|assumption]. intros x Hx Px.
    assert (l2 = []) as ->. { rewrite B1 in E3. destruct l2; [reflexivity|discriminate]. }
    rewrite app_nil_r in E1. rewrite <- E1. apply IN. auto.
Qed.

Theorem prune_spec o seq k oo L A limit : cinv o seq ((k, oo) :: L) A -> 0 <= limit ->
  exists bl al,
    (forall l, In l bl -> In l (a_bids A) /\ l_owner l = k) /\ (forall l, In l al -> In l (a_asks A) /\ l_owner l = k) /\
    NoDup (map l_key bl) /\ NoDup (map l_key al) /\ zlen bl + zlen al <= limit /\
    (nodes_for (zlen (a_asks A)) + nodes_for (zlen (a_bids A)) <= limit ->
       (forall l, In l (a_bids A) -> l_owner l = k -> In l bl) /\ (forall l, In l (a_asks A) -> l_owner l = k -> In l al)) /\
    let m := ob_mkt o in
    let oo' := refund (refund oo Bid (zsum (leaf_val m Bid) bl)) Ask (zsum (leaf_val m Ask) al) in
    let A' := cancelled_list m (cancelled_list m A Bid bl) Ask al in
    ((prune_core o oo k limit = Err EEventQueueFull /\ zlen (q_buf (ob_eq o)) < zlen (a_evs A) + zlen bl + zlen al) \/
     (exists o', prune_core o oo k limit = Ok (o', oo') /\ cinv o' seq ((k, oo') :: L) A' /\ cancel_done o o')).
Proof.
  intros C HL. pose proof (ci_rep _ _ _ _ C) as R. pose proof (cinv_ainv _ _ _ _ C) as AI.
  set (p := fun l : leaf => l_owner l =? k).
  destruct (find_by_leaves (ob_asks o) (Z.to_nat limit) p (r_asks_ok _ _ R)) as (al & A1 & A2 & A3 & A4).
  pose proof (find_by_count (ob_asks o) (Z.to_nat limit) p) as CA.
  destruct (find_by (ob_asks o) (Z.to_nat limit) p) as [aks lim1] eqn:FA. cbn [fst snd] in *.
  pose proof (find_by_count (ob_bids o) lim1 p) as CB.
  destruct (find_by_leaves (ob_bids o) lim1 p (r_bids_ok _ _ R)) as (bl & B1 & B2 & B3 & B4).
  destruct (find_by (ob_bids o) lim1 p) as [bks lim2] eqn:FB. cbn [fst snd] in *.
  rewrite (r_asks _ _ R) in A2, A4. rewrite (r_bids _ _ R) in B2, B4.
  assert (PK : forall l, p l = true <-> l_owner l = k) by (intros; unfold p; lia).
  assert (BL : forall l, In l bl -> In l (a_bids A) /\ l_owner l = k) by (intros l Hl; rewrite <- PK; auto).
  assert (AL : forall l, In l al -> In l (a_asks A) /\ l_owner l = k) by (intros l Hl; rewrite <- PK; auto).
  exists bl, al. split; [assumption|]. split; [assumption|]. split; [assumption|]. split; [assumption|].
  split. { rewrite A1, map_length in CA. rewrite B1, map_length in CB. unfold zlen. lia. }
  split.
  { intros HB. assert (NN : 0 <= nodes_for (zlen (a_bids A))) by (unfold nodes_for; pose proof (zlen_nonneg (a_bids A)); destruct (Z.eqb_spec (zlen (a_bids A)) 0); lia).
    destruct A4 as [A4 A5]; [lia|]. destruct B4 as [B4 _]; [lia|].
    split; intros l Hl OW; apply PK in OW; auto. }
  cbv zeta. set (m := ob_mkt o). unfold prune_core, remove_all. fold p. rewrite FA, FB.
  destruct (remove_keys_spec bl (ob_bids o)) as (bs & X1 & X2 & X3 & X4); [apply R|intros x Hx; rewrite (r_bids _ _ R); apply BL; assumption|assumption|].
  destruct (remove_keys_spec al (ob_asks o)) as (as_ & Y1 & Y2 & Y3 & Y4); [apply R|intros x Hx; rewrite (r_asks _ _ R); apply AL; assumption|assumption|].
  rewrite B1, A1, X1. cbn [rbind]. rewrite Y1. cbn [rbind].
  set (o1 := mkObs bs as_ (ob_mkt o) (ob_eq o)).
  assert (Q1 : qrep o1 A) by exact (qrep_rep _ _ R).
  destruct (cancel_leaves_spec seq k L Bid bl o1 oo A AI BL B3 Q1) as [[G1 G2]|(q2 & G1 & G2 & G3 & G4)]; rewrite G1; cbn [rbind].
  - left. split; [reflexivity|]. cbn [o1 ob_eq] in G2. pose proof (zlen_nonneg al). lia.
  - set (A1' := cancelled_list (ob_mkt o1) A Bid bl) in *.
    assert (BK : a_asks A1' = a_asks A) by exact (cancelled_list_other (ob_mkt o1) Bid bl A).
    destruct (cancel_leaves_spec seq k L Ask al (set_eq o1 q2) _ A1' G2) as [[K1 K2]|(q3 & K1 & K2 & K3 & K4)]; try assumption.
    { intros l Hl. cbn [book_of]. rewrite BK. auto. }
    + left. split; [exact K1|]. cbn [set_eq ob_eq o1] in *. unfold A1' in K2. rewrite cancelled_list_evs in K2.
      unfold zlen in *. rewrite app_length, map_length in K2. lia.
    + right. exists (set_eq o1 q3). split; [exact K1|].
      assert (KP : keeps o (set_eq o1 q3)).
      { unfold keeps. cbn [set_eq ob_bids ob_asks ob_eq o1]. split; [apply same_cap_slab; assumption|]. split; [apply same_cap_slab; assumption|].
        cbn [set_eq ob_eq o1] in *. lia. }
      split; [|constructor; [reflexivity|assumption]].
      apply ainv_cinv; [|destruct KP as (-> & _ & _); apply C|destruct KP as (_ & -> & _); apply C|exact K2].
      destruct K3 as [K3a K3b]. unfold A1' in *. constructor; cbn [set_eq ob_bids ob_asks ob_eq o1] in *; try assumption.
      * rewrite X4, (r_bids _ _ R). symmetry. change (a_bids A) with (book_of A Bid). rewrite <- (cancelled_list_book m Bid bl A).
        exact (cancelled_list_other m Ask al (cancelled_list m A Bid bl)).
      * rewrite Y4, (r_asks _ _ R), <- BK. symmetry. exact (cancelled_list_book m Ask al (cancelled_list m A Bid bl)).
Qed.

(** ** Cancelling by client id *)
Lemma named_leaf o seq k oo L A i l : cinv o seq ((k, oo) :: L) A -> 0 <= i < 128 -> is_free oo i = false ->
  lfind (order_at oo i) (book_of A (side_at oo i)) = Some l -> l_owner l = k /\ l_slot l = i.
Proof.
  intros C Hi F LF. apply lfind_Some in LF. destruct LF as [IL KL].
  pose proof (ao_slots _ _ _ _ _ _ (ci_acct _ _ _ _ C k oo (or_introl eq_refl)) i Hi) as S. rewrite F in S.
  destruct S as [_ [_ N]]. exact (N l IL KL).
Qed.
Lemma named_key seq L A k oo i l s m : ainv m seq ((k, oo) :: L) A -> In l (book_of A s) -> l_owner l = k -> l_slot l = i ->
  order_at oo i = l_key l /\ side_at oo i = s /\ is_free oo i = false.
Proof.
  intros AI IL OW SL. destruct (leaf_slot m seq ((k, oo) :: L) A AI s l oo) as (F1 & F2 & F3); [left; congruence|assumption|]. rewrite SL in *. auto.
Qed.

Theorem cancel_by_cid_spec o seq k oo L A cid : cinv o seq ((k, oo) :: L) A -> cid <> 0 ->
  match find (fun i => cid_at oo i =? cid) (tagged oo) with
  | None => cancel_by_cid_core o k oo cid = Err EClientIdNotFound
  | Some i => cancel_by_cid_core o k oo cid = cancel_order_v2 o (side_at oo i) k oo (order_at oo i) /\
      forall l, lfind (order_at oo i) (book_of A (side_at oo i)) = Some l -> l_owner l = k /\ l_slot l = i
  end.
Proof.
  intros C NZ. unfold cancel_by_cid_core.
  rewrite orders_with_client_ids_spec by apply (ci_acct _ _ _ _ C k oo (or_introl eq_refl)). cbn [rbind].
  assert (G : forall ls, find (fun e => cid =? fst (fst e)) (map (slot_entry oo) ls) = option_map (slot_entry oo) (find (fun i => cid_at oo i =? cid) ls)).
  { induction ls as [|i r IH]; cbn [map find]; [reflexivity|]. unfold slot_entry at 1. cbn [fst].
    rewrite Z.eqb_sym. destruct (cid_at oo i =? cid); [reflexivity|exact IH]. }
  rewrite G. destruct (find (fun i => cid_at oo i =? cid) (tagged oo)) as [i|] eqn:F; cbn [option_map ok_or rbind]; [|reflexivity].
  unfold slot_entry. split; [reflexivity|]. apply find_some in F. destruct F as [F _]. apply tagged_In in F. destruct F as (F1 & F2 & _).
  intros l. eapply named_leaf; eassumption.
Qed.

Fixpoint cancel_ids (m : market) (A : astate) (oo : open_orders) (ids : list (Z * side)) : astate * open_orders :=
  match ids with
  | [] => (A, oo)
  | (id, sd) :: r =>
      match lfind id (book_of A sd) with
      | None => cancel_ids m A oo r
      | Some l => cancel_ids m (cancelled m A sd l) (refund oo sd (leaf_val m sd l)) r
      end
  end.
Lemma cancel_done_trans a b c : cancel_done a b -> cancel_done b c -> cancel_done a c.
Proof. intros [X1 X2] [Y1 Y2]. constructor; [congruence|]. eapply keeps_trans; eassumption. Qed.
Lemma refund_slots oo s n i : is_free (refund oo s n) i = is_free oo i /\ order_at (refund oo s n) i = order_at oo i /\ side_at (refund oo s n) i = side_at oo i.
Proof. destruct s; auto. Qed.
Lemma cancel_each_spec seq k L ids : forall o oo A, cinv o seq ((k, oo) :: L) A ->
  (forall id sd, In (id, sd) ids -> exists i, 0 <= i < 128 /\ is_free oo i = false /\ order_at oo i = id /\ side_at oo i = sd) ->
  cancel_each o k oo ids = Err EEventQueueFull \/
  exists o', cancel_each o k oo ids = Ok (o', snd (cancel_ids (ob_mkt o) A oo ids)) /\
    cinv o' seq ((k, snd (cancel_ids (ob_mkt o) A oo ids)) :: L) (fst (cancel_ids (ob_mkt o) A oo ids)) /\ cancel_done o o'.
Proof.
  induction ids as [|[id sd] r IH]; intros o oo A C HI; cbn [cancel_each cancel_ids].
  - right. exists o. split; [reflexivity|]. split; [assumption|]. constructor; [reflexivity|apply keeps_refl].
  - destruct (HI id sd (or_introl eq_refl)) as (i & I1 & I2 & I3 & I4).
    pose proof (cancel_v2_spec o seq k oo L A sd id C) as S.
    destruct (lfind id (book_of A sd)) as [l|] eqn:LF.
    + assert (OW : l_owner l = k).
      { rewrite <- I3, <- I4 in LF. destruct (named_leaf _ _ _ _ _ _ _ _ C I1 I2 LF). assumption. }
      rewrite OW, Z.eqb_refl in S. destruct S as [[S _]|(o1 & S & C1 & D1 & _)]; rewrite S; [left; reflexivity|].
      destruct (IH o1 _ _ C1) as [F|(o' & F1 & F2 & F3)].
      * intros id' sd' H'. destruct (HI id' sd' (or_intror H')) as (j & J1 & J2 & J3 & J4). exists j.
        destruct (refund_slots oo sd (leaf_val (ob_mkt o) sd l) j) as (-> & -> & ->). auto.
      * left. exact F.
      * right. exists o'. rewrite (cd_mkt _ _ D1) in *. split; [exact F1|]. split; [exact F2|]. eapply cancel_done_trans; eassumption.
    + rewrite S. apply IH; [assumption|]. intros id' sd' H'. apply HI. right. assumption.
Qed.
(** Which orders those are, and what comes back. *)
Lemma cancel_ids_book m ids : forall A oo s x, (forall s, sorted (book_of A s)) ->
  In x (book_of (fst (cancel_ids m A oo ids)) s) <-> In x (book_of A s) /\ ~ In (l_key x, s) ids.
Proof.
  induction ids as [|[id sd] r IH]; intros A oo s x SO; cbn [cancel_ids In].
  - cbn [fst]. tauto.
  - destruct (lfind id (book_of A sd)) as [l|] eqn:LF.
    + pose proof (lfind_Some _ _ _ LF) as [IL KL]. rewrite IH by (intros s'; apply hit_sorted; exact SO).
      destruct (side_cases sd s) as [->| ->].
      * rewrite cancelled_book, ldel_In, KL. split; [intros [[X1 X2] X3]; split; [assumption|]; intros [[= X4]|X4]; [congruence|contradiction]|].
        intros [X1 X2]. split; [split; [assumption|]|]; intros X3; apply X2; [left; congruence|right; assumption].
      * rewrite cancelled_other. split; intros [X1 X2]; split; try assumption; intros X3; apply X2; [|right; assumption].
        destruct X3 as [[= X3 X4]|X3]; [exfalso; destruct sd; discriminate|assumption].
    + rewrite IH by assumption. rewrite lfind_None in LF. split; intros [X1 X2]; split; try assumption; intros X3; apply X2; [|right; assumption].
      destruct X3 as [[= X3 X4]|X3]; [|assumption]. exfalso. subst s. apply (LF x X1). congruence.
Qed.
Theorem cancel_by_cids_spec o seq k oo L A cids : cinv o seq ((k, oo) :: L) A -> ~ In 0 cids ->
  let ids := map (fun i => (order_at oo i, side_at oo i)) (filter (fun i => existsb (Z.eqb (cid_at oo i)) cids) (tagged oo)) in
  (cancel_by_cids_core o k oo cids = Err EEventQueueFull \/
   exists o', cancel_by_cids_core o k oo cids = Ok (o', snd (cancel_ids (ob_mkt o) A oo ids)) /\
     cinv o' seq ((k, snd (cancel_ids (ob_mkt o) A oo ids)) :: L) (fst (cancel_ids (ob_mkt o) A oo ids)) /\ cancel_done o o') /\
  forall s l, In l (book_of A s) -> (In (l_key l, s) ids <-> l_owner l = k /\ In (l_cid l) cids).
Proof.
  intros C NZ ids. pose proof (ci_acct _ _ _ _ C k oo (or_introl eq_refl)) as AO. split.
  - unfold cancel_by_cids_core. rewrite orders_with_client_ids_spec by apply AO. cbn [rbind].
    assert (E : map (fun e => (snd (fst e), snd e)) (filter (fun e => existsb (Z.eqb (fst (fst e))) cids) (map (slot_entry oo) (tagged oo))) = ids).
    { unfold ids. clear. induction (tagged oo) as [|i r IH]; cbn [map filter]; [reflexivity|]. unfold slot_entry at 1. cbn [fst].
      destruct (existsb (Z.eqb (cid_at oo i)) cids); cbn [map]; [|exact IH]. f_equal. exact IH. }
    rewrite E. apply cancel_each_spec; [assumption|]. intros id sd H. unfold ids in H. apply in_map_iff in H. destruct H as (i & [= <- <-] & H).
    apply filter_In in H. destruct H as [H _]. apply tagged_In in H. exists i. tauto.
  - intros s l IL. unfold ids. rewrite in_map_iff. split.
    + intros (i & [= E1 E2] & H). apply filter_In in H. destruct H as [H X]. apply tagged_In in H. destruct H as (H1 & H2 & H3).
      assert (LF : lfind (order_at oo i) (book_of A (side_at oo i)) = Some l).
      { rewrite E2. apply lfind_In; [apply (cinv_sorted _ _ _ _ C)|assumption|congruence]. }
      destruct (named_leaf _ _ _ _ _ _ _ _ C H1 H2 LF) as [OW SL]. split; [assumption|].
      rewrite (ao_leaf_cid _ _ _ _ _ _ AO s l IL OW), SL. apply existsb_exists in X. destruct X as (c & Hc & Ec). apply Z.eqb_eq in Ec. rewrite Ec. assumption.
    + intros [OW CI]. exists (l_slot l). destruct (ci_own _ _ _ _ C s l IL) as [_ SL].
      destruct (named_key _ _ _ _ _ _ _ _ _ (cinv_ainv _ _ _ _ C) IL OW eq_refl) as (K1 & K2 & K3). rewrite K1, K2. split; [reflexivity|].
      pose proof (ao_leaf_cid _ _ _ _ _ _ AO s l IL OW) as LC. rewrite LC in CI.
      apply filter_In. split; [apply tagged_In; repeat split; try assumption; try lia; intros E; rewrite E in CI; contradiction|].
      apply existsb_exists. exists (cid_at oo (l_slot l)). split; [assumption|apply Z.eqb_refl].
Qed.
