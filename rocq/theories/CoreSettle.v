(** Settling, opening and closing accounts and sweeping fees keep the market invariant. *)
From Coq Require Import Permutation.
From Verif Require Import Base BaseProofs Fees Critbit CritbitProofs CritbitSlab CritbitOps CritbitSpec CritbitRefine
  Queue QueueSpec QueueProofs Codec ListSum Market Matching MatchSteps MatchRefine MatchAsk MatchBid MatchRun Ledger
  LedgerSteps MatchSpec LedgerRun Slots Core CoreInv CoreNew CoreCancel.

(** Exactly what settling does. *)
Record settle_done (m m' : market) (oo oo' : open_orders) (referrer : bool) (cn pn : Z) (rb : option Z) : Prop := mkSettleDone {
  sd_mkt : same_market m m'; sd_id : same_id oo oo';
  sd_coin : cn = oo_coin_free oo; sd_pc : pn = oo_pc_free oo;
  sd_coin_free : oo_coin_free oo' = 0; sd_pc_free : oo_pc_free oo' = 0; sd_reb0 : oo_rebates oo' = 0;
  sd_coin_total : oo_coin_total oo' = oo_coin_total oo - cn; sd_pc_total : oo_pc_total oo' = oo_pc_total oo - pn;
  sd_dc : m_coin_deposits m' = m_coin_deposits m - cn; sd_dp : m_pc_deposits m' = m_pc_deposits m - pn;
  sd_dr : m_rebates m' = m_rebates m - oo_rebates oo;
  sd_rb : rb = if referrer && (0 <? oo_rebates oo) then Some (oo_rebates oo) else None;
  sd_fees : m_pc_fees m' = m_pc_fees m + match rb with Some _ => 0 | None => oo_rebates oo end;
  sd_slots : oo_free_bits oo' = oo_free_bits oo /\ oo_bid_bits oo' = oo_bid_bits oo /\ oo_orders oo' = oo_orders oo /\ oo_cids oo' = oo_cids oo
}.

Section Settle.
Variables (m : market) (seq k : Z) (oo : open_orders) (L : list acct) (A : astate).
Hypothesis AI : ainv m seq ((k, oo) :: L) A.
Let AO := ai_acct _ _ _ _ AI k oo (or_introl eq_refl).

Lemma all_nonneg : 0 <= sum_coin L /\ 0 <= sum_pc L /\ 0 <= sum_reb L /\ 0 <= zsum ev_rebate (a_evs A).
Proof.
  assert (H : forall x, In x L -> 0 <= oo_coin_total (snd x) /\ 0 <= oo_pc_total (snd x) /\ 0 <= oo_rebates (snd x)).
  { intros [k' o'] HI. pose proof (ai_acct _ _ _ _ AI k' o' (or_intror HI)) as A0. pose proof (ao_coin _ _ _ _ _ _ A0). pose proof (ao_pc _ _ _ _ _ _ A0).
    pose proof (ao_reb _ _ _ _ _ _ A0). unfold u64 in *. cbn [snd]. lia. }
  unfold sum_coin, sum_pc, sum_reb. split; [|split; [|split]]; apply zsum_nonneg; try (intros x Hx; apply (H x Hx)).
  intros x Hx. pose proof (evs_each _ _ _ _ AI x Hx) as X. destruct x as [[] [] ? ? ? ? ? ? ? ?|[] [] ? ? ? ? ? ?]; cbn in *; try lia; apply Z.div_pos; lia.
Qed.
(** Replacing the head account by one with the same locked funds and slots. *)
Lemma acct_rebalanced oo' : oo_wf oo' -> (forall i, is_free oo' i = is_free oo i /\ order_at oo' i = order_at oo i /\ side_at oo' i = side_at oo i /\ cid_at oo' i = cid_at oo i) ->
  0 <= oo_coin_free oo' <= oo_coin_total oo' -> oo_coin_total oo' < B64 -> 0 <= oo_pc_free oo' <= oo_pc_total oo' -> oo_pc_total oo' < B64 ->
  oo_coin_total oo' - oo_coin_free oo' = oo_coin_total oo - oo_coin_free oo -> oo_pc_total oo' - oo_pc_free oo' = oo_pc_total oo - oo_pc_free oo ->
  u64 (oo_rebates oo') -> acct_ok (m_coin_lot m) (m_pc_lot m) seq k oo' A.
Proof.
  intros W S C1 C2 P1 P2 E1 E2 R. pose proof AO as [b1 b2 b3 b4 b5 b6 b7 b8 b9 b10 b11]. constructor; try assumption; try congruence.
  - intros i Hi. destruct (S i) as (S1 & S2 & S3 & S4). unfold slot_named. rewrite S1, S2, S3. apply b9. assumption.
  - intros s l Hl OW. rewrite (proj2 (proj2 (proj2 (S _)))). apply (b10 s l Hl OW).
  - intros x Hx OW. rewrite (proj2 (proj2 (proj2 (S _)))). apply (b11 x Hx OW).
Qed.
(** The pieces of the invariant settling does not touch. *)
Lemma ainv_swap m' oo' : same_market m m' -> acct_ok (m_coin_lot m) (m_pc_lot m) seq k oo' A ->
  u64 (m_coin_deposits m') -> mkt_u64 m' ->
  m_coin_deposits m' - oo_coin_total oo' = m_coin_deposits m - oo_coin_total oo -> m_pc_deposits m' - oo_pc_total oo' = m_pc_deposits m - oo_pc_total oo ->
  oo_rebates oo' - oo_rebates oo <= m_rebates m' - m_rebates m ->
  ainv m' seq ((k, oo') :: L) A.
Proof.
  intros SM AO' U1 U2 E1 E2 E3. pose proof AI as [i1 i2 i3 i4 i5 i6 i7 i8 i9 i10 i11 i12 i13 i14 i15 i16 i17 i18].
  assert (CL : m_coin_lot m' = m_coin_lot m /\ m_pc_lot m' = m_pc_lot m) by (rewrite SM; split; reflexivity). destruct CL as [CL PL].
  apply mkAinv; rewrite ?CL, ?PL; try assumption.
  - intros k' o' [[= <- <-]|HI]; [assumption|]. apply i13. right. assumption.
  - unfold sum_coin in *. cbn [zsum snd] in *. lia.
  - unfold sum_pc in *. cbn [zsum snd] in *. lia.
  - unfold sum_reb in *. cbn [zsum snd] in *. lia.
Qed.
Lemma head_frees : oo_coin_free oo <= m_coin_deposits m /\ oo_pc_free oo <= m_pc_deposits m /\ oo_rebates oo <= m_rebates m.
Proof.
  destruct all_nonneg as (N1 & N2 & N3 & N4). pose proof AI as [i1 i2 i3 i4 i5 i6 i7 i8 i9 i10 i11 i12 i13 i14 i15 i16 i17 i18].
  pose proof (pc_deposits_ge _ _ _ _ _ i11 i8 i13 i14 i15) as GP. pose proof (coin_deposits_ge _ _ _ _ _ i11 i8 i13 i14 i15) as GC.
  rewrite i17 in GP. rewrite i16 in GC.
  assert (0 <= zsum (pc_of (m_pc_lot m)) (a_bids A)) by (apply zsum_nonneg; intros l Hl; exact (proj1 (leaf_val_bounds _ _ _ _ AI Bid l Hl))).
  assert (0 <= zsum (coin_of (m_coin_lot m)) (a_asks A)) by (apply zsum_nonneg; intros l Hl; exact (proj1 (leaf_val_bounds _ _ _ _ AI Ask l Hl))).
  assert (0 <= zsum (fun x : acct => oo_pc_free (snd x)) L) by (apply zsum_nonneg; intros [k' o'] HI; apply (ao_pc _ _ _ _ _ _ (i13 k' o' (or_intror HI)))).
  assert (0 <= zsum (fun x : acct => oo_coin_free (snd x)) L) by (apply zsum_nonneg; intros [k' o'] HI; apply (ao_coin _ _ _ _ _ _ (i13 k' o' (or_intror HI)))).
  unfold sum_reb in i18. cbn [zsum snd] in *. fold (sum_reb L) in i18. unfold acct in *. lia.
Qed.
Theorem settle_spec (referrer : bool) : pc_owed m < B64 ->
  exists m' oo' cn pn rb, settle_core m oo referrer = Ok (m', oo', cn, pn, rb) /\
    settle_done m m' oo oo' referrer cn pn rb /\ ainv m' seq ((k, oo') :: L) A.
Proof.
  intros PO. pose proof (ao_coin _ _ _ _ _ _ AO) as C. pose proof (ao_pc _ _ _ _ _ _ AO) as P. pose proof (ao_coin_max _ _ _ _ _ _ AO) as CM.
  pose proof (ao_pc_max _ _ _ _ _ _ AO) as PM. pose proof (ao_reb _ _ _ _ _ _ AO) as RB. unfold u64 in RB.
  destruct head_frees as (G1 & G2 & G3). pose proof (ai_coin_dep _ _ _ _ AI) as UC. destruct (ai_mkt _ _ _ _ AI) as (UP & UF & UR). unfold u64, pc_owed in *.
  unfold settle_core, csub. replace (oo_coin_free oo <=? oo_coin_total oo) with true by lia. cbn [rbind].
  replace (oo_pc_free oo <=? oo_pc_total oo) with true by lia. cbn [rbind].
  set (pay := referrer && (0 <? oo_rebates oo)).
  set (m' := set_counters m _ _ _ _). set (oo' := set_oo_rebates _ 0).
  exists m', oo', (oo_coin_free oo), (oo_pc_free oo), (if pay then Some (oo_rebates oo) else None). split; [reflexivity|].
  assert (M : m_coin_deposits m' = m_coin_deposits m - oo_coin_free oo /\ m_pc_deposits m' = m_pc_deposits m - oo_pc_free oo /\
    m_rebates m' = m_rebates m - oo_rebates oo /\ m_pc_fees m' = m_pc_fees m + if pay then 0 else oo_rebates oo).
  { unfold m'. cbn [set_counters m_coin_deposits m_pc_deposits m_pc_fees m_rebates]. rewrite !wsub_small by lia. destruct pay; rewrite ?wadd_small by lia; lia. }
  destruct M as (M1 & M2 & M3 & M4). assert (SM : same_market m m') by reflexivity.
  split.
  - constructor; try assumption; try reflexivity; [repeat split|rewrite M4; destruct pay; reflexivity|repeat split].
  - apply ainv_swap; [assumption| | | | | |].
    + apply acct_rebalanced; cbn [oo' set_oo_rebates set_balances oo_coin_free oo_coin_total oo_pc_free oo_pc_total oo_rebates]; try lia.
      * destruct (ao_wf _ _ _ _ _ _ AO). constructor; assumption.
      * intros i. auto.
      * unfold u64. lia.
    + unfold u64. lia.
    + unfold mkt_u64, u64. destruct pay; lia.
    + cbn [oo' set_oo_rebates set_balances oo_coin_total]. lia.
    + cbn [oo' set_oo_rebates set_balances oo_pc_total]. lia.
    + cbn [oo' set_oo_rebates set_balances oo_rebates]. lia.
Qed.
(** Closing: only an account with nothing in flight, and then it can be dropped. *)
Theorem close_spec oo' : close_core oo = Ok oo' ->
  oo' = set_oo_flags oo AF_Closed /\ (forall i, 0 <= i < 128 -> is_free oo i = true) /\
  oo_coin_total oo = 0 /\ oo_pc_total oo = 0 /\
  (forall s l, In l (book_of A s) -> l_owner l <> k) /\ (forall v, In v (a_evs A) -> ev_owner v <> k) /\
  ainv m seq L A.
Proof.
  unfold close_core. intros H. apply rbind_ok in H. destruct H as (? & H1 & H). apply check_ok in H1. apply rbind_ok in H. destruct H as (? & H2 & H). apply check_ok in H2.
  apply rbind_ok in H. destruct H as (? & H3 & H). apply check_ok in H3. injection H as <-. split; [reflexivity|].
  pose proof (proj1 (all_free oo (w_free _ (ao_wf _ _ _ _ _ _ AO))) ltac:(lia)) as FR.
  assert (NL : forall s l, In l (book_of A s) -> l_owner l <> k).
  { intros s l Hl OW. pose proof (proj2 (ai_own _ _ _ _ AI s l Hl)) as SL. pose proof (ao_slots _ _ _ _ _ _ AO _ SL) as S. rewrite (FR _ SL) in S.
    apply (proj1 S s l Hl). split; [assumption|reflexivity]. }
  assert (NE : forall v, In v (a_evs A) -> ev_owner v <> k).
  { intros v Hv OW. pose proof (proj2 (ai_evown _ _ _ _ AI v Hv)) as SL. pose proof (ao_slots _ _ _ _ _ _ AO _ SL) as S. rewrite (FR _ SL) in S.
    assert (IN : In v (slot_events k (ev_slot v) A)) by (apply slot_event_In; auto). rewrite (proj2 S) in IN. destruct IN. }
  split; [assumption|]. split; [lia|]. split; [lia|]. split; [assumption|]. split; [assumption|].
  pose proof AI as [i1 i2 i3 i4 i5 i6 i7 i8 i9 i10 i11 i12 i13 i14 i15 i16 i17 i18]. pose proof (ao_reb _ _ _ _ _ _ AO) as RB. unfold u64 in RB.
  cbn [map fst] in i11, i12, i14, i15. apply NoDup_cons_iff in i11.
  apply mkAinv; try assumption.
  - apply i11.
  - intros HI. apply i12. right. assumption.
  - intros k' o' HI. apply i13. right. assumption.
  - intros s l Hl. destruct (i14 s l Hl) as [[X|X] Y]; [|auto]. exfalso. apply (NL s l Hl). auto.
  - intros v Hv. destruct (i15 v Hv) as [[X|X] Y]; [|auto]. exfalso. apply (NE v Hv). auto.
  - unfold sum_coin in *. cbn [zsum snd] in *. lia.
  - unfold sum_pc in *. cbn [zsum snd] in *. lia.
  - unfold sum_reb in *. cbn [zsum snd] in *. lia.
Qed.
End Settle.

(** A freshly opened account. *)
Theorem open_inv m seq k oo oo' mkt owner L A : ainv m seq L A -> ~ In k (map fst L) -> k <> 0 ->
  oo_wf oo -> oo_rebates oo = 0 -> oo_init oo mkt owner = Ok oo' -> ainv m seq ((k, oo') :: L) A.
Proof.
  intros AI NI NZ W RZ IN. destruct (init_wf _ _ _ _ W IN) as [W' FR].
  unfold oo_init in IN. apply rbind_ok in IN. destruct IN as (? & _ & IN). injection IN as <-. set (oo' := mkOO _ _ _ _ _ _ _ _ _ _ _ _) in *.
  pose proof AI as [i1 i2 i3 i4 i5 i6 i7 i8 i9 i10 i11 i12 i13 i14 i15 i16 i17 i18].
  assert (NL : forall s l, In l (book_of A s) -> l_owner l <> k) by (intros s l Hl OW; apply NI; rewrite <- OW; apply (i14 s l Hl)).
  assert (NE : forall v, In v (a_evs A) -> ev_owner v <> k) by (intros v Hv OW; apply NI; rewrite <- OW; apply (i15 v Hv)).
  apply mkAinv; try assumption.
  - cbn [map fst]. constructor; assumption.
  - intros [X|X]; [cbn in X; congruence|auto].
  - intros k' o' [[= <- <-]|HI]; [|auto].
    assert (Z1 : forall f, zsum (mine l_owner k f) (a_bids A) = 0 /\ zsum (mine l_owner k f) (a_asks A) = 0).
    { intros f. split; apply zsum_zero; intros l Hl; unfold mine; destruct (Z.eqb_spec (l_owner l) k) as [E|E]; try reflexivity; exfalso;
        [apply (NL Bid l Hl E)|apply (NL Ask l Hl E)]. }
    assert (Z2 : forall f, zsum (mine ev_owner k f) (a_evs A) = 0).
    { intros f. apply zsum_zero; intros v Hv; unfold mine; destruct (Z.eqb_spec (ev_owner v) k) as [E|E]; try reflexivity. exfalso. apply (NE v Hv E). }
    constructor; try assumption; try (unfold oo', locked_coin, locked_pc; cbn [oo_coin_free oo_coin_total oo_pc_free oo_pc_total oo_rebates]; rewrite ?Z2, ?(proj1 (Z1 _)), ?(proj2 (Z1 _)); unfold u64; lia).
    + intros i Hi. rewrite (FR i Hi). split; [intros s l Hl [OW _]; exact (NL s l Hl OW)|].
      unfold slot_events. apply filter_none. intros v Hv. destruct (evb k i v) eqn:EB; [|reflexivity]. apply evb_true in EB. exfalso. apply (NE v Hv). apply EB.
    + intros s l Hl OW. exfalso. exact (NL s l Hl OW).
    + intros v Hv OW. exfalso. exact (NE v Hv OW).
  - intros s l Hl. destruct (i14 s l Hl). split; [right; assumption|assumption].
  - intros v Hv. destruct (i15 v Hv). split; [right; assumption|assumption].
  - unfold sum_reb in *. cbn [zsum snd] in *. unfold oo', acct in *. cbn [oo_rebates]. lia.
Qed.
(** Sweeping the fees (and disabling) leaves the books, accounts and deposits alone. *)
Lemma ainv_mkt m m' seq L A : ainv m seq L A -> m_coin_lot m' = m_coin_lot m -> m_pc_lot m' = m_pc_lot m ->
  m_coin_deposits m' = m_coin_deposits m -> m_pc_deposits m' = m_pc_deposits m -> m_rebates m' = m_rebates m -> u64 (m_pc_fees m') -> ainv m' seq L A.
Proof.
  intros [i1 i2 i3 i4 i5 i6 i7 i8 i9 i10 i11 i12 i13 i14 i15 i16 i17 i18] E1 E2 E3 E4 E5 U. apply mkAinv; rewrite ?E1, ?E2, ?E3, ?E4, ?E5; try assumption.
  destruct i5 as (U1 & _ & U3). unfold mkt_u64. rewrite E4, E5. auto.
Qed.
(** The blank market starts in the invariant. *)
Theorem ainv_init m : 0 < m_coin_lot m -> 0 < m_pc_lot m -> m_coin_deposits m = 0 -> m_pc_deposits m = 0 -> m_pc_fees m = 0 -> m_rebates m = 0 ->
  ainv m 0 [] (mkA [] [] []).
Proof.
  intros C P E1 E2 E3 E4. assert (NB : forall s l, ~ In l (book_of (mkA [] [] []) s)) by (intros [] l []).
  apply mkAinv; unfold mkt_u64; rewrite ?E1, ?E2, ?E3, ?E4; unfold u64; try lia; try assumption.
  - intros []; constructor.
  - constructor; intros l [].
  - intros b a [].
  - constructor.
  - intros s l Hl. destruct (NB s l Hl).
  - constructor.
  - intros [].
  - intros k oo [].
  - intros s l Hl. destruct (NB s l Hl).
  - intros v [].
  - reflexivity.
  - reflexivity.
  - unfold sum_reb. cbn. lia.
Qed.
