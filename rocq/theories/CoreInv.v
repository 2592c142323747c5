(** The invariant of one market: its books, event queue, counters and live open-orders accounts. *)
From Coq Require Import Permutation.
From Verif Require Import Base BaseProofs Fees Critbit CritbitProofs CritbitSlab Queue QueueProofs Codec ListSum Market Matching
  MatchSteps MatchRefine MatchAsk MatchBid MatchRun Ledger LedgerSteps MatchSpec LedgerRun Slots.

Definition ev_cid (v : event_view) : Z :=
  match v with EvFill _ _ _ _ _ _ _ _ _ c => c | EvOut _ _ _ _ _ _ _ c => c end.
(** An id the market has handed out on side [s] before its counter reached [seq]. *)
Definition issued (seq : Z) (s : side) (id : Z) : Prop :=
  exists p n, 0 < p < B64 /\ 0 <= n < seq /\ id = p * B64 + seq_part s n.
(** The order a busy slot names. *)
Definition slot_named (seq : Z) (k i : Z) (oo : open_orders) (A : astate) : Prop :=
  issued seq (side_at oo i) (order_at oo i) /\
  forall l, In l (book_of A (side_at oo i)) -> l_key l = order_at oo i -> at_slot k i l.

(** What open-orders account [k] records agrees with the books and the unconsumed events. *)
Record acct_ok (cl pl seq k : Z) (oo : open_orders) (A : astate) : Prop := mkAcct {
  ao_wf : oo_wf oo;
  ao_coin : 0 <= oo_coin_free oo <= oo_coin_total oo; ao_coin_max : oo_coin_total oo < B64;
  ao_pc : 0 <= oo_pc_free oo <= oo_pc_total oo; ao_pc_max : oo_pc_total oo < B64;
  ao_lcoin : oo_coin_total oo - oo_coin_free oo = locked_coin cl k A;
  ao_lpc : oo_pc_total oo - oo_pc_free oo = locked_pc pl k A;
  ao_reb : u64 (oo_rebates oo);
  ao_slots : forall i, 0 <= i < 128 ->
    if is_free oo i then slot_free k i A
    else slot_busy k i (order_at oo i) (side_at oo i) A /\ slot_named seq k i oo A;
  ao_leaf_cid : forall s l, In l (book_of A s) -> l_owner l = k -> l_cid l = cid_at oo (l_slot l);
  ao_ev_cid : forall v, In v (a_evs A) -> ev_owner v = k -> ev_cid v = cid_at oo (ev_slot v)
}.

Definition acct := (Z * open_orders)%type.
Definition sum_coin (L : list acct) : Z := zsum (fun x => oo_coin_total (snd x)) L.
Definition sum_pc (L : list acct) : Z := zsum (fun x => oo_pc_total (snd x)) L.
Definition sum_reb (L : list acct) : Z := zsum (fun x => oo_rebates (snd x)) L.

Record cinv (o : obs) (seq : Z) (L : list acct) (A : astate) : Prop := mkCinv {
  ci_rep : rep o A;
  ci_cl : 0 < m_coin_lot (ob_mkt o); ci_pl : 0 < m_pc_lot (ob_mkt o);
  ci_capb : 2 < slab_cap (ob_bids o); ci_capa : 2 < slab_cap (ob_asks o);
  ci_coin_dep : u64 (m_coin_deposits (ob_mkt o)); ci_mkt : mkt_u64 (ob_mkt o);
  ci_fit : books_fit (m_coin_lot (ob_mkt o)) (m_pc_lot (ob_mkt o)) A;
  ci_unx : unx A; ci_evs : evs_ok A;
  ci_seq : 0 <= seq < B64;
  ci_keys : forall s l, In l (book_of A s) -> issued seq s (l_key l);
  ci_nodup : NoDup (map fst L); ci_nz : ~ In 0 (map fst L);
  ci_acct : forall k oo, In (k, oo) L -> acct_ok (m_coin_lot (ob_mkt o)) (m_pc_lot (ob_mkt o)) seq k oo A;
  ci_own : forall s l, In l (book_of A s) -> In (l_owner l) (map fst L) /\ 0 <= l_slot l < 128;
  ci_evown : forall v, In v (a_evs A) -> In (ev_owner v) (map fst L) /\ 0 <= ev_slot v < 128;
  ci_coin : sum_coin L + zsum ev_coin (a_evs A) = m_coin_deposits (ob_mkt o);
  ci_pc : sum_pc L + zsum ev_pc (a_evs A) = m_pc_deposits (ob_mkt o);
  ci_reb : sum_reb L + zsum ev_rebate (a_evs A) <= m_rebates (ob_mkt o)
}.

Lemma cinv_perm o seq L L' A : Permutation L L' -> cinv o seq L A -> cinv o seq L' A.
Proof.
  intros P []. assert (PM : Permutation (map fst L) (map fst L')) by (apply Permutation_map; assumption).
  assert (IN : forall x, In x (map fst L) <-> In x (map fst L')) by
    (intros; split; apply Permutation_in; [|symmetry]; assumption).
  assert (S1 : sum_coin L' = sum_coin L) by (symmetry; apply zsum_perm; assumption).
  assert (S2 : sum_pc L' = sum_pc L) by (symmetry; apply zsum_perm; assumption).
  assert (S3 : sum_reb L' = sum_reb L) by (symmetry; apply zsum_perm; assumption).
  constructor; try assumption.
  - eapply Permutation_NoDup; eassumption.
  - rewrite <- IN. assumption.
  - intros k oo H. apply ci_acct0. eapply Permutation_in; [symmetry|]; eassumption.
  - intros s l H. rewrite <- IN. eauto.
  - intros v H. rewrite <- IN. eauto.
  - rewrite S1. assumption.
  - rewrite S2. assumption.
  - rewrite S3. assumption.
Qed.

(** ** Sums over the owners *)
Lemma zsum_owner {X} (own : X -> Z) f (keys : list Z) x : NoDup keys -> In (own x) keys ->
  zsum (fun k => mine own k f x) keys = f x.
Proof.
  induction keys as [|k r IH]; intros ND IN; [destruct IN|]. inversion ND as [|? ? N1 N2]; subst. cbn [zsum].
  unfold mine at 1. destruct (own x =? k) eqn:E.
  - rewrite zsum_zero; [lia|]. intros y Hy. unfold mine.
    destruct (own x =? y) eqn:EY; [|reflexivity]. assert (y = k) by lia. subst y. contradiction.
  - destruct IN as [IN|IN]; [lia|]. rewrite IH by assumption. lia.
Qed.
Lemma zsum_swap {X Y} (f : X -> Y -> Z) (xs : list X) (ys : list Y) :
  zsum (fun x => zsum (f x) ys) xs = zsum (fun y => zsum (fun x => f x y) xs) ys.
Proof.
  induction xs as [|x r IH]; cbn [zsum].
  - symmetry. apply zsum_0.
  - rewrite IH. rewrite <- zsum_plus. reflexivity.
Qed.
Lemma zsum_owners {X} (own : X -> Z) f keys (xs : list X) : NoDup keys -> (forall x, In x xs -> In (own x) keys) ->
  zsum (fun k => zsum (mine own k f) xs) keys = zsum f xs.
Proof. intros ND IN. rewrite zsum_swap. apply zsum_ext. intros x Hx. apply zsum_owner; auto. Qed.

Lemma ev_lock_pc_ge v : ev_ok v -> - ev_lock_pc v <= ev_pc v.
Proof. destruct v as [[] [] ? ? ? ? ? ? ? ?|[] [] ? ? ? ? ? ?]; cbn; lia. Qed.
Lemma ev_lock_coin_ge v : ev_ok v -> - ev_lock_coin v <= ev_coin v.
Proof. destruct v as [[] [] ? ? ? ? ? ? ? ?|[] [] ? ? ? ? ? ?]; cbn; lia. Qed.
Lemma ev_lock_nonneg v : ev_ok v -> 0 <= ev_lock_pc v /\ 0 <= ev_lock_coin v.
Proof. destruct v as [[] [] ? ? ? ? ? ? ? ?|[] [] ? ? ? ? ? ?]; cbn; lia. Qed.
Lemma zsum_opp {X} (f : X -> Z) l : zsum (fun x => - f x) l = - zsum f l.
Proof. induction l; cbn [zsum]; lia. Qed.

Section Totals.
Variables (cl pl seq : Z) (L : list acct) (A : astate).
Hypothesis (ND : NoDup (map fst L)) (EV : evs_ok A) (BF : books_fit cl pl A) (Hcl : 0 < cl) (Hpl : 0 < pl)
  (ACC : forall k oo, In (k, oo) L -> acct_ok cl pl seq k oo A)
  (OWN : forall s l, In l (book_of A s) -> In (l_owner l) (map fst L) /\ 0 <= l_slot l < 128)
  (EVO : forall v, In v (a_evs A) -> In (ev_owner v) (map fst L) /\ 0 <= ev_slot v < 128).
Lemma sum_locked_pc : zsum (fun x => oo_pc_total (snd x) - oo_pc_free (snd x)) L = zsum (pc_of pl) (a_bids A) + zsum ev_lock_pc (a_evs A).
Proof.
  rewrite (zsum_ext _ (fun x => locked_pc pl (fst x) A)).
  2: { intros [k oo] H. cbn. apply (ao_lpc _ _ _ _ _ _ (ACC k oo H)). }
  rewrite <- (zsum_map (fun k => locked_pc pl k A) fst). unfold locked_pc. rewrite zsum_plus. f_equal; apply zsum_owners; try assumption.
  - intros x Hx. apply (OWN Bid). assumption.
  - intros x Hx. apply EVO. assumption.
Qed.
Lemma sum_locked_coin : zsum (fun x => oo_coin_total (snd x) - oo_coin_free (snd x)) L = zsum (coin_of cl) (a_asks A) + zsum ev_lock_coin (a_evs A).
Proof.
  rewrite (zsum_ext _ (fun x => locked_coin cl (fst x) A)).
  2: { intros [k oo] H. cbn. apply (ao_lcoin _ _ _ _ _ _ (ACC k oo H)). }
  rewrite <- (zsum_map (fun k => locked_coin cl k A) fst). unfold locked_coin. rewrite zsum_plus. f_equal; apply zsum_owners; try assumption.
  - intros x Hx. apply (OWN Ask). assumption.
  - intros x Hx. apply EVO. assumption.
Qed.
Lemma evs_pc_ge : - zsum ev_lock_pc (a_evs A) <= zsum ev_pc (a_evs A).
Proof.
  rewrite <- zsum_opp. apply zsum_le. intros v Hv. apply ev_lock_pc_ge. unfold evs_ok in EV. rewrite Forall_forall in EV. auto.
Qed.
Lemma evs_coin_ge : - zsum ev_lock_coin (a_evs A) <= zsum ev_coin (a_evs A).
Proof.
  rewrite <- zsum_opp. apply zsum_le. intros v Hv. apply ev_lock_coin_ge. unfold evs_ok in EV. rewrite Forall_forall in EV. auto.
Qed.
(** Deposits cover what backs the resting bids (asks) and all free balances. *)
Lemma pc_deposits_ge : zsum (pc_of pl) (a_bids A) + zsum (fun x => oo_pc_free (snd x)) L <= sum_pc L + zsum ev_pc (a_evs A).
Proof.
  pose proof sum_locked_pc. pose proof evs_pc_ge.
  assert (sum_pc L = zsum (fun x => oo_pc_total (snd x) - oo_pc_free (snd x)) L + zsum (fun x => oo_pc_free (snd x)) L).
  { rewrite <- zsum_plus. apply zsum_ext. intros; cbn; lia. }
  lia.
Qed.
Lemma coin_deposits_ge : zsum (coin_of cl) (a_asks A) + zsum (fun x => oo_coin_free (snd x)) L <= sum_coin L + zsum ev_coin (a_evs A).
Proof.
  pose proof sum_locked_coin. pose proof evs_coin_ge.
  assert (sum_coin L = zsum (fun x => oo_coin_total (snd x) - oo_coin_free (snd x)) L + zsum (fun x => oo_coin_free (snd x)) L).
  { rewrite <- zsum_plus. apply zsum_ext. intros; cbn; lia. }
  lia.
Qed.
Lemma bids_nonneg l : In l (a_bids A) -> 0 <= pc_of pl l.
Proof. intros H. destruct (f_bids _ _ _ BF l H) as (H1 & H2 & _). unfold pc_of. nia. Qed.
Lemma asks_nonneg l : In l (a_asks A) -> 0 <= coin_of cl l.
Proof. intros H. destruct (f_asks _ _ _ BF l H) as (H1 & H2 & _). unfold coin_of. nia. Qed.
Lemma pc_deposits_nonneg : 0 <= sum_pc L + zsum ev_pc (a_evs A).
Proof.
  pose proof pc_deposits_ge. assert (0 <= zsum (pc_of pl) (a_bids A)) by (apply zsum_nonneg; exact bids_nonneg).
  assert (0 <= zsum (fun x => oo_pc_free (snd x)) L).
  { apply zsum_nonneg. intros [k oo] H'. cbn. pose proof (ao_pc _ _ _ _ _ _ (ACC k oo H')). lia. }
  lia.
Qed.
Lemma coin_deposits_nonneg : 0 <= sum_coin L + zsum ev_coin (a_evs A).
Proof.
  pose proof coin_deposits_ge. assert (0 <= zsum (coin_of cl) (a_asks A)) by (apply zsum_nonneg; exact asks_nonneg).
  assert (0 <= zsum (fun x => oo_coin_free (snd x)) L).
  { apply zsum_nonneg. intros [k oo] H'. cbn. pose proof (ao_coin _ _ _ _ _ _ (ACC k oo H')). lia. }
  lia.
Qed.
End Totals.

Lemma cinv_bids_value o seq L A : cinv o seq L A ->
  zsum (pc_of (m_pc_lot (ob_mkt o))) (a_bids A) + zsum (fun x => oo_pc_free (snd x)) L <= m_pc_deposits (ob_mkt o).
Proof. intros []. rewrite <- ci_pc0. eapply pc_deposits_ge; eauto. Qed.
Lemma cinv_asks_value o seq L A : cinv o seq L A ->
  zsum (coin_of (m_coin_lot (ob_mkt o))) (a_asks A) + zsum (fun x => oo_coin_free (snd x)) L <= m_coin_deposits (ob_mkt o).
Proof. intros []. rewrite <- ci_coin0. eapply coin_deposits_ge; eauto. Qed.
Lemma cinv_frees o seq L A : cinv o seq L A -> forall k oo, In (k, oo) L ->
  oo_coin_free oo <= m_coin_deposits (ob_mkt o) /\ oo_pc_free oo <= m_pc_deposits (ob_mkt o) /\ oo_rebates oo <= m_rebates (ob_mkt o).
Proof.
  intros C k oo H. pose proof (cinv_bids_value _ _ _ _ C). pose proof (cinv_asks_value _ _ _ _ C). destruct C.
  assert (0 <= zsum (pc_of (m_pc_lot (ob_mkt o))) (a_bids A)) by (apply zsum_nonneg; intros; eapply bids_nonneg; eassumption).
  assert (0 <= zsum (coin_of (m_coin_lot (ob_mkt o))) (a_asks A)) by (apply zsum_nonneg; intros; eapply asks_nonneg; eassumption).
  assert (oo_pc_free oo <= zsum (fun x => oo_pc_free (snd x)) L).
  { apply (zsum_In_le (fun x : acct => oo_pc_free (snd x)) L (k, oo)); [|assumption].
    intros [k' oo'] H'. pose proof (ao_pc _ _ _ _ _ _ (ci_acct0 _ _ H')). cbn. lia. }
  assert (oo_coin_free oo <= zsum (fun x => oo_coin_free (snd x)) L).
  { apply (zsum_In_le (fun x : acct => oo_coin_free (snd x)) L (k, oo)); [|assumption].
    intros [k' oo'] H'. pose proof (ao_coin _ _ _ _ _ _ (ci_acct0 _ _ H')). cbn. lia. }
  assert (oo_rebates oo <= sum_reb L).
  { apply (zsum_In_le (fun x : acct => oo_rebates (snd x)) L (k, oo)); [|assumption].
    intros [k' oo'] H'. pose proof (ao_reb _ _ _ _ _ _ (ci_acct0 _ _ H')). unfold u64 in *. cbn. lia. }
  assert (0 <= zsum ev_rebate (a_evs A)).
  { apply zsum_nonneg. intros v Hv. unfold evs_ok in *. rewrite Forall_forall in *. specialize (ci_evs0 v Hv).
    destruct v as [? [] ? ? ? ? ? ? ? ?|]; cbn in *; try lia. apply Z.div_pos; lia. }
  lia.
Qed.
(** Two accounts of the list under one key are one account. *)
Lemma nodup_key {X} k (a b : X) (L : list (Z * X)) : NoDup (map fst L) -> In (k, a) L -> In (k, b) L -> a = b.
Proof.
  induction L as [|[k' x] r IH]; intros ND H1 H2; [destruct H1|]. cbn [map fst] in ND. inversion ND; subst.
  assert (N : forall y, ~ In (k', y) r) by (intros y Hy; apply H3; change k' with (fst (k', y)); apply in_map; assumption).
  destruct H1 as [H1|H1], H2 as [H2|H2]; [congruence| | |auto]; exfalso.
  - inversion H1; subst. eapply N; eassumption.
  - inversion H2; subst. eapply N; eassumption.
Qed.
Lemma issued_weaken seq seq' s id : seq <= seq' -> issued seq s id -> issued seq' s id.
Proof. intros H (p & n & H1 & H2 & H3). exists p, n. repeat split; try assumption; lia. Qed.
Lemma issued_u128 seq s id : seq <= B64 -> issued seq s id -> u128 id /\ 0 < id / B64.
Proof.
  intros H (p & n & H1 & H2 & ->). assert (0 <= seq_part s n < B64) by (unfold seq_part; destruct s; lia).
  split; [unfold u128; nia|]. rewrite (Z.div_add_l p B64) by lia. rewrite (Z.div_small _ B64) by lia. lia.
Qed.
Lemma issued_price seq s id : seq <= B64 -> issued seq s id -> id / B64 < B64.
Proof.
  intros H (p & n & H1 & H2 & ->). assert (0 <= seq_part s n < B64) by (unfold seq_part; destruct s; lia).
  rewrite (Z.div_add_l p B64) by lia. rewrite (Z.div_small _ B64) by lia. lia.
Qed.
(** The next id is new on its side. *)
Lemma next_fresh seq s id p : 0 <= seq < B64 -> 0 < p < B64 -> issued seq s id -> id <> p * B64 + seq_part s seq.
Proof.
  intros HS HP (p' & n & H1 & H2 & ->) E. unfold seq_part in E. destruct s; nia.
Qed.
