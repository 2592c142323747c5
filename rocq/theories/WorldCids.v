(** Cancelling by client order id always works when the event queue has room. *)
From Coq Require Import Permutation.
From Verif Require Import Base BaseProofs Fees ListSum Queue QueueProofs Codec CodecProofs Critbit CritbitProofs CritbitSlab CritbitOps Market Matching MatchSteps MatchRefine MatchAsk MatchBid MatchRun MatchSpec Ledger LedgerSteps LedgerRun MatchReport MatchOrder MatchFacts Slots Core CoreInv CoreNew CoreCancel CoreConsume CoreSettle CoreFrame Instr InstrProofs Store Process StoreProofs World WorldInv WorldLoad WorldRun WorldStep WorldStep2 WorldConsume WorldInit WorldMain WorldSpec WorldFacts WorldFwd WorldCancel.

(** Every order that leaves the book leaves one event. *)
Lemma cancel_ids_size m ids : forall A oo, (forall s, sorted (book_of A s)) ->
  let A' := fst (cancel_ids m A oo ids) in zlen (a_evs A') + zlen (a_bids A') + zlen (a_asks A') = zlen (a_evs A) + zlen (a_bids A) + zlen (a_asks A) /\ (forall s, sorted (book_of A' s)).
Proof.
  induction ids as [|[id sd] r IH]; intros A oo SO; cbn [cancel_ids].
  - cbn [fst]. split; [reflexivity|exact SO].
  - destruct (lfind id (book_of A sd)) as [l|] eqn:LF; [|apply IH; exact SO].
    destruct (IH (cancelled m A sd l) (refund oo sd (leaf_val m sd l))) as [E1 E2]; [intros s; apply hit_sorted; exact SO|]. split; [|exact E2]. rewrite E1, cancelled_evs.
    destruct (lfind_Some _ _ _ LF) as [_ KL]. pose proof (ldel_len_some _ _ _ (SO sd) LF) as DL. pose proof (cancelled_book m A sd l) as B1. pose proof (cancelled_other m A sd l) as B2. rewrite KL in B1.
    destruct sd; cbn [book_of other] in *; rewrite B1, B2, DL; unfold zlen; rewrite app_length; cbn [length]; lia.
Qed.
Lemma cancel_each_room seq k L ids : forall o oo A, cinv o seq ((k, oo) :: L) A ->
  (forall id sd, In (id, sd) ids -> exists i, 0 <= i < 128 /\ is_free oo i = false /\ order_at oo i = id /\ side_at oo i = sd) ->
  zlen (a_evs (fst (cancel_ids (ob_mkt o) A oo ids))) <= zlen (q_buf (ob_eq o)) ->
  exists r, cancel_each o k oo ids = Ok r.
Proof.
  induction ids as [|[id sd] r IH]; intros o oo A C HI RM; cbn [cancel_each cancel_ids] in *; [eauto|].
  destruct (HI id sd (or_introl eq_refl)) as (i & I1 & I2 & I3 & I4). pose proof (cancel_v2_spec o seq k oo L A sd id C) as S.
  destruct (lfind id (book_of A sd)) as [l|] eqn:LF.
  - assert (OW : l_owner l = k). { rewrite <- I3, <- I4 in LF. destruct (named_leaf _ _ _ _ _ _ _ _ C I1 I2 LF). assumption. }
    rewrite OW, Z.eqb_refl in S.
    assert (MO : forall ids A oo, zlen (a_evs A) <= zlen (a_evs (fst (cancel_ids (ob_mkt o) A oo ids)))).
    { clear. induction ids as [|[id sd] r IH]; intros A oo; cbn [cancel_ids]; [cbn [fst]; lia|]. destruct (lfind id (book_of A sd)) as [l|]; [|apply IH]. etransitivity; [|apply IH]. rewrite cancelled_evs. unfold zlen. rewrite app_length. lia. }
    pose proof (MO r (cancelled (ob_mkt o) A sd l) (refund oo sd (leaf_val (ob_mkt o) sd l))) as M1. rewrite cancelled_evs in M1. unfold zlen at 1 in M1. rewrite app_length in M1. cbn [length] in M1.
    destruct S as [[_ F]|(o1 & S & C1 & D1 & _)]; [exfalso; unfold zlen in *; lia|]. rewrite S. eapply IH; [exact C1| |].
    + intros id' sd' H'. destruct (HI id' sd' (or_intror H')) as (j & J1 & J2 & J3 & J4). exists j. destruct (refund_slots oo sd (leaf_val (ob_mkt o) sd l) j) as (-> & -> & ->). auto.
    + rewrite (cd_mkt _ _ D1). destruct (cd_keeps _ _ D1) as (_ & _ & ->). exact RM.
  - rewrite S. eapply IH; [exact C| |exact RM]. intros id' sd' H'. apply HI. right. exact H'.
Qed.
Lemma filter_split {X} (f : X -> bool) l : zlen (filter f l) + zlen (filter (fun y => negb (f y)) l) = zlen l.
Proof. unfold zlen. induction l as [|y r IH]; cbn [filter length]; [reflexivity|]. destruct (f y); cbn [negb length]; lia. Qed.
Lemma with_cid_one x cids bk : with_cid x cids bk = filter (fun l => existsb (Z.eqb (l_cid l)) cids && negb (l_cid l =? 0) && (l_owner l =? x)) bk.
Proof.
  unfold with_cid, own_orders. induction bk as [|l r IH]; cbn [filter]; [reflexivity|].
  destruct (l_owner l =? x); cbn [filter]; [|rewrite andb_false_r; exact IH]. rewrite andb_true_r. destruct (existsb (Z.eqb (l_cid l)) cids && negb (l_cid l =? 0)); [f_equal|]; exact IH.
Qed.
Lemma kept_size m A oo ids sd x cids : (forall s, sorted (book_of A s)) -> ~ In 0 cids ->
  (forall l, In l (book_of A sd) -> In (l_key l, sd) ids -> l_owner l = x /\ In (l_cid l) cids) ->
  zlen (book_of A sd) - zlen (with_cid x cids (book_of A sd)) <= zlen (book_of (fst (cancel_ids m A oo ids)) sd).
Proof.
  intros SO NZ IDS. rewrite with_cid_one. match goal with |- context [filter ?g _] => set (f := g) end. pose proof (filter_split f (book_of A sd)) as FS.
  assert (GO : zlen (filter (fun y => negb (f y)) (book_of A sd)) <= zlen (book_of (fst (cancel_ids m A oo ids)) sd)); [|lia].
  unfold zlen. apply inj_le, NoDup_incl_length; [apply NoDup_filter, sorted_nodup, SO|].
  intros l I. apply filter_In in I. destruct I as [I NF]. apply cancel_ids_book; [exact SO|]. split; [exact I|]. intros J. destruct (IDS l I J) as [OW CI].
  unfold f in NF. rewrite OW, Z.eqb_refl, andb_true_r in NF. assert (l_cid l <> 0) by (intros Z0; rewrite Z0 in CI; contradiction).
  replace (l_cid l =? 0) with false in NF by lia. assert (T : existsb (Z.eqb (l_cid l)) cids = true) by (apply existsb_exists; exists (l_cid l); split; [exact CI|apply Z.eqb_refl]). rewrite T in NF. discriminate.
Qed.
Lemma cids_ids o seq x oo rest A cids : cinv o seq ((x, oo) :: rest) A -> ~ In 0 cids ->
  exists ids, cancel_by_cids_core o x oo cids = cancel_each o x oo ids /\
    (forall id sd, In (id, sd) ids -> exists i, 0 <= i < 128 /\ is_free oo i = false /\ order_at oo i = id /\ side_at oo i = sd) /\
    (forall sd l, In l (book_of A sd) -> In (l_key l, sd) ids -> l_owner l = x /\ In (l_cid l) cids).
Proof.
  intros C NZ. pose proof (ci_acct _ _ _ _ C x oo (or_introl eq_refl)) as AO.
  exists (map (fun i => (order_at oo i, side_at oo i)) (filter (fun i => existsb (Z.eqb (cid_at oo i)) cids) (tagged oo))). split; [|split].
  - unfold cancel_by_cids_core. rewrite orders_with_client_ids_spec by apply AO. cbn [rbind]. f_equal. generalize (tagged oo). intros t. induction t as [|i r IH]; cbn [map filter]; [reflexivity|]. unfold slot_entry at 1. cbn [fst].
    destruct (existsb (Z.eqb (cid_at oo i)) cids); cbn [map]; [|exact IH]. f_equal. exact IH.
  - intros id sd H. apply in_map_iff in H. destruct H as (i & H' & H). injection H' as H1 H2. apply filter_In in H. destruct H as [H _]. apply tagged_In in H. exists i. tauto.
  - intros sd l I J. exact (proj1 (proj2 (cancel_by_cids_spec o seq x oo rest A cids C NZ) sd l I) J).
Qed.
Lemma cancel_cids_core_ok o seq x oo rest A cids : cinv o seq ((x, oo) :: rest) A -> ~ In 0 cids ->
  zlen (a_evs A) + zlen (with_cid x cids (a_bids A)) + zlen (with_cid x cids (a_asks A)) <= zlen (q_buf (ob_eq o)) ->
  exists r, cancel_by_cids_core o x oo cids = Ok r.
Proof.
  intros C NZ RM. destruct (cids_ids o seq x oo rest A cids C NZ) as (ids & E & ND & IDS). rewrite E. clear E. pose proof (cinv_sorted _ _ _ _ C) as SO.
  eapply cancel_each_room; [exact C|exact ND|]. destruct (cancel_ids_size (ob_mkt o) ids A oo SO) as [SZ _].
  pose proof (kept_size (ob_mkt o) A oo ids Bid x cids SO NZ (IDS Bid)) as XB. pose proof (kept_size (ob_mkt o) A oo ids Ask x cids SO NZ (IDS Ask)) as XA. cbn [book_of] in XB, XA. clear - SZ XB XA RM. lia.
Qed.

Section Cids.
Variable e : env.
Hypothesis EO : env_ok e.
Notation D := (dexd e).
Variables (s : store) (k : Z) (m : market) (A : astate) (L : list (Z * open_orders)).
Hypothesis (WI : winv e s) (SN : seen e s k m A L) (P : usable m).
Definition cancel_accounts (x w : Z) (rest : list meta) : list meta :=
  mkMeta k false :: mkMeta (m_bids m) false :: mkMeta (m_asks m) false :: mkMeta x false :: mkMeta w true :: mkMeta (m_event_q m) false :: rest.
Lemma cancel_fwd core x oo rest n : In (x, oo) L -> places e s m n ->
  (forall o seq r, cinv o seq ((x, oo) :: r) A -> zlen (a_evs A) + n <= zlen (q_buf (ob_eq o)) -> exists r, core o x oo = Ok r) ->
  exists s', proc_cancel e s core (cancel_accounts x (oo_owner oo) rest) = Ok s'.
Proof.
  intros IN (q & HQ & PL) CO. pose proof (wi_str _ _ WI) as W. destruct (seen_state e s k m A L WI SN P) as (seq & o & MS). pose proof (sn_mkt _ _ _ _ _ _ SN) as HM.
  assert (LV : live (D s) k x oo) by (apply (ms_lists _ _ _ _ _ _ _ MS); exact IN).
  destruct (lists_take _ _ _ _ _ (ms_lists _ _ _ _ _ _ _ MS) LV) as (rst & PM & _). pose proof (cinv_perm _ _ _ _ _ PM (ms_inv _ _ _ _ _ _ _ MS)) as C.
  assert (EQ : ob_eq o = q) by (pose proof (ms_evq _ _ _ _ _ _ _ MS); congruence).
  destruct (CO o seq rst C) as ((o' & oo') & S).
  { pose proof (ci_rep _ _ _ _ C) as RP. pose proof (r_evs _ _ RP) as FL. rewrite EQ in *. rewrite FL in PL. unfold zlen in *. rewrite map_length in PL. lia. }
  unfold proc_cancel, cancel_accounts. cbn [mk mk_signer]. rewrite (load_market_any e s k m W HM). cbn [rbind]. unfold check_signer. cbn [mk_signer check rbind].
  rewrite (load_live_fwd e s k m W HM x oo) by (try assumption; intros ? [= <-]; reflexivity). cbn [rbind].
  rewrite (load_slab_fwd e s Bid _ _ (ms_bids _ _ _ _ _ _ _ MS)), (load_slab_fwd e s Ask _ _ (ms_asks _ _ _ _ _ _ _ MS)), (load_evq_fwd e s m _ HQ). cbn [rbind].
  assert (EO' : mkObs (ob_bids o) (ob_asks o) m q = o) by (destruct MS, o as [b1 a1 m1 q1]; cbn [ob_mkt ob_bids ob_asks ob_eq] in *; congruence).
  rewrite EO', S. cbn [rbind]. eauto.
Qed.
Theorem cancel_cids_succeeds c x oo cids rest : In (x, oo) L -> places e s m (zlen (with_cid x cids (a_bids A)) + zlen (with_cid x cids (a_asks A))) ->
  exists s', process e c s (ICancelByCids cids) (cancel_accounts x (oo_owner oo) rest) = Ok s'.
Proof.
  intros IN PL. cbn [process]. unfold proc_cancel_cids. eapply cancel_fwd; [exact IN|exact PL|]. intros o seq r C RM. eapply cancel_cids_core_ok; [exact C| |rewrite !with_cid_filter; lia].
  intros X. apply filter_In in X. destruct X as [_ X]. discriminate.
Qed.
Theorem cancel_cid_succeeds c x oo sd l rest : In (x, oo) L -> In l (book_of A sd) -> l_owner l = x -> l_cid l <> 0 ->
  (forall j, 0 <= j < 128 -> is_free oo j = false -> cid_at oo j = l_cid l -> j = l_slot l) -> places e s m 1 ->
  exists s', process e c s (ICancelByCid (l_cid l)) (cancel_accounts x (oo_owner oo) rest) = Ok s'.
Proof.
  intros IN IL OL NZ UQ PL. cbn [process]. unfold proc_cancel_cid. replace (l_cid l =? 0) with false by lia. cbn [negb check rbind]. eapply cancel_fwd; [exact IN|exact PL|].
  intros o seq r C RM. pose proof (cancel_by_cid_spec o seq x oo r A (l_cid l) C NZ) as S. pose proof (ci_acct _ _ _ _ C x oo (or_introl eq_refl)) as AO.
  destruct (named_key _ _ _ _ _ _ _ _ _ (cinv_ainv _ _ _ _ C) IL OL eq_refl) as (K1 & K2 & K3). destruct (ci_own _ _ _ _ C sd l IL) as [_ SL]. pose proof (ao_leaf_cid _ _ _ _ _ _ AO sd l IL OL) as LC.
  destruct (find (fun i => cid_at oo i =? l_cid l) (tagged oo)) as [i|] eqn:F.
  2: { exfalso. assert (T : In (l_slot l) (tagged oo)) by (apply tagged_In; repeat split; try assumption; try lia; congruence). pose proof (find_none _ _ F _ T) as X. cbv beta in X. lia. }
  apply find_some in F. destruct F as [F1 F2]. apply tagged_In in F1. destruct F1 as (I1 & I2 & I3). destruct S as [S _]. rewrite S.
  assert (i = l_slot l) as -> by (apply UQ; [assumption|assumption|lia]).
  rewrite K1, K2. pose proof (cancel_v2_spec o seq x oo r A sd (l_key l) C) as V. rewrite (lfind_In _ _ l (cinv_sorted _ _ _ _ C sd) IL eq_refl), OL, Z.eqb_refl in V.
  destruct V as [[_ V]|(o' & V & _)]; [exfalso; lia|]. rewrite V. eauto.
Qed.
End Cids.
