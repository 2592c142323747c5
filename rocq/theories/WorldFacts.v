(** What every reachable state looks like. *)
From Coq Require Import Permutation.
From Verif Require Import Base BaseProofs Fees ListSum Queue QueueProofs Codec CodecProofs Critbit CritbitProofs CritbitSlab Market Matching MatchSteps MatchRefine MatchAsk MatchBid MatchRun MatchSpec Ledger LedgerSteps LedgerRun MatchReport MatchOrder MatchFacts Slots Core CoreInv CoreNew CoreCancel CoreConsume CoreSettle CoreFrame Instr InstrProofs Store Process StoreProofs World WorldInv WorldLoad WorldRun WorldStep WorldStep2 WorldConsume WorldInit WorldMain WorldSpec.

Lemma NoDup_map_on {X Y} (f : X -> Y) l : (forall a b, In a l -> In b l -> f a = f b -> a = b) -> NoDup l -> NoDup (map f l).
Proof.
  intros I ND. induction ND as [|x r NI ND IH]; cbn [map]; constructor.
  - intros H. apply in_map_iff in H. destruct H as (y & E & H). apply NI. rewrite <- (I y x); [assumption|right; assumption|left; reflexivity|assumption].
  - apply IH. intros a b A B. apply I; right; assumption.
Qed.
Lemma NoDup_app_intro {X} (a b : list X) : NoDup a -> NoDup b -> (forall x, In x a -> In x b -> False) -> NoDup (a ++ b).
Proof.
  intros NA NB DJ. induction NA as [|x r NI ND IH]; cbn [app]; [assumption|]. constructor.
  - intros H. apply in_app_or in H. destruct H as [H|H]; [contradiction|]. apply (DJ x); [left; reflexivity|assumption].
  - apply IH. intros y A B. apply (DJ y); [right|]; assumption.
Qed.
Lemma nodup_fst_inj {X} (l : list (Z * X)) x a b : NoDup (map fst l) -> In (x, a) l -> In (x, b) l -> a = b.
Proof.
  induction l as [|[y c] r IH]; cbn [map fst In]; [intros _ []|]. intros ND. inversion ND as [|? ? N1 N2]; subst. intros [E1|I1] [E2|I2].
  - congruence.
  - injection E1 as -> ->. exfalso. apply N1. apply in_map_iff. exists (x, b). auto.
  - injection E2 as -> ->. exfalso. apply N1. apply in_map_iff. exists (x, a). auto.
  - auto.
Qed.
Lemma sorted_key_inj l a b : NoDup (map l_key l) -> In a l -> In b l -> l_key a = l_key b -> a = b.
Proof.
  induction l as [|y r IH]; cbn [map In]; [intros _ []|]. intros ND. inversion ND as [|? ? N1 N2]; subst. intros [E1|I1] [E2|I2] E.
  - congruence.
  - exfalso. apply N1. subst y. rewrite E. apply in_map. assumption.
  - exfalso. apply N1. subst y. rewrite <- E. apply in_map. assumption.
  - auto.
Qed.
Lemma pigeon n (l : list Z) : NoDup l -> Forall (fun i => 0 <= i < Z.of_nat n) l -> (length l <= n)%nat.
Proof.
  intros ND F. rewrite <- (map_length Z.to_nat l), <- (seq_length n 0). apply NoDup_incl_length.
  - apply NoDup_map_on; [|assumption]. rewrite Forall_forall in F. intros x y X Y E. pose proof (F x X). pose proof (F y Y). lia.
  - intros j J. apply in_map_iff in J. destruct J as (i & <- & I). rewrite Forall_forall in F. pose proof (F i I). apply in_seq. lia.
Qed.

Section Facts.
Variable e : env.
Hypothesis EO : env_ok e.
Notation D := (dexd e).

Lemma views_map evs : Forall2 (fun ev v => event_as_view ev = Ok v) (map event_new evs) evs.
Proof. induction evs as [|v r IH]; cbn [map]; constructor; [apply event_roundtrip|exact IH]. Qed.
Lemma views_fun l a b : Forall2 (fun ev v => event_as_view ev = Ok v) l a -> Forall2 (fun ev v => event_as_view ev = Ok v) l b -> a = b.
Proof. intros H. revert b. induction H; intros b H2; inversion H2; subst; [reflexivity|]. f_equal; [congruence|auto]. Qed.
Lemma astate_eq A B : a_bids A = a_bids B -> a_asks A = a_asks B -> a_evs A = a_evs B -> A = B.
Proof. destruct A, B; cbn; intros; subst; reflexivity. Qed.
Lemma rep_fun o A B : rep o A -> rep o B -> A = B.
Proof.
  intros [a1 a2 a3 a4 a5 a6] [b1 b2 b3 b4 b5 b6]. apply astate_eq; [congruence|congruence|].
  eapply (views_fun (q_list (ob_eq o))); [rewrite a6|rewrite b6]; apply views_map.
Qed.
Lemma nodup_pairs (L : list acct) : NoDup (map fst L) -> NoDup L.
Proof. apply NoDup_map_inv. Qed.

Lemma state_seen s k m seq L A o : D s k = Some (DMarket m) -> mstate (D s) k m seq L A o -> seen e s k m A L.
Proof.
  intros HM [E1 E2 E3 E4 E5 [L1 L2] C]. destruct (ci_rep _ _ _ _ C). constructor; try assumption.
  - eauto.
  - eauto.
  - exists (ob_eq o). split; [assumption|]. rewrite r_evs. apply views_map.
Qed.
Lemma seen_state s k m A L : winv e s -> seen e s k m A L -> usable m -> exists seq o, mstate (D s) k m seq L A o.
Proof.
  intros WI [HM (b & HB & EB) (a & HA & EA) (q & HQ & EQ) ND IN] P. destruct (wi_mkt _ _ WI k m HM P) as (seq & L0 & A0 & o & MS).
  exists seq, o. pose proof MS as [E1 E2 E3 E4 E5 [L1 L2] C]. destruct (ci_rep _ _ _ _ C).
  assert (A = A0) as ->.
  { apply astate_eq; try congruence. assert (q = ob_eq o) by congruence. subst q. eapply views_fun; [exact EQ|]. rewrite r_evs. apply views_map. }
  assert (PM : Permutation L0 L).
  { apply NoDup_Permutation; [apply nodup_pairs; assumption..|]. intros [x oo]. rewrite L2, IN. reflexivity. }
  constructor; try assumption; [split; [assumption|exact IN]|]. eapply cinv_perm; eassumption.
Qed.
(** Every usable market can be read. *)
Theorem market_seen s k m : history e s -> D s k = Some (DMarket m) -> usable m -> exists A L, seen e s k m A L.
Proof.
  intros H HM P. destruct (wi_mkt _ _ (reachable_inv e EO s H) k m HM P) as (seq & L & A & o & MS). exists A, L. eapply state_seen; eassumption.
Qed.

Section One.
Variables (s : store) (k : Z) (m : market) (A : astate) (L : list acct).
Hypothesis (H : history e s) (SN : seen e s k m A L) (P : usable m).
Let WI : winv e s := reachable_inv e EO s H.
Lemma one_inv : exists seq o, mstate (D s) k m seq L A o /\ cinv o seq L A /\ ob_mkt o = m /\ ainv m seq L A.
Proof.
  destruct (seen_state _ _ _ _ _ WI SN P) as (seq & o & MS). exists seq, o. pose proof (ms_inv _ _ _ _ _ _ _ MS) as C. pose proof (ms_mkt _ _ _ _ _ _ _ MS) as E.
  split; [assumption|]. split; [assumption|]. split; [assumption|]. rewrite <- E. apply cinv_ainv. exact C.
Qed.
Theorem never_crossed : uncrossed (a_bids A) (a_asks A).
Proof. destruct one_inv as (seq & o & _ & C & _). exact (ci_unx _ _ _ _ C). Qed.

Lemma vaults : exists tc tp, vault_ok e s k m (m_coin_vault m) (m_coin_mint m) tc /\ vault_ok e s k m (m_pc_vault m) (m_pc_mint m) tp.
Proof.
  destruct (wi_vlt _ _ WI) as [_ VC VP]. destruct (VC k m (sn_mkt _ _ _ _ _ _ SN)) as (tc & C). destruct (VP k m (sn_mkt _ _ _ _ _ _ SN)) as (tp & T). eauto.
Qed.
Lemma owned_vault v mint t : vault_ok e s k m v mint t -> program_owned e s k m v.
Proof. intros []. exists t, (t_owner t). destruct vo_lock. auto. Qed.
Theorem coin_conserved : total oo_coin_total L + zsum ev_coin (a_evs A) = m_coin_deposits m /\
  0 <= total oo_coin_free L <= m_coin_deposits m /\ holds s (m_coin_vault m) (m_coin_deposits m) /\ program_owned e s k m (m_coin_vault m).
Proof.
  destruct one_inv as (seq & o & _ & C & EM & AI). pose proof (ci_coin _ _ _ _ C) as S. rewrite EM in S. split; [exact S|].
  pose proof AI as [i1 i2 i3 i4 i5 i6 i7 i8 i9 i10 i11 i12 i13 i14 i15 i16 i17 i18]. split.
  { pose proof (coin_deposits_ge _ _ _ _ _ i11 i8 i13 i14 i15) as G. rewrite i16 in G.
    assert (0 <= zsum (coin_of (m_coin_lot m)) (a_asks A)) by (apply zsum_nonneg; intros l Hl; exact (proj1 (leaf_val_bounds _ _ _ _ AI Ask l Hl))).
    assert (0 <= total oo_coin_free L) by (apply zsum_nonneg; intros [x oo] Hx; pose proof (ao_coin _ _ _ _ _ _ (i13 _ _ Hx)); cbn [snd]; lia).
    unfold total in *. lia. }
  destruct vaults as (tc & tp & [] & _). split; [exists tc; split; [assumption|]|].
  - pose proof (vo_need P) as N. unfold need in N. rewrite Z.eqb_refl in N. pose proof i5 as (u1 & u2 & u3). unfold u64 in *.
    assert (0 <= (if m_coin_vault m =? m_pc_vault m then pc_owed m else 0)) by (unfold pc_owed; destruct (_ =? _); lia). lia.
  - exists tc, (t_owner tc). destruct vo_lock. auto.
Qed.
Theorem pc_conserved : total oo_pc_total L + zsum ev_pc (a_evs A) = m_pc_deposits m /\
  0 <= total oo_pc_free L <= m_pc_deposits m /\ 0 <= total oo_rebates L + zsum ev_rebate (a_evs A) <= m_rebates m /\
  holds s (m_pc_vault m) (m_pc_deposits m + m_pc_fees m + m_rebates m + (if m_coin_vault m =? m_pc_vault m then m_coin_deposits m else 0)) /\
  program_owned e s k m (m_pc_vault m).
Proof.
  destruct one_inv as (seq & o & _ & C & EM & AI). pose proof (ci_pc _ _ _ _ C) as S. pose proof (ci_reb _ _ _ _ C) as SR. rewrite EM in S, SR. split; [exact S|].
  pose proof AI as [i1 i2 i3 i4 i5 i6 i7 i8 i9 i10 i11 i12 i13 i14 i15 i16 i17 i18]. split; [|split].
  { pose proof (pc_deposits_ge _ _ _ _ _ i11 i8 i13 i14 i15) as G. rewrite i17 in G.
    assert (0 <= zsum (pc_of (m_pc_lot m)) (a_bids A)) by (apply zsum_nonneg; intros l Hl; exact (proj1 (leaf_val_bounds _ _ _ _ AI Bid l Hl))).
    assert (0 <= total oo_pc_free L) by (apply zsum_nonneg; intros [x oo] Hx; pose proof (ao_pc _ _ _ _ _ _ (i13 _ _ Hx)); cbn [snd]; lia).
    unfold total in *. lia. }
  { split; [|exact SR]. assert (0 <= total oo_rebates L) by (apply zsum_nonneg; intros [x oo] Hx; pose proof (ao_reb _ _ _ _ _ _ (i13 _ _ Hx)) as [? _]; cbn [snd]; lia).
    assert (0 <= zsum ev_rebate (a_evs A)); [|lia]. apply zsum_nonneg. intros x Hx. pose proof (evs_each _ _ _ _ AI x Hx) as X.
    destruct x as [[] [] ? ? ? ? ? ? ? ?|[] [] ? ? ? ? ? ?]; cbn in *; try lia; apply Z.div_pos; lia. }
  destruct vaults as (tc & tp & _ & []). split; [exists tp; split; [assumption|]|].
  - pose proof (vo_need P) as N. unfold need in N. rewrite Z.eqb_refl, Z.eqb_sym in N. unfold pc_owed in N. lia.
  - exists tp, (t_owner tp). destruct vo_lock. auto.
Qed.

Lemma worth_val sd l : worth m sd l = leaf_val m sd l.
Proof. destruct sd; reflexivity. Qed.
Lemma mine_filter {X} (own : X -> Z) x f (l : list X) : zsum (mine own x f) l = zsum f (filter (fun y => own y =? x) l).
Proof. induction l as [|y r IH]; cbn [zsum filter]; [reflexivity|]. unfold mine at 1. destruct (own y =? x); cbn [zsum]; lia. Qed.
Theorem locked_exact x oo : In (x, oo) L ->
  0 <= oo_coin_free oo <= oo_coin_total oo /\ oo_coin_total oo < B64 /\ 0 <= oo_pc_free oo <= oo_pc_total oo /\ oo_pc_total oo < B64 /\
  oo_coin_total oo - oo_coin_free oo = zsum (worth m Ask) (own_orders x (a_asks A)) + zsum ev_lock_coin (filter (fun v => ev_owner v =? x) (a_evs A)) /\
  oo_pc_total oo - oo_pc_free oo = zsum (worth m Bid) (own_orders x (a_bids A)) + zsum ev_lock_pc (filter (fun v => ev_owner v =? x) (a_evs A)).
Proof.
  intros IN. destruct one_inv as (seq & o & _ & _ & _ & AI). pose proof (ai_acct _ _ _ _ AI x oo IN) as [b1 b2 b3 b4 b5 b6 b7 b8 b9 b10 b11].
  unfold locked_coin, locked_pc in *. rewrite !mine_filter in b6, b7.
  split; [exact b2|]. split; [exact b3|]. split; [exact b4|]. split; [exact b5|]. split; [exact b6|exact b7].
Qed.

Theorem slots_agree :
  (forall sd l, In l (book_of A sd) -> exists oo, In (l_owner l, oo) L /\ 0 <= l_slot l < 128 /\
     is_free oo (l_slot l) = false /\ order_at oo (l_slot l) = l_key l /\ side_at oo (l_slot l) = sd /\ cid_at oo (l_slot l) = l_cid l) /\
  (forall v, In v (a_evs A) -> exists oo, In (ev_owner v, oo) L /\ 0 <= ev_slot v < 128 /\
     is_free oo (ev_slot v) = false /\ order_at oo (ev_slot v) = ev_id v /\ side_at oo (ev_slot v) = ev_side v) /\
  (forall x oo i, In (x, oo) L -> 0 <= i < 128 -> is_free oo i = false ->
     let resting := exists l, In l (book_of A (side_at oo i)) /\ l_key l = order_at oo i /\ l_owner l = x /\ l_slot l = i in
     let ending := exists E f, slot_events x i A = E ++ [f] /\ ev_final f = true /\ forall v, In v E -> ev_final v = false in
     (resting /\ forall v, In v (slot_events x i A) -> ev_final v = false) \/ (~ resting /\ ending)) /\
  (forall sd sd' l l', In l (book_of A sd) -> In l' (book_of A sd') -> l_owner l = l_owner l' -> l_slot l = l_slot l' -> sd = sd' /\ l = l') /\
  (forall x, zlen (own_orders x (a_bids A)) + zlen (own_orders x (a_asks A)) <= 128).
Proof.
  destruct one_inv as (seq & o & _ & C & EM & AI). pose proof (ci_rep _ _ _ _ C) as RP.
  assert (KEY : forall sd l l', In l (book_of A sd) -> In l' (book_of A sd) -> l_key l = l_key l' -> l = l').
  { intros sd l l' I1 I2 K. destruct (rep_slab o A sd RP) as [SO SB]. rewrite get_book_of in SB.
    pose proof (book_sorted _ SO) as ST. rewrite SB in ST. apply (sorted_key_inj (book_of A sd)); [apply sorted_nodup_keys|..]; assumption. }
  assert (ACC : forall x, In x (map fst L) -> exists oo, In (x, oo) L) by (intros x I; apply in_map_iff in I; destruct I as ([y oo] & <- & I); eauto).
  assert (REST : forall sd l, In l (book_of A sd) -> exists oo, In (l_owner l, oo) L /\ 0 <= l_slot l < 128 /\
     is_free oo (l_slot l) = false /\ order_at oo (l_slot l) = l_key l /\ side_at oo (l_slot l) = sd /\ cid_at oo (l_slot l) = l_cid l).
  { intros sd l IL. destruct (ci_own _ _ _ _ C sd l IL) as [O1 O2]. destruct (ACC _ O1) as (oo & I). exists oo. split; [assumption|]. split; [assumption|].
    pose proof (ci_acct _ _ _ _ C _ _ I) as AO. pose proof (ao_slots _ _ _ _ _ _ AO _ O2) as S. pose proof (ao_leaf_cid _ _ _ _ _ _ AO sd l IL eq_refl) as CID.
    destruct (is_free oo (l_slot l)); [destruct S as [S _]; exfalso; apply (S sd l IL); split; reflexivity|]. split; [reflexivity|]. destruct S as [(B1 & B2 & B3 & _) _].
    destruct (side_at oo (l_slot l)) eqn:SA, sd; try (exfalso; apply (B3 l IL); split; reflexivity); (split; [symmetry; apply B2; [assumption|split; reflexivity]|auto]). }
  split; [exact REST|]. split; [|split; [|split]].
  - intros v IV. destruct (ci_evown _ _ _ _ C v IV) as [O1 O2]. destruct (ACC _ O1) as (oo & I). exists oo. split; [assumption|]. split; [assumption|].
    pose proof (ao_slots _ _ _ _ _ _ (ci_acct _ _ _ _ C _ _ I) _ O2) as S.
    assert (IS : In v (slot_events (ev_owner v) (ev_slot v) A)) by (unfold slot_events; apply filter_In; split; [assumption|]; unfold evb; rewrite !Z.eqb_refl; reflexivity).
    destruct (is_free oo (ev_slot v)); [destruct S as [_ S]; rewrite S in IS; destruct IS|]. split; [reflexivity|]. destruct S as [(B1 & _) _]. destruct (B1 v IS) as [-> ->]. auto.
  - intros x oo i I Hi F. pose proof (ao_slots _ _ _ _ _ _ (ci_acct _ _ _ _ C _ _ I) _ Hi) as S. rewrite F in S. destruct S as [(B1 & B2 & B3 & B4) _]. cbv zeta.
    destruct B4 as [[(l & IL & AT) FN]|[NL EN]].
    + left. split; [|assumption]. exists l. split; [assumption|]. split; [apply B2; assumption|]. exact AT.
    + right. split; [|assumption]. intros (l & IL & _ & O1 & O2). apply (NL l IL). split; assumption.
  - intros sd sd' l l' I1 I2 O S. destruct (REST _ _ I1) as (oo & J1 & _ & _ & K1 & S1 & _). destruct (REST _ _ I2) as (oo' & J2 & _ & _ & K2 & S2 & _).
    rewrite <- O in J2. assert (oo = oo') by (eapply nodup_fst_inj; [exact (sn_once _ _ _ _ _ _ SN)|eassumption..]). subst oo'. rewrite <- S in K2, S2.
    assert (ES : sd = sd') by congruence. split; [assumption|]. rewrite <- ES in I2. apply (KEY sd); [assumption..|]. congruence.
  - intros x.
    assert (ND : forall sd, NoDup (map l_slot (own_orders x (book_of A sd)))).
    { intros sd. apply NoDup_map_on.
      - intros l l' I1 I2 E. apply filter_In in I1, I2. destruct I1 as [I1 O1], I2 as [I2 O2]. apply (KEY sd); try assumption.
        destruct (REST _ _ I1) as (oo & J1 & _ & _ & K1 & _). destruct (REST _ _ I2) as (oo' & J2 & _ & _ & K2 & _). assert (E1 : l_owner l = x) by lia. assert (E2 : l_owner l' = x) by lia.
        rewrite E1 in J1. rewrite E2 in J2. assert (oo = oo') by (eapply nodup_fst_inj; [exact (sn_once _ _ _ _ _ _ SN)|eassumption..]). subst oo'. congruence.
      - apply NoDup_filter. destruct (rep_slab o A sd RP) as [SO SB]. rewrite get_book_of in SB. rewrite <- SB. apply (NoDup_map_inv l_key). apply sorted_nodup_keys. apply book_sorted. exact SO. }
    assert (NDA : NoDup (map l_slot (own_orders x (a_bids A)) ++ map l_slot (own_orders x (a_asks A)))).
    { apply NoDup_app_intro; [exact (ND Bid)|exact (ND Ask)|]. intros i I1 I2. apply in_map_iff in I1, I2. destruct I1 as (l & E1 & I1), I2 as (l' & E2 & I2).
      apply filter_In in I1, I2. destruct I1 as [I1 O1], I2 as [I2 O2].
      destruct (REST Bid l I1) as (oo & J1 & _ & _ & _ & S1 & _). destruct (REST Ask l' I2) as (oo' & J2 & _ & _ & _ & S2 & _). assert (X1 : l_owner l = x) by lia. assert (X2 : l_owner l' = x) by lia.
      rewrite X1 in J1. rewrite X2 in J2. assert (oo = oo') by (eapply nodup_fst_inj; [exact (sn_once _ _ _ _ _ _ SN)|eassumption..]). subst oo'. congruence. }
    assert (RG : Forall (fun i => 0 <= i < 128) (map l_slot (own_orders x (a_bids A)) ++ map l_slot (own_orders x (a_asks A)))).
    { apply Forall_forall. intros i I. apply in_app_or in I. destruct I as [I|I]; apply in_map_iff in I; destruct I as (l & <- & I); apply filter_In in I; destruct I as [I _].
      - destruct (REST Bid l I) as (? & _ & R & _). exact R.
      - destruct (REST Ask l I) as (? & _ & R & _). exact R. }
    pose proof (pigeon 128 _ NDA RG) as PG. rewrite app_length, !map_length in PG. unfold zlen. lia.
Qed.
End One.
End Facts.
