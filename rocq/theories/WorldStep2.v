(** Every instruction keeps the invariant of the world: settling, opening, closing, administration. *)
From Coq Require Import Permutation.
From Verif Require Import Base BaseProofs Fees ListSum Queue QueueProofs Codec CodecProofs Critbit CritbitSlab Market Matching
  MatchSteps MatchRefine MatchAsk MatchBid MatchRun MatchSpec Ledger LedgerSteps LedgerRun MatchReport MatchOrder MatchFacts Slots Core CoreInv CoreNew CoreCancel CoreConsume CoreSettle CoreFrame Instr InstrProofs
  Store Process StoreProofs World WorldInv WorldLoad WorldRun WorldStep.

Section Step.
Variable e : env.
Hypothesis EO : env_ok e.
Notation D := (dexd e).
Let NS : e_prog e <> spl_id := eo_spl e EO.

(** ** Only the market's own account and one open-orders account change *)
Section Small.
Variables (s s' : store) (k : Z) (m m' : market) (x : option (Z * open_orders)).
Hypothesis (W : wstruct (D s)) (HM : D s k = Some (DMarket m)).
Definition small (y : Z) : option adata :=
  if y =? k then Some (DMarket m') else match x with Some (a, oo) => if y =? a then Some (DOO oo) else D s y | None => D s y end.
Hypothesis (HD : forall y, D s' y = small y) (SL : same_links m m') (FL : check_market_flags (m_flags m') true = Ok tt)
  (HX : forall a oo, x = Some (a, oo) -> touchable e s k a /\ oo_next k oo).
Lemma small_at y d : D s y = Some d -> y <> k -> d <> DZero -> (forall oo, d <> DOO oo) -> D s' y = D s y.
Proof.
  intros H N1 N2 N3. rewrite HD. unfold small. replace (y =? k) with false by lia. destruct x as [[a oo]|] eqn:E; [|reflexivity].
  destruct (Z.eqb_spec y a) as [->|]; [|reflexivity]. exfalso. destruct (HX a oo eq_refl) as [[T|(o1 & T & _)] _]; [congruence|]. apply (N3 o1). congruence.
Qed.
Lemma small_links : (m_bids m <> m_asks m -> D s' (m_bids m) = D s (m_bids m)) /\ D s' (m_asks m) = D s (m_asks m) /\
  D s' (m_req_q m) = D s (m_req_q m) /\ D s' (m_event_q m) = D s (m_event_q m).
Proof.
  destruct (ws_asks _ W k m HM) as (? & HA). destruct (ws_req _ W k m HM) as (? & HR). destruct (ws_evq _ W k m HM) as (? & HE).
  split; [intros NB; destruct (ws_bids _ W k m HM NB) as (? & HB); eapply small_at; [exact HB| | |]|split; [|split]];
    [intros E; rewrite E in *; congruence|discriminate|discriminate| | |]; (eapply small_at; [eassumption|intros E; rewrite E in *; congruence|discriminate|discriminate]).
Qed.
Lemma small_dstep : dstep (D s) (D s') k m m'.
Proof.
  destruct small_links as (_ & L2 & L3 & L4). constructor; try assumption.
  - rewrite HD. unfold small. rewrite Z.eqb_refl. reflexivity.
  - intros sl H. erewrite small_at; [eauto|exact H| |discriminate|discriminate]. intros E. rewrite E in *. congruence.
  - intros sl H. rewrite L2. eauto.
  - intros q H. rewrite L3. eauto.
  - intros q H. rewrite L4. eauto.
  - intros y N1 N2 N3 N4 N5. rewrite HD. unfold small. replace (y =? k) with false by lia. destruct x as [[a oo]|] eqn:E; [|auto].
    destruct (Z.eqb_spec y a) as [->|]; [|auto]. right. destruct (HX a oo eq_refl) as [T O]. split; [exact T|]. exists oo. auto.
Qed.
Lemma small_live y oy : (forall a oo, x = Some (a, oo) -> y <> a) -> live (D s') k y oy <-> live (D s) k y oy.
Proof.
  intros N. unfold live. rewrite HD. unfold small. destruct (Z.eqb_spec y k) as [->|]; [split; intros (E & _); congruence|].
  destruct x as [[a oo]|] eqn:E; [|reflexivity]. replace (y =? a) with false by (specialize (N a oo eq_refl); lia). reflexivity.
Qed.
Lemma small_oo a oo : x = Some (a, oo) -> D s' a = Some (DOO oo).
Proof.
  intros E. rewrite HD. unfold small. rewrite E. destruct (Z.eqb_spec a k) as [->|]; [|rewrite Z.eqb_refl; reflexivity].
  exfalso. destruct (HX k oo E) as [[T|(o1 & T & _)] _]; congruence.
Qed.
Lemma small_mstate seq L L' A o : mstate (D s) k m seq L A o -> proper m -> lists (D s') k L' -> ainv m' seq L' A ->
  mstate (D s') k m' seq L' A (mkObs (ob_bids o) (ob_asks o) m' (ob_eq o)).
Proof.
  intros [E1 E2 E3 E4 E5 LS C] (_ & _ & NB) LS' AI. destruct small_links as (L1 & L2 & L3 & L4). specialize (L1 NB).
  destruct SL as (l1 & l2 & l3 & l4 & l5 & l6 & _). constructor; cbn [ob_mkt ob_bids ob_asks ob_eq]; rewrite ?l3, ?l4, ?l5, ?l6; try congruence; try assumption.
  destruct C. apply ainv_cinv; cbn [ob_bids ob_asks ob_mkt]; try assumption. destruct ci_rep. constructor; assumption.
Qed.
End Small.

Lemma put_mkt_D s k m m' y : D s k = Some (DMarket m) -> D (put_data s k (DMarket m')) y = small s k m' None y.
Proof. intros H. rewrite (dexd_put_owned _ _ _ _ _ _ H). reflexivity. Qed.
Lemma put_mkt_oo_D s k m m' a oo y : D s k = Some (DMarket m) -> touchable e s k a ->
  D (put_data (put_data s k (DMarket m')) a (DOO oo)) y = small s k m' (Some (a, oo)) y.
Proof.
  intros H T. assert (N : a <> k) by (intros ->; destruct T as [T|(o1 & T & _)]; congruence).
  assert (R : exists d, D (put_data s k (DMarket m')) a = Some d).
  { rewrite (put_mkt_D _ _ m) by assumption. unfold small. replace (a =? k) with false by lia. destruct T as [T|(o1 & T & _)]; eauto. }
  destruct R as (d & R). rewrite (dexd_put_owned _ _ _ _ _ _ R), (put_mkt_D _ _ m) by assumption. unfold small.
  destruct (Z.eqb_spec y a) as [->|]; [replace (a =? k) with false by lia; reflexivity|reflexivity].
Qed.
Lemma quiet_mkt_oo s k m m' a oo : D s k = Some (DMarket m) -> touchable e s k a -> quiet s (put_data (put_data s k (DMarket m')) a (DOO oo)).
Proof.
  intros H T. assert (N : a <> k) by (intros ->; destruct T as [T|(o1 & T & _)]; congruence). eapply quiet_trans; [eapply quiet_put; [exact EO|exact H]|].
  assert (R : exists d, D (put_data s k (DMarket m')) a = Some d).
  { rewrite (put_mkt_D _ _ m) by assumption. unfold small. replace (a =? k) with false by lia. destruct T as [T|(o1 & T & _)]; eauto. }
  destruct R as (d & R). eapply quiet_put; [exact EO|exact R].
Qed.

(** ** SettleFunds *)
Section Settle.
Variables (s : store) (ms : list meta) (s' : store) (k x w cw pw p : Z) (ref : option Z) (m : market) (oo : open_orders)
    (m' : market) (oo' : open_orders) (ca pa : Z) (rb : option Z) (s2 s3 : store).
Hypothesis (WI : winv e s) (R : ran_settle e s ms s' k x w cw pw p ref m oo m' oo' ca pa rb s2 s3).
Let W := wi_str _ _ WI.
Let rkey := match ref with Some r => r | None => 0 end.
Let ramt := match ref, rb with Some _, Some y => y | _, _ => 0 end.
Let f y u := moved (m_coin_vault m) cw p ca y u + moved (m_pc_vault m) pw p pa y u + moved (m_pc_vault m) rkey p ramt y u.
Lemma se_view : (forall y, D s' y = small s k m' (Some (x, oo')) y) /\ tdelta s s' f /\ amounts_ok s' /\ 0 <= ca /\ 0 <= pa /\ 0 <= ramt /\ live (D s') k x oo'.
Proof.
  destruct R as [r1 r2 r3 r4 r5 r6 r7 r8 r9 r10]. assert (T : touchable e s k x) by (right; eauto).
  pose proof (quiet_mkt_oo s k m m' x oo' r3 T) as Q. apply (send_paid e EO) in r8, r9. destruct r8 as [a1 a2 a3 a4], r9 as [b1 b2 b3 b4].
  assert (c : paid e s3 s' (m_pc_vault m) rkey p ramt).
  { unfold rkey, ramt. destruct ref, rb; try (subst s'; apply paid_nothing). apply (send_paid e EO). assumption. }
  destruct c as [c1 c2 c3 c4]. assert (V : forall y, D s' y = small s k m' (Some (x, oo')) y) by (intros y; rewrite c1, b1, a1; eapply put_mkt_oo_D; eauto).
  split; [exact V|]. split; [|split; [|split; [assumption|split; [assumption|split; [assumption|]]]]].
  - eapply tdelta_trans; [eapply tdelta_trans; [eapply quiet_then; [exact Q|exact a2]|exact b2]|exact c2].
  - apply c3, b3, a3. eapply quiet_amounts; [exact Q|]. exact (wv_amt _ _ (wi_vlt _ _ WI)).
  - destruct (settle_frame _ _ _ _ _ _ _ _ r7) as [_ (I1 & I2 & I3)]. destruct r5 as (F1 & F2 & F3). split; [|split; congruence].
    rewrite V. unfold small. rewrite Z.eqb_refl. replace (x =? k) with false; [reflexivity|]. symmetry. apply Z.eqb_neq. intros ->. congruence.
Qed.
Lemma se_state : proper m -> exists seq L rest A o, mstate (D s) k m seq L A o /\ Permutation L ((x, oo) :: rest) /\ NoDup (map fst rest) /\
  (forall y oy, In (y, oy) rest <-> y <> x /\ live (D s) k y oy) /\
  settle_done m m' oo oo' (match ref with Some _ => true | None => false end) ca pa rb /\ ainv m seq ((x, oo) :: rest) A /\
  mstate (D s') k m' seq ((x, oo') :: rest) A (mkObs (ob_bids o) (ob_asks o) m' (ob_eq o)).
Proof.
  intros P. destruct R as [r1 r2 r3 r4 r5 r6 r7 r8 r9 r10]. destruct (wi_mkt _ _ WI k m r3 P) as (seq & L & A & o & MS).
  destruct (lists_take _ _ _ _ _ (ms_lists _ _ _ _ _ _ _ MS) r5) as (rest & PM & ND & NI & IN).
  assert (AI : ainv m seq ((x, oo) :: rest) A).
  { rewrite <- (ms_mkt _ _ _ _ _ _ _ MS). apply cinv_ainv. eapply cinv_perm; [exact PM|]. exact (ms_inv _ _ _ _ _ _ _ MS). }
  destruct (vault_cover e s k m WI r3 P) as (tc & tp & _ & _ & _ & C2).
  destruct (settle_spec m seq x oo rest A AI (match ref with Some _ => true | None => false end)) as (m1 & oo1 & cn & pn & rb1 & HC & SD & AI'); [lia|].
  rewrite r7 in HC. injection HC as <- <- <- <- <-. exists seq, L, rest, A, o.
  split; [assumption|]. split; [assumption|]. split; [assumption|]. split; [assumption|]. split; [assumption|]. split; [assumption|].
  destruct se_view as (V & _ & _ & _ & _ & _ & LV'). destruct (settle_frame _ _ _ _ _ _ _ _ r7) as [SM _].
  assert (TN : touchable e s k x /\ oo_next k oo') by (split; [right; eauto|]; left; destruct LV' as (_ & ? & ?); auto).
  eapply small_mstate with (x := Some (x, oo')) (m := m); eauto.
  - apply same_links_sm. exact SM.
  - intros a1 o1 [= <- <-]. exact TN.
  - eapply lists_put; [exact ND|exact IN| |exact LV']. intros y oy Ny. eapply small_live with (x := Some (x, oo')); eauto; intros a1 o1 [= <- <-]; assumption.
Qed.
Lemma step_settle : winv e s'.
Proof.
  destruct se_view as (V & TD & AM & N1 & N2 & N3 & LV'). destruct R as [r1 r2 r3 r4 r5 r6 r7 r8 r9 r10].
  destruct (settle_frame _ _ _ _ _ _ _ _ r7) as [SM _]. pose proof (same_links_sm m m' SM) as SL.
  assert (TN : touchable e s k x /\ oo_next k oo') by (split; [right; eauto|]; left; destruct LV' as (_ & ? & ?); auto).
  eapply (winv_step e EO s s' k m m'); [exact WI| |exact AM| |exact TD| |].
  - eapply small_dstep with (x := Some (x, oo')); eauto.
    + rewrite (flags_sm _ _ SM). exact (ws_flags _ W _ _ r3).
    + intros a1 o1 [= <- <-]. exact TN.
  - intros P. apply (proper_links _ _ SL) in P. destruct (se_state P) as (seq & L & rest & A & o & _ & _ & _ & _ & _ & _ & MS). eauto.
  - intros p0 w0 y HP PD NW. assert (p0 = p) by congruence. subst p0. unfold f, moved. replace (w0 =? p) with false by lia. rewrite !andb_false_r.
    destruct (y =? cw), (y =? pw), (y =? rkey); lia.
  - intros P p0 v HP VE. assert (p0 = p) by congruence. subst p0. unfold f, moved. rewrite Z.eqb_refl, !andb_true_r.
    destruct (se_state P) as (seq & L & rest & A & o & _ & _ & _ & _ & [] & _). 
    destruct SL as (_ & _ & _ & _ & _ & _ & l7 & l8 & _). unfold need, pc_owed. rewrite l7, l8.
    assert (RA : ramt = match rb with Some _ => oo_rebates oo | None => 0 end).
    { unfold ramt. rewrite sd_rb. destruct ref; cbn [andb]; [|reflexivity]. destruct (0 <? oo_rebates oo); reflexivity. }
    destruct (v =? m_coin_vault m), (v =? m_pc_vault m), (v =? cw), (v =? pw), (v =? rkey), rb; lia.
Qed.
End Settle.

(** ** DisableMarket, SweepFees *)
Lemma flags_disabled fl : check_market_flags fl false = Ok tt -> check_market_flags (Z.lor fl AF_Disabled) true = Ok tt.
Proof.
  unfold check_market_flags. intros H. apply rbind_ok in H. destruct H as (? & H1 & H). apply check_ok in H. destruct (has_flag fl AF_Permissioned) eqn:F.
  - cbn [existsb] in H. repeat rewrite orb_true_iff in H. destruct H as [H|[H|H]]; try discriminate; apply Z.eqb_eq in H; subst fl; reflexivity.
  - cbn [existsb] in H. repeat rewrite orb_true_iff in H. destruct H as [H|H]; try discriminate; apply Z.eqb_eq in H; subst fl; reflexivity.
Qed.
Lemma step_disable s k m : winv e s -> D s k = Some (DMarket m) -> check_market_flags (m_flags m) false = Ok tt ->
  winv e (put_data s k (DMarket (set_flags m (Z.lor (m_flags m) AF_Disabled)))).
Proof.
  intros WI HM FL. set (m' := set_flags m _). set (s' := put_data s k _). pose proof (wi_str _ _ WI) as W.
  assert (SL : same_links m m') by (repeat (split; [reflexivity|]); reflexivity). pose proof (quiet_put e EO s k (DMarket m') _ HM) as Q.
  assert (V : forall y, D s' y = small s k m' None y) by (intros; eapply put_mkt_D; eassumption).
  assert (HX : forall a oo, @None (Z * open_orders) = Some (a, oo) -> touchable e s k a /\ oo_next k oo) by discriminate.
  eapply (winv_step e EO s s' k m m'); [exact WI| |exact (quiet_amounts _ _ Q (wv_amt _ _ (wi_vlt _ _ WI)))| |apply quiet_tdelta; exact Q| |].
  - eapply small_dstep with (x := None); eauto. apply flags_disabled. exact FL.
  - intros P. apply (proper_links _ _ SL) in P. destruct (wi_mkt _ _ WI k m HM P) as (seq & L & A & o & MS). exists seq, L, A. eexists.
    eapply small_mstate with (x := None) (m := m); eauto.
    + eapply lists_same; [|exact (ms_lists _ _ _ _ _ _ _ MS)]. intros. eapply small_live; eauto. discriminate.
    + pose proof (cinv_ainv _ _ _ _ (ms_inv _ _ _ _ _ _ _ MS)) as AI. rewrite (ms_mkt _ _ _ _ _ _ _ MS) in AI.
      eapply ainv_mkt; [exact AI|reflexivity..|]. destruct AI. destruct ai_mkt as (_ & U & _). exact U.
  - intros. cbn beta. lia.
  - intros. unfold need, pc_owed, m'. cbn [set_flags m_coin_vault m_pc_vault m_coin_deposits m_pc_deposits m_pc_fees m_rebates]. lia.
Qed.
Lemma step_sweep s k m pw p s' : winv e s -> D s k = Some (DMarket m) -> e_pda e (m_nonce m) k = Some p ->
  send_from_vault (put_data s k (DMarket (set_pc_fees m 0))) (m_pc_vault m) pw p (m_pc_fees m) = Ok s' -> winv e s'.
Proof.
  intros WI HM HP HS. set (m' := set_pc_fees m 0) in *. pose proof (wi_str _ _ WI) as W. apply (send_paid e EO) in HS. destruct HS as [S1 S2 S3 S4].
  assert (SL : same_links m m') by (repeat (split; [reflexivity|]); reflexivity). pose proof (quiet_put e EO s k (DMarket m') _ HM) as Q.
  assert (V : forall y, D s' y = small s k m' None y) by (intros; rewrite S1; eapply put_mkt_D; eassumption).
  assert (HX : forall a oo, @None (Z * open_orders) = Some (a, oo) -> touchable e s k a /\ oo_next k oo) by discriminate.
  eapply (winv_step e EO s s' k m m' (moved (m_pc_vault m) pw p (m_pc_fees m))); [exact WI| |exact (S3 (quiet_amounts _ _ Q (wv_amt _ _ (wi_vlt _ _ WI))))| |eapply quiet_then; [exact Q|exact S2]| |].
  - eapply small_dstep with (x := None); eauto. exact (ws_flags _ W _ _ HM).
  - intros P. apply (proper_links _ _ SL) in P. destruct (wi_mkt _ _ WI k m HM P) as (seq & L & A & o & MS). exists seq, L, A. eexists.
    eapply small_mstate with (x := None) (m := m); eauto.
    + eapply lists_same; [|exact (ms_lists _ _ _ _ _ _ _ MS)]. intros. eapply small_live; eauto. discriminate.
    + pose proof (cinv_ainv _ _ _ _ (ms_inv _ _ _ _ _ _ _ MS)) as AI. rewrite (ms_mkt _ _ _ _ _ _ _ MS) in AI.
      eapply ainv_mkt; [exact AI|reflexivity..|]. unfold u64, m'. cbn [set_pc_fees set_counters m_pc_fees]. lia.
  - intros p0 w0 y HP0 PD NW. assert (p0 = p) by congruence. subst p0. unfold moved. replace (w0 =? p) with false by lia. rewrite !andb_false_r. destruct (y =? pw); lia.
  - intros P p0 v HP0 VE. assert (p0 = p) by congruence. subst p0. unfold moved. rewrite Z.eqb_refl, !andb_true_r.
    unfold need, pc_owed, m'. cbn [set_pc_fees set_counters m_coin_vault m_pc_vault m_coin_deposits m_pc_deposits m_pc_fees m_rebates].
    destruct (v =? m_coin_vault m), (v =? m_pc_vault m), (v =? pw); lia.
Qed.

(** ** CloseOpenOrders, InitOpenOrders *)
Lemma tok_still s s' : winv e s -> (forall y, token_at s' y = token_at s y) -> amounts_ok s'.
Proof. intros WI H y t HT. rewrite H in HT. exact (wv_amt _ _ (wi_vlt _ _ WI) _ _ HT). Qed.
Lemma step_close s k x m oo oo' dest l1 s' : winv e s -> D s k = Some (DMarket m) -> live (D s) k x oo -> close_core oo = Ok oo' ->
  s' = put_data (put_lamports (put_lamports s dest l1) x 0) x (DOO oo') -> winv e s'.
Proof.
  intros WI HM LV HC ->. set (sl := put_lamports (put_lamports s dest l1) x 0). set (s' := put_data sl x _). pose proof (wi_str _ _ WI) as W. pose proof LV as (F1 & F2 & F3).
  assert (DL : forall y, D sl y = D s y) by (intros; unfold sl; rewrite !dexd_lam; reflexivity).
  assert (DX : D sl x = Some (DOO oo)) by (rewrite DL; exact F1).
  assert (TK : forall y, token_at s' y = token_at s y) by (intros; unfold s'; erewrite token_put; [unfold sl; rewrite !token_lam; reflexivity|exact NS|exact DX]).
  assert (LN : forall y, a_len (sget s' y) = a_len (sget s y)) by (intros; unfold s'; rewrite put_len; unfold sl; rewrite !len_lam; reflexivity).
  assert (NK : x <> k) by (intros ->; congruence).
  assert (V : forall y, D s' y = small s k m (Some (x, oo')) y).
  { intros y. unfold s', small. rewrite (dexd_put_owned _ _ _ _ _ _ DX), DL. destruct (Z.eqb_spec y k) as [->|]; [replace (k =? x) with false by lia; exact HM|reflexivity]. }
  assert (CL : oo_flags oo' = AF_Closed).
  { unfold close_core in HC. apply rbind_ok in HC. destruct HC as (? & _ & HC). apply rbind_ok in HC. destruct HC as (? & _ & HC). apply rbind_ok in HC. destruct HC as (? & _ & HC). injection HC as <-. reflexivity. }
  assert (HX : forall a o1, Some (x, oo') = Some (a, o1) -> touchable e s k a /\ oo_next k o1) by (intros a o1 [= <- <-]; split; [right; eauto|right; exact CL]).
  assert (SL : same_links m m) by apply same_links_refl.
  eapply (winv_step e EO s s' k m m); [exact WI| |exact (tok_still _ _ WI TK)| |apply tdelta_refl; assumption| |].
  - eapply small_dstep with (x := Some (x, oo')); eauto. exact (ws_flags _ W _ _ HM).
  - intros P. destruct (wi_mkt _ _ WI k m HM P) as (seq & L & A & o & MS).
    destruct (lists_take _ _ _ _ _ (ms_lists _ _ _ _ _ _ _ MS) LV) as (rest & PM & ND & NI & IN). exists seq, rest, A. eexists.
    eapply small_mstate with (x := Some (x, oo')) (m := m); eauto.
    + eapply lists_drop; [exact ND|exact IN| |].
      * intros y oy Ny. eapply small_live with (x := Some (x, oo')); eauto; intros a1 o1 [= <- <-]; assumption.
      * intros oy (G1 & G2 & _). rewrite V in G1. unfold small in G1. replace (x =? k) with false in G1 by lia. rewrite Z.eqb_refl in G1. injection G1 as <-. rewrite CL in G2. discriminate.
    + assert (AI : ainv m seq ((x, oo) :: rest) A).
      { rewrite <- (ms_mkt _ _ _ _ _ _ _ MS). apply cinv_ainv. eapply cinv_perm; [exact PM|]. exact (ms_inv _ _ _ _ _ _ _ MS). }
      apply (close_spec m seq x oo rest A AI oo' HC).
  - intros. cbn beta. lia.
  - intros. cbn beta. lia.
Qed.
Lemma step_init_oo s k x m w c auth oo : winv e s -> D s k = Some (DMarket m) -> live (D s) k x oo \/ opened e s m x (Some w) (Some c) auth oo ->
  winv e (put_data s x (DOO oo)).
Proof.
  intros WI HM LV. set (s' := put_data s x _). pose proof (wi_str _ _ WI) as W. destruct (oo_touch e s m k x _ _ _ oo W HM LV) as (T & F & MK).
  assert (R : exists d, D s x = Some d) by (destruct T as [T|(o1 & T & _)]; eauto). destruct R as (d & R). pose proof (quiet_put e EO s x (DOO oo) _ R) as Q.
  assert (NK : x <> k) by (intros ->; destruct T as [T|(o1 & T & _)]; congruence).
  assert (V : forall y, D s' y = small s k m (Some (x, oo)) y).
  { intros y. unfold s', small. rewrite (dexd_put_owned _ _ _ _ _ _ R). destruct (Z.eqb_spec y k) as [->|]; [replace (k =? x) with false by lia; exact HM|reflexivity]. }
  assert (HX : forall a o1, Some (x, oo) = Some (a, o1) -> touchable e s k a /\ oo_next k o1) by (intros a o1 [= <- <-]; split; [exact T|left; auto]).
  assert (SL : same_links m m) by apply same_links_refl.
  eapply (winv_step e EO s s' k m m); [exact WI| |exact (quiet_amounts _ _ Q (wv_amt _ _ (wi_vlt _ _ WI)))| |apply quiet_tdelta; exact Q| |].
  - eapply small_dstep with (x := Some (x, oo)); eauto. exact (ws_flags _ W _ _ HM).
  - intros P. destruct (wi_mkt _ _ WI k m HM P) as (seq & L & A & o & MS).
    destruct (with_oo e s m k x w c auth oo seq L A o W MS LV) as (rest & C & ND & IN). exists seq, ((x, oo) :: rest), A. eexists.
    eapply small_mstate with (x := Some (x, oo)) (m := m); eauto.
    + eapply lists_put; [exact ND|exact IN| |].
      * intros y oy Ny. eapply small_live with (x := Some (x, oo)); eauto; intros a1 o1 [= <- <-]; assumption.
      * split; [|auto]. rewrite V. unfold small. replace (x =? k) with false by lia. rewrite Z.eqb_refl. reflexivity.
    + rewrite <- (ms_mkt _ _ _ _ _ _ _ MS). apply cinv_ainv. exact C.
  - intros. cbn beta. lia.
  - intros. cbn beta. lia.
Qed.
End Step.
