(** What SendTake and NewOrderV3 do to a market in any reachable state. *)
From Coq Require Import Permutation.
From Verif Require Import Base BaseProofs Fees FeesProofs ListSum Queue QueueProofs Codec CodecProofs Critbit CritbitProofs CritbitSlab Market Matching MatchSteps MatchRefine MatchAsk MatchBid MatchRun MatchSpec Ledger LedgerSteps LedgerSums LedgerRun MatchReport MatchOrder MatchFacts Slots Core CoreInv CoreOrder CoreNew CoreCancel CoreConsume CoreSettle CoreFrame Instr InstrProofs Store Process StoreProofs World WorldInv WorldLoad WorldRun WorldStep WorldStep2 WorldConsume WorldInit WorldMain WorldSpec WorldFacts WorldFwd WorldCancel WorldPay.

Lemma moves_same s src dst : moves s s [(src, dst, 0)].
Proof. intros v. destruct (token_at s v) as [t|]; [|reflexivity]. exists t. cbn [zsum got]. repeat (split; [reflexivity|]). destruct (v =? dst), (v =? src); lia. Qed.
Lemma load_discount_ok s ms k w da t : load_discount s (skipn 12 ms) = Ok da -> load_fee_tier k w da = Ok t -> tier_for s k w (key_at ms 12) t.
Proof.
  intros H T. apply load_fee_tier_spec in T. destruct T as [T1 T2]. unfold key_at. rewrite <- (firstn_skipn 12 ms). destruct (le_lt_dec 12 (length ms)) as [G|G].
  - rewrite nth_error_app2 by (rewrite firstn_length; lia). rewrite firstn_length. replace (12 - Nat.min 12 (length ms))%nat with 0%nat by lia.
    unfold load_discount in H. destruct (skipn 12 ms) as [|d [|d2 r]]; [injection H as <-; exact T2| |discriminate].
    apply rbind_ok in H. destruct H as (td & H & [= <-]). apply load_token_ok in H. destruct H as (H & _ & _). cbn [nth_error option_map tier_for]. exists td. split; [assumption|].
    split; [apply (T1 _ eq_refl)|]. exact T2.
  - rewrite skipn_all2 in * by lia. injection H as <-. replace (nth_error (firstn 12 ms ++ []) 12) with (@None meta); [exact T2|]. symmetry. apply nth_error_None. rewrite app_nil_r, firstn_length. lia.
Qed.
Lemma concat_all {X} (P : X -> Prop) gs : (forall g, In g gs -> forall v, In v g -> P v) -> forall v, In v (concat gs) -> P v.
Proof. induction gs as [|g r IH]; cbn [concat In]; intros H v I; [destruct I|]. apply in_app_or in I. destruct I; [eapply H; eauto|]. apply IH; eauto. Qed.
Lemma Forall2_right {X Y} (R : X -> Y -> Prop) l l' : Forall2 R l l' -> forall y, In y l' -> exists x, In x l /\ R x y.
Proof. induction 1; intros z [].
  - subst. exists x. split; [left; reflexivity|assumption].
  - destruct (IHForall2 z H1) as (u & U & V). exists u. split; [right; assumption|assumption].
Qed.

Section Trade.
Variable e : env.
Hypothesis EO : env_ok e.
Notation D := (dexd e).
Section One.
Variables (s : store) (k : Z) (m : market) (A : astate) (L : list (Z * open_orders)).
Hypothesis (WI : winv e s) (SN : seen e s k m A L) (P : usable m) (G : room e s 1).
Let HM := sn_mkt _ _ _ _ _ _ SN.
Lemma seq_room q rq : D s (m_req_q m) = Some (DReqQ rq) -> q = snd rq -> q + 1 < B64.
Proof. intros H ->. destruct rq as [c0 sq]. exact (G _ _ _ _ HM P H). Qed.
Lemma same_A bids asks q seq L0 A0 : books e s k m bids asks q -> cinv (mkObs bids asks m q) seq L0 A0 -> A0 = A.
Proof.
  intros B C. destruct (seen_state e s k m A L WI SN P) as (seq1 & o1 & MS1).
  assert (EOB : o1 = mkObs bids asks m q). { destruct MS1, B. destruct o1 as [b2 a2 m2 q2]; cbn [ob_mkt ob_bids ob_asks ob_eq] in *. congruence. }
  eapply rep_fun; [exact (ci_rep _ _ _ _ C)|]. rewrite <- EOB. exact (ci_rep _ _ _ _ (ms_inv _ _ _ _ _ _ _ MS1)).
Qed.
Lemma write_only o : only s (write_obs s k (m_bids m) (m_asks m) (m_event_q m) o) [k; m_bids m; m_asks m; m_event_q m].
Proof.
  intros y N. cbn [In] in N. unfold write_obs. rewrite !sget_put. replace (y =? m_event_q m) with false by lia. replace (y =? m_asks m) with false by lia.
  replace (y =? m_bids m) with false by lia. replace (y =? k) with false by lia. reflexivity.
Qed.

Theorem take_effect c ix ms s' : process e c s (ISendTake ix) ms = Ok s' -> key_at ms 0 = Some k -> take_ix_ok ix ->
  exists w t cw pw, signs ms 7 w /\ key_at ms 5 = Some cw /\ key_at ms 6 = Some pw /\ tier_for s k w (key_at ms 12) t /\ takes e s s' k m A L ix t cw pw.
Proof.
  intros H K IX. cbn [process] in H. destruct (send_take_ran e s ix ms s' (wi_str _ _ WI) H) as (k' & cw & pw & w & p & m0 & bids & asks & q & rq & t & o' & rq' & dep & wd & s2 & R).
  pose proof R as [(rest & KM) SG FL B HR PD HC T1 T2 (da & DA & DT)]. rewrite (key_at_map _ _ _ KM) in K. injection K as ->.
  pose proof (bk_mkt _ _ _ _ _ _ _ B) as HM0. assert (m0 = m) as -> by congruence.
  pose proof (seq_room _ _ HR eq_refl) as SR. change (usable m) with (proper m) in P.
  destruct (st_state e EO s ix ms s' k cw pw w p m bids asks q rq t o' rq' dep wd s2 WI R IX P SR) as (seq & L0 & A0 & A' & EQ & EQ' & LS & C & C' & MS' & TD & o1 & pr & tr & q' & n & E & F & Rb & SM & OR & AM & MK).
  assert (A0 = A) as -> by (eapply same_A; eassumption). cbn [ob_mkt] in *.
  assert (PL : Permutation L0 L). { destruct LS as [ND IN]. apply NoDup_Permutation; [apply nodup_pairs; exact ND|apply nodup_pairs; exact (sn_once _ _ _ _ _ _ SN)|]. intros [y oy]. rewrite IN. rewrite (sn_oos _ _ _ _ _ _ SN). reflexivity. }
  exists w, t, cw, pw. split; [apply sig_signs; assumption|]. split; [rewrite (key_at_map _ _ _ KM); reflexivity|]. split; [rewrite (key_at_map _ _ _ KM); reflexivity|].
  split; [eapply load_discount_ok; eassumption|].
  pose proof (or_report _ _ _ _ _ _ _ _ _ _ _ _ _ _ _ _ _ _ _ _ _ _ OR) as RP. pose proof (or_evs _ _ _ _ _ _ _ _ _ _ _ _ _ _ _ _ _ _ _ _ _ _ OR) as EV.
  destruct RP as [r1 r2 _ (gs & Ee & r4 & r5 & r6) r7]. specialize (r7 eq_refl). cbn [ob_mkt] in *.
  set (id := ti_price ix * B64 + seq_part (ti_side ix) seq) in *. set (tk := mkTaker (ti_side ix) id 0 0 t 0 AbortTransaction true).
  change (the_taker (ti_side ix) id 0 0 t 0 AbortTransaction) with tk in *.
  assert (EE : Ee = [] /\ n = 0 /\ book_of A' (ti_side ix) = book_of A (ti_side ix)).
  { inversion r6; subst; try discriminate. match goal with Y : Ee = [] \/ _ |- _ => destruct Y as [->|[X _]]; [auto|discriminate] end. }
  destruct EE as (-> & -> & OWN). rewrite app_nil_r in r4. subst E.
  assert (LIM : tk_limit tk = ti_price ix).
  { unfold tk_limit, tk, id. cbn [tk_id]. assert (0 <= seq < B64) by (rewrite EQ in SR; cbn [snd] in SR; pose proof (ci_seq _ _ _ _ C); lia).
    rewrite Z.div_add_l by lia. rewrite (Z.div_small (seq_part _ _)); [lia|]. unfold seq_part. destruct (ti_side ix); lia. }
  assert (NS : forall b j, In (b, j) tr -> l_owner b <> 0).
  { intros b j I E0. destruct (rounds_self o1 _ _ _ _ _ _ r1 b j I E0) as [X _]. apply X. reflexivity. }
  assert (NO : forall v, In v (concat gs) -> ev_owner v <> 0).
  { apply concat_all. intros g Ig v Iv. destruct (Forall2_right _ _ _ r5 g Ig) as ([b j] & Ib & RB). pose proof (NS b j Ib) as NB.
    unfold reported in RB. replace (self tk (b, j)) with false in RB by (unfold self, tk; cbn [tk_owner fst]; lia). destruct RB as (ft & rst & RB & _). cbn [tk_silent tk] in RB. rewrite app_nil_r in RB.
    rewrite RB in Iv. destruct Iv as [<-|Iv]; [unfold maker_fill, tk; cbn [tk_side fst]; destruct (ti_side ix); exact NB|]. destruct (j =? l_qty b); [destruct Iv as [<-|[]]; exact NB|destruct Iv]. }
  pose proof (rounds_q _ _ _ _ _ _ r1) as [Q1 Q2]. pose proof (rounds_used _ _ _ _ _ _ r1) as U. destruct IX as [i1 i2 i3 i4 i5 i6].
  destruct (st_view e EO s ix ms s' k cw pw w p m bids asks q rq t o' rq' dep wd s2 WI R) as (V & _).
  set (s1 := put_data (write_obs s k (m_bids m) (m_asks m) (m_event_q m) o') (m_req_q m) (DReqQ rq')) in *.
  assert (Q : forall y, token_at s1 y = token_at s y).
  { pose proof (wi_str _ _ WI) as W. destruct B as [_ NB HB HA HQ]. pose proof (write_obs_quiet e EO s k m bids asks q rq HM NB HB HA HQ HR o') as Q1'. pose proof (write_obs_D e s k m bids asks q rq HM NB HB HA HQ HR o') as V1.
    assert (X : exists d, D (write_obs s k (m_bids m) (m_asks m) (m_event_q m) o') (m_req_q m) = Some d).
    { rewrite V1. unfold overlay. repeat match goal with |- context [if ?b then _ else _] => destruct b end; eauto. }
    destruct X as (d & X). pose proof (quiet_put e EO _ _ (DReqQ rq') _ X) as Q2'. apply (qu_tok _ _ (quiet_trans _ _ _ Q1' Q2')). }
  assert (O1 : only s s1 [k; m_req_q m; m_event_q m; m_bids m; m_asks m]).
  { eapply only_trans; [apply write_only|apply only_put| |]; intros y; cbn [In]; tauto. }
  set (src := match ti_side ix with Bid => pw | Ask => cw end) in *. set (dv := match ti_side ix with Bid => m_pc_vault m | Ask => m_coin_vault m end) in *.
  set (wv := match ti_side ix with Bid => m_coin_vault m | Ask => m_pc_vault m end) in *. set (dst := match ti_side ix with Bid => cw | Ask => pw end) in *.
  assert (M2 : moves s1 s2 [(src, dv, dep)]).
  { destruct (transfer_in_ok e (eo_spl _ EO) _ _ _ _ _ _ _ T1) as [(-> & ->)|(_ & X & _)]; [apply moves_same|eapply moves_transferred; exact X]. }
  assert (M3 : moves s2 s' [(wv, dst, wd)]).
  { destruct (Z.eqb_spec wd 0) as [->|_]; [subst s'; apply moves_same|]. eapply moves_transferred. eapply send_from_vault_ok; [exact (eo_spl _ EO)|exact T2]. }
  pose proof (moves_app _ _ _ _ _ (moves_app _ _ _ _ _ (moves_quiet _ _ Q) M2) M3) as MV. cbn [app] in MV.
  assert (O2 : only s2 s' [wv; dst]) by (destruct (wd =? 0); [subst s'; intros y _; reflexivity|eapply send_only; exact T2]).
  pose proof (take_in_only _ _ _ _ _ _ _ T1) as O3.
  assert (NN : next_number e s m seq /\ next_number e s' m (seq + 1)).
  { split; [unfold next_number; rewrite HR, EQ; reflexivity|]. unfold next_number. rewrite <- (ms_req _ _ _ _ _ _ _ MS'). f_equal. rewrite MK. reflexivity. }
  exists (ob_mkt o'), A', tr, q', gs, id. cbv zeta. fold tk. split; [split; [exact LIM|exists seq; exact NN]|]. split.
  { eapply seen_perm; [exact PL|]. eapply state_seen; [|exact MS']. rewrite V. unfold overlay. rewrite Z.eqb_refl. reflexivity. }
  split; [exact r1|]. split; [split; [exact r2|exact r7]|]. split; [exact OWN|]. split; [exact EV|]. split; [exact r5|]. split; [exact NO|]. split; [lia|]. split.
  { intros y N. cbn [In] in N. rewrite O2, O3, O1; [reflexivity|..]; cbn [In]; unfold src, dv, wv, dst; destruct (ti_side ix); tauto. }
  pose proof (or_amounts _ _ _ _ _ _ _ _ _ _ _ _ _ _ _ _ _ _ _ _ _ _ OR) as AMT. pose proof (or_all _ _ _ _ _ _ _ _ _ _ _ _ _ _ _ _ _ _ _ _ _ _ OR) as ALL. cbn [ob_mkt] in *.
  unfold src, dv, wv, dst in MV. clear - AMT ALL AM MK MV.
  destruct (ti_side ix) eqn:SD.
  - destruct AMT as [a1 a2 a3 a4 a5 _]. destruct ALL as [_ _ [_ _ _ _ _ _ u7 u8] _ _]. cbn [pr_zero p_pc_debit p_coin_credit p_pc_unlocked] in *.
    change (tk_of (params ImmediateOrCancel id 0 0 t 0 AbortTransaction) Bid) with tk in *. destruct AM as (b1 & b2 & b3). rewrite a1, a3 in b1. rewrite a2 in b2, b3. rewrite Z.add_0_l in *.
    split; [lia|]. split; [lia|]. split; [rewrite <- b1, <- b2; exact MV|]. rewrite MK, b2. rewrite a3, a4 in *. f_equal; lia.
  - destruct AMT as [a1 a2 a3 a4 a5 _]. cbn [pr_zero p_pc_credit p_coin_debit p_coin_unlocked] in *.
    change (tk_of (params ImmediateOrCancel id 0 0 t 0 AbortTransaction) Ask) with tk in *. destruct AM as (b1 & b2 & b3). rewrite a1 in b1. rewrite a2, a3 in b2, b3. rewrite Z.add_0_l in *.
    split; [lia|]. split; [rewrite <- b1, <- b2; exact MV|]. rewrite MK, b1. rewrite a3, a4 in *. f_equal; lia.
Qed.
Theorem order_effect c ix ms s' : process e c s (INewOrderV3 ix) ms = Ok s' -> key_at ms 0 = Some k -> order_ix_ok ix ->
  exists x w t payer oo, key_at ms 1 = Some x /\ signs ms 7 w /\ key_at ms 6 = Some payer /\ oo_owner oo = w /\ tier_for s k w (key_at ms 12) t /\
    (In (x, oo) L \/ (D s x = Some DZero /\ has_flag (m_flags m) AF_Permissioned = false /\ blank_for k w oo)) /\
    orders e s s' k m A L ix t x payer oo.
Proof.
  intros H K IX. cbn [process] in H. destruct (new_order_ran e s c ix ms s' (wi_str _ _ WI) H) as (k' & x & payer & w & m0 & bids & asks & q & rq & t & oo & pt & o' & rq' & oo' & dep & R).
  pose proof R as [(rest & KM) SG FL B HR HP HMI LO OW HC TR (da & DA & DT)]. rewrite (key_at_map _ _ _ KM) in K. injection K as ->.
  pose proof (bk_mkt _ _ _ _ _ _ _ B) as HM0. assert (m0 = m) as -> by congruence.
  pose proof (seq_room _ _ HR eq_refl) as SR. change (usable m) with (proper m) in P.
  destruct (no_state e EO s c ix ms s' k x payer w m bids asks q rq t oo pt o' rq' oo' dep WI R IX P SR) as (seq & L0 & A0 & A' & EQ & EQ' & C & C' & LS & INR & MS' & OD & DB & o1 & slot & lk & pr & tr & q' & n & E & F & Rb & SM & OR & PLD & LK & MK).
  assert (A0 = A) as -> by (eapply same_A; eassumption). cbn [ob_mkt] in *.
  exists x, w, t, payer, oo. split; [rewrite (key_at_map _ _ _ KM); reflexivity|]. split; [apply sig_signs; assumption|]. split; [rewrite (key_at_map _ _ _ KM); reflexivity|].
  split; [assumption|]. split; [eapply load_discount_ok; eassumption|].
  assert (XNZ : x <> 0) by (intros ->; apply (ci_nz _ _ _ _ C); left; reflexivity).
  split.
  { destruct LO as [LV|(Z1 & Z2 & _ & u & c0 & [= <-] & _ & _ & Z3)]; [left; apply (sn_oos _ _ _ _ _ _ SN); exact LV|right]. split; [assumption|]. split.
    - unfold oo_authority in Z2. destruct (has_flag (m_flags m) AF_Permissioned); [discriminate|reflexivity].
    - rewrite Z3. rewrite (ws_own _ (wi_str _ _ WI) _ _ HM). unfold blank_for, oo_fresh. cbn [oo_flags oo_market oo_owner oo_coin_free oo_coin_total oo_pc_free oo_pc_total oo_rebates]. repeat (split; [reflexivity|]). intros i Hi. unfold is_free. cbn [oo_free_bits]. change U128_MAX with (Z.ones 128). apply Z.ones_spec_low. assumption. }
  pose proof (or_report _ _ _ _ _ _ _ _ _ _ _ _ _ _ _ _ _ _ _ _ _ _ OR) as RP. pose proof (or_evs _ _ _ _ _ _ _ _ _ _ _ _ _ _ _ _ _ _ _ _ _ _ OR) as EV.
  assert (LOT1 : m_coin_lot (ob_mkt o1) = m_coin_lot m) by (rewrite SM; reflexivity). assert (LOT2 : m_pc_lot (ob_mkt o1) = m_pc_lot m) by (rewrite SM; reflexivity).
  rewrite LOT1, LOT2 in RP.
  set (id := oi_price ix * B64 + seq_part (oi_side ix) seq) in *. set (tk := mkTaker (oi_side ix) id x slot t (oi_cid ix) (oi_st ix) false).
  assert (TK : the_taker (oi_side ix) id x slot t (oi_cid ix) (oi_st ix) = tk) by (unfold the_taker, tk; f_equal; lia). rewrite TK in *.
  assert (SEQ : 0 <= seq < B64) by (rewrite EQ in SR; cbn [snd] in SR; pose proof (ci_seq _ _ _ _ C); lia). pose proof IX as [i1 i2 i3 i4 i5 i6].
  assert (LIM : tk_limit tk = oi_price ix).
  { unfold tk_limit, tk, id. cbn [tk_id]. rewrite Z.div_add_l by lia. rewrite (Z.div_small (seq_part _ _)); [lia|]. unfold seq_part. destruct (oi_side ix); lia. }
  assert (FR : forall l, In l (book_of A (oi_side ix)) -> l_key l <> id).
  { intros l Hl. eapply fresh_id; [exact SEQ|exact i1|]. eapply ci_keys; eassumption. }
  destruct (no_view e EO s c ix ms s' k x payer w m bids asks q rq t oo pt o' rq' oo' dep WI R) as (V & _).
  set (s1 := put_data (write_obs s k (m_bids m) (m_asks m) (m_event_q m) o') (m_req_q m) (DReqQ rq')) in *. set (sx := put_data s1 x (DOO oo')) in *.
  assert (Q : forall y, token_at sx y = token_at s y).
  { pose proof (wi_str _ _ WI) as W. destruct B as [_ NB HB HA HQ]. pose proof (write_obs_quiet e EO s k m bids asks q rq HM NB HB HA HQ HR o') as Q1'. pose proof (write_obs_D e s k m bids asks q rq HM NB HB HA HQ HR o') as V1.
    assert (X : exists d, D (write_obs s k (m_bids m) (m_asks m) (m_event_q m) o') (m_req_q m) = Some d).
    { rewrite V1. unfold overlay. repeat match goal with |- context [if ?b then _ else _] => destruct b end; eauto. }
    destruct X as (d & X). pose proof (quiet_put e EO _ _ (DReqQ rq') _ X) as Q2'.
    assert (V2 : forall y, D s1 y = overlay e s k m o' rq' None y) by (intros; unfold s1; eapply put_req_D; eauto).
    destruct (oo_touch e s m k x _ _ _ oo W HM LO) as (T & _ & _).
    assert (Y : exists d, D s1 x = Some d) by (rewrite (over_touch e s k m bids asks q rq W HM NB HB HA HQ HR s1 o' rq' x T V2); eapply touch_some; exact T).
    destruct Y as (d2 & Y). pose proof (quiet_put e EO _ _ (DOO oo') _ Y) as Q3'. apply (qu_tok _ _ (quiet_trans _ _ _ (quiet_trans _ _ _ Q1' Q2') Q3')). }
  assert (O1 : only s sx [k; x; m_req_q m; m_event_q m; m_bids m; m_asks m]).
  { intros y N. cbn [In] in N. unfold sx, s1. rewrite !(only_put _ _ _ y) by (cbn [In]; tauto). apply write_only. cbn [In]. tauto. }
  set (vault := match oi_side ix with Bid => m_pc_vault m | Ask => m_coin_vault m end) in *.
  assert (M2 : moves sx s' [(payer, vault, dep)]).
  { destruct (transfer_in_ok e (eo_spl _ EO) _ _ _ _ _ _ _ TR) as [(-> & ->)|(_ & X & _)]; [apply moves_same|eapply moves_transferred; exact X]. }
  pose proof (moves_app _ _ _ _ _ (moves_quiet _ _ Q) M2) as MV. cbn [app] in MV. pose proof (take_in_only _ _ _ _ _ _ _ TR) as O3.
  assert (NN : next_number e s m seq /\ next_number e s' m (seq + 1)).
  { split; [unfold next_number; rewrite HR, EQ; reflexivity|]. unfold next_number. rewrite <- (ms_req _ _ _ _ _ _ _ MS'). f_equal. rewrite MK. reflexivity. }
  exists (ob_mkt o'), A', ((x, oo') :: L0), oo', tr, q', n, E, slot, id, dep. cbv zeta. fold tk. split; [exact LIM|]. split; [split; [exact FR|exists seq; split; [apply NN|split; [apply NN|reflexivity]]]|]. split.
  { eapply state_seen; [|exact MS']. rewrite V. unfold overlay. rewrite Z.eqb_refl. reflexivity. }
  split.
  { intros y oy. cbn [In]. rewrite INR. rewrite (sn_oos _ _ _ _ _ _ SN y oy). unfold live. intuition congruence. }
  split; [exact EV|]. split.
  { intros sl HS. assert (CAP : slab_cap (orders_of o1 (oi_side ix)) = slab_cap sl).
    { pose proof (or_keeps _ _ _ _ _ _ _ _ _ _ _ _ _ _ _ _ _ _ _ _ _ _ OR) as (k1 & k2 & _). destruct (od_keeps _ _ _ _ _ _ OD) as (k3 & k4 & _). destruct B as [_ NB HB HA HQ].
      destruct (oi_side ix); cbn [orders_of ob_bids ob_asks] in *; [assert (sl = bids) by congruence|assert (sl = asks) by congruence]; subst; congruence. }
    unfold MatchOrder.room in RP. rewrite CAP, LK in RP. exact RP. }
  destruct PLD as [p1 p2 p3 p4 p5 p6 p7 p8]. destruct (od_id _ _ _ _ _ _ OD) as (d1 & d2 & d3).
  split; [auto|]. split; [exact p7|]. split; [exact p8|]. split.
  { split; [intros y N; cbn [In] in N; rewrite O3, O1; [reflexivity|..]; cbn [In]; fold vault in N; tauto|].
    fold vault. destruct (transfer_in_ok e (eo_spl _ EO) _ _ _ _ _ _ _ TR) as [(-> & _)|(_ & TT & X)]; auto. split; [auto|].
    destruct (tr_tok _ _ _ _ _ _ _ TT) as (ts & td & T1 & _ & _ & _ & _ & _ & AU & _). rewrite Q in T1.
    assert (NV : forall v mint tv, vault_ok e s k m v mint tv -> payer = v -> is_pda e (oo_owner oo)).
    { intros v mint tv [v1 _ v3 v4 _ _] ->. assert (tv = ts) by congruence. subst tv. exists (m_nonce m), k. destruct AU as [AU|AU]; [|congruence]. exfalso. unfold is_delegate in AU. rewrite (proj1 v4) in AU. discriminate. }
    destruct (wv_coin _ _ (wi_vlt _ _ WI) k m HM) as (tc & VC). destruct (wv_pc _ _ (wi_vlt _ _ WI) k m HM) as (tp & VP).
    destruct (Z.eq_dec payer (m_coin_vault m)) as [E1|E1]; [right; left; exact (NV _ _ _ VC E1)|]. destruct (Z.eq_dec payer (m_pc_vault m)) as [E2|E2]; [right; left; exact (NV _ _ _ VP E2)|]. auto. }
  pose proof (or_amounts _ _ _ _ _ _ _ _ _ _ _ _ _ _ _ _ _ _ _ _ _ _ OR) as AMT. pose proof (or_all _ _ _ _ _ _ _ _ _ _ _ _ _ _ _ _ _ _ _ _ _ _ OR) as ALL.
  assert (ST : is_send_take (params (oi_ot ix) id x slot t (oi_cid ix) (oi_st ix)) = false) by (unfold is_send_take, system_id; cbn; lia).
  assert (LIM2 : price_of_id id = oi_price ix) by exact LIM.
  assert (TKO : tk_of (params (oi_ot ix) id x slot t (oi_cid ix) (oi_st ix)) (oi_side ix) = tk) by (rewrite <- TK; unfold tk_of, the_taker; cbn [params op_order_id op_owner op_slot op_tier op_cid op_st]; f_equal; rewrite ?ST; try reflexivity; unfold system_id in *; lia).
  unfold vault in MV. rewrite LOT2 in AMT. rewrite LOT1, LOT2 in ALL. clear - AMT ALL MK MV p1 p2 p3 p4 p5 p6 ST LIM2 LK TKO.
  destruct (oi_side ix) eqn:SD.
  - destruct AMT as [a1 a2 a3 a4 a5 (a6 & a7 & a8)]. destruct ALL as [_ _ [_ _ _ _ _ _ u7 u8] _ _]. rewrite ST in a5. cbn [pr_zero p_pc_debit p_coin_credit p_pc_unlocked p_coin_unlocked p_pc_credit p_coin_debit params op_order_id] in *.
    rewrite TKO in *. clearbody tk id. rewrite LIM2 in a5. subst lk. rewrite a3, a4 in *. rewrite a6, a7, a8 in *. rewrite a2 in *.
    split; [lia|]. split; [lia|]. split; [|split; [exact MV|rewrite MK; f_equal; lia]]. unfold changed_by. rewrite p1, p2, p3, p4, p5. rewrite a1, a5. repeat split; lia.
  - destruct AMT as [a1 a2 a3 a4 a5 (a6 & a7 & a8)]. destruct ALL as [_ _ [_ _ _ _ _ _ u7 u8] _ _]. rewrite ST in a5. cbn [pr_zero p_pc_debit p_coin_credit p_pc_unlocked p_coin_unlocked p_pc_credit p_coin_debit params op_order_id] in *.
    rewrite TKO in *. clearbody tk id. rewrite a3, a4 in *. rewrite a6, a7, a8 in *. rewrite a1 in *.
    split; [lia|]. split; [lia|]. split; [|split; [exact MV|rewrite MK; f_equal; lia]]. unfold changed_by. rewrite p1, p2, p3, p4, p5. rewrite a2, a5. repeat split; lia.
Qed.
End One.
End Trade.
