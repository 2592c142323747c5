(** Why a new order is refused, on one market: the whole instruction body. *)
From Coq Require Import Permutation.
From Verif Require Import Base BaseProofs Fees FeesSpec FeesProofs Critbit CritbitProofs CritbitSlab CritbitOps
  CritbitSpec CritbitRefine ListSum Queue QueueSpec QueueProofs Codec Market Matching MatchSteps MatchRefine
  MatchAsk MatchBid MatchRun Ledger LedgerSteps LedgerSums MatchRoom MatchSpec LedgerRun MatchReport MatchOrder MatchFacts
  Slots Core CoreInv CoreOrder CoreNew PlaceSpec CorePlace MatchBlame MatchTwin MatchFull.

Lemma rbind_err {X Y} (a : res X) (f : X -> res Y) er : rbind a f = Err er -> a = Err er \/ exists x, a = Ok x /\ f x = Err er.
Proof. destruct a; cbn [rbind]; intros H; [right; eauto|left; congruence|discriminate]. Qed.
Lemma check_err b er er' : check b er = Err er' -> b = false /\ er' = er.
Proof. destruct b; cbn [check]; intros H; [discriminate|]. split; congruence. Qed.
(** Only these errors. *)
Definition errs {X} (L : list err) (r : res X) : Prop := forall er, r = Err er -> In er L.
Lemma errs_ok {X} L (x : X) : errs L (Ok x).
Proof. intros er H. discriminate. Qed.
Lemma errs_panic {X} L : errs L (@Panic X).
Proof. intros er H. discriminate. Qed.
Lemma errs_err {X} L er : In er L -> errs L (@Err X er).
Proof. intros H er' E. injection E as <-. exact H. Qed.
Lemma errs_bind {X Y} L (a : res X) (f : X -> res Y) : errs L a -> (forall x, errs L (f x)) -> errs L (rbind a f).
Proof. intros H1 H2 er H. apply rbind_err in H. destruct H as [H|(x & _ & H)]; [exact (H1 _ H)|exact (H2 _ _ H)]. Qed.
Lemma errs_check L b er : In er L -> errs L (check b er).
Proof. intros H. destruct b; [apply errs_ok|apply errs_err; exact H]. Qed.
Lemma errs_passert L b : errs L (passert b).
Proof. destruct b; [apply errs_ok|apply errs_panic]. Qed.
Lemma errs_unwrap {X} L (o : option X) : errs L (unwrap o).
Proof. destruct o; [apply errs_ok|apply errs_panic]. Qed.
Lemma errs_ok_or {X} L (o : option X) er : In er L -> errs L (ok_or o er).
Proof. intros H. destruct o; [apply errs_ok|apply errs_err; exact H]. Qed.
Lemma errs_cadd L a b : errs L (cadd a b).
Proof. unfold cadd. destruct (_ <? _); [apply errs_ok|apply errs_panic]. Qed.
Lemma errs_csub L a b : errs L (csub a b).
Proof. unfold csub. destruct (_ <=? _); [apply errs_ok|apply errs_panic]. Qed.
Lemma errs_cmul L a b : errs L (cmul a b).
Proof. unfold cmul. destruct (_ <? _); [apply errs_ok|apply errs_panic]. Qed.
Ltac errs1 := lazymatch goal with
  | |- errs _ (Ok _) => apply errs_ok | |- errs _ Panic => apply errs_panic | |- errs _ (Err _) => apply errs_err; cbn [In]; tauto
  | |- errs _ (check _ _) => apply errs_check; cbn [In]; tauto | |- errs _ (passert _) => apply errs_passert | |- errs _ (unwrap _) => apply errs_unwrap
  | |- errs _ (ok_or (Some ?x) _) => apply errs_ok | |- errs _ (ok_or _ _) => apply errs_ok_or; cbn [In]; tauto
  | |- errs _ (cadd _ _) => apply errs_cadd | |- errs _ (csub _ _) => apply errs_csub | |- errs _ (cmul _ _) => apply errs_cmul
  | |- errs _ (rbind _ _) => apply errs_bind; [|intros ?] end.
Ltac errs_all := repeat (cbv zeta; cbv beta iota; errs1).

Lemma apply_proceeds_errs oo cl pr : errs [EAssert] (apply_proceeds oo cl pr).
Proof. unfold apply_proceeds, credit_locked_coin, unlock_coin, credit_locked_pc, unlock_pc. errs_all. Qed.
Lemma lock_funds_err o oo ix bal er : 0 < oi_pc ix < B64 -> lock_funds o oo ix bal = Err er -> er = EInsufficientFunds /\
  (B64 <= locks ix (m_coin_lot (ob_mkt o)) \/ bal < to_pay ix (m_coin_lot (ob_mkt o)) oo).
Proof.
  intros PC. unfold lock_funds, to_pay, locks.
  assert (Z1 : forall oo x er, lock_free_pc oo x = Err er -> False) by (intros oo0 x er0 H; unfold lock_free_pc, csub in H; destruct (_ <=? _); discriminate).
  assert (Z2 : forall oo x er, lock_free_coin oo x = Err er -> False) by (intros oo0 x er0 H; unfold lock_free_coin, csub in H; destruct (_ <=? _); discriminate).
  assert (Z3 : forall oo x er, credit_locked_pc oo x = Err er -> False) by (intros oo0 x er0 H; unfold credit_locked_pc, cadd in H; destruct (_ <? _); discriminate).
  assert (Z4 : forall oo x er, credit_locked_coin oo x = Err er -> False) by (intros oo0 x er0 H; unfold credit_locked_coin, cadd in H; destruct (_ <? _); discriminate).
  assert (Z5 : forall a b er, cadd a b = Err er -> False) by (intros a b er0 H; unfold cadd in H; destruct (_ <? _); discriminate).
  destruct (oi_side ix); intros H.
  - apply rbind_err in H. destruct H as [H|(_ & _ & H)]; [apply check_err in H; destruct H as [H ->]; split; [reflexivity|right; lia]|].
    apply rbind_err in H. destruct H as [H|(oo1 & _ & H)]; [destruct (Z1 _ _ _ H)|]. apply rbind_err in H. destruct H as [H|(oo2 & _ & H)]; [destruct (Z3 _ _ _ H)|].
    apply rbind_err in H. destruct H as [H|(d & _ & H)]; [destruct (Z5 _ _ _ H)|discriminate].
  - apply rbind_err in H. destruct H as [H|(lk & HL & H)].
    { destruct (_ <? _) eqn:E; [discriminate|]. split; [congruence|left; lia]. }
    destruct (_ <? _) eqn:E in HL; [|discriminate]. injection HL as <-.
    apply rbind_err in H. destruct H as [H|(_ & _ & H)]; [apply check_err in H; destruct H as [H ->]; split; [reflexivity|right; lia]|].
    apply rbind_err in H. destruct H as [H|(oo1 & _ & H)]; [destruct (Z2 _ _ _ H)|]. apply rbind_err in H. destruct H as [H|(oo2 & _ & H)]; [destruct (Z4 _ _ _ H)|].
    apply rbind_err in H. destruct H as [H|(d & _ & H)]; [destruct (Z5 _ _ _ H)|discriminate].
Qed.

Lemma meets_own_side opp sd lim k qty pc pc' pl n : (sd = Bid -> pc' = pc) -> meets_own opp sd lim k qty pc pl n -> meets_own opp sd lim k qty pc' pl n.
Proof.
  intros E (l & H1 & H2 & H3 & H4 & H5 & H6). exists l. repeat split; try assumption. intros SD. rewrite (E SD). apply H6, SD.
Qed.
(** The instruction body on one market.  [why_core] are the reasons. *)
Definition why_core (o : obs) (seq : Z) (oo : open_orders) (A : astate) (k : Z) (t : tier) (ix : order_ix) (bal now : Z) (er : err) : Prop :=
  let opp := book_of A (other (oi_side ix)) in
  match er with
  | EMaxTimestamp => oi_max_ts ix < I64_MAX /\ oi_max_ts ix < now
  | EInsufficientFunds => B64 <= locks ix (m_coin_lot (ob_mkt o)) \/ bal < to_pay ix (m_coin_lot (ob_mkt o)) oo
  | ETooManyOpenOrders => oo_free_bits oo = 0
  | EWouldSelfTrade => oi_st ix = AbortTransaction /\ oi_ot ix <> PostOnly /\
      meets_own opp (oi_side ix) (oi_price ix) k (oi_qty ix) (oi_pc ix) (m_pc_lot (ob_mkt o)) (oi_limit ix)
  | EEventQueueFull => zlen (q_buf (ob_eq o)) < zlen (a_evs A) + events_needed opp (oi_side ix) (oi_price ix) k (oi_st ix) (oi_limit ix) /\
      (zlen (q_buf (ob_eq o)) < 4611686018427387904 ->
       (oi_st ix = AbortTransaction /\ oi_ot ix <> PostOnly /\
        meets_own opp (oi_side ix) (oi_price ix) k (oi_qty ix) (oi_pc ix) (m_pc_lot (ob_mkt o)) (oi_limit ix)) \/
       overflows (ob_mkt o) A k ix t seq (slab_cap (orders_of o (oi_side ix))) (zlen (q_buf (ob_eq o))))
  | _ => False
  end.
Theorem new_order_refused o seq oo k L A t ix bal now er :
  cinv o seq ((k, oo) :: L) A -> order_ix_ok ix -> new_order_core o (0, seq) oo k t ix bal now = Err er ->
  er = EAssert \/ why_core o seq oo A k t ix bal now er.
Proof.
  intros C IX H. destruct IX as [ok_price0 ok_qty0 ok_pc0 ok_cid0 ok_limit0 ok_ts0].
  pose proof (ci_acct _ _ _ _ C k oo (or_introl eq_refl)) as AO.
  assert (KNZ : k <> 0) by (intros ->; apply (ci_nz _ _ _ _ C); left; reflexivity).
  pose proof (ci_mkt _ _ _ _ C) as MU. pose proof MU as (MU1 & MU2 & MU3). pose proof (ci_coin_dep _ _ _ _ C) as MU4. unfold u64 in MU1, MU2, MU3, MU4.
  pose proof (ao_coin _ _ _ _ _ _ AO) as P1. pose proof (ao_pc _ _ _ _ _ _ AO) as P2.
  pose proof (ci_cl _ _ _ _ C) as CLP. pose proof (ci_pl _ _ _ _ C) as PLP.
  unfold new_order_core in H. cbn [fst snd] in H.
  apply rbind_err in H. destruct H as [H|(_ & _ & H)].
  { apply check_err in H. destruct H as [H ->]. right. cbn [why_core]. apply orb_false_iff in H. destruct H as [H1 H2]. apply negb_false_iff in H1. lia. }
  apply rbind_err in H. destruct H as [H|(_ & _ & H)]; [apply check_err in H; left; tauto|].
  apply rbind_err in H. destruct H as [H|([[[o1 oo1] dep] lk] & HL & H)].
  { right. unfold u64 in ok_pc0. destruct (lock_funds_err _ _ _ _ _ ok_pc0 H) as [-> X]. exact X. }
  destruct (lock_funds_ok _ _ _ _ _ _ _ _ (proj1 P1) (proj1 P2) (proj1 ok_qty0) (proj1 ok_pc0) CLP HL) as (KS & DEP & OB1 & OB2 & OB3 & LK).
  rewrite gen_order_id_spec in H by (unfold u64; pose proof (ci_seq _ _ _ _ C); lia).
  apply rbind_err in H. destruct H as [H|([oo2 slot] & HA & H)].
  { unfold add_order in H. apply rbind_err in H. destruct H as [H|(_ & _ & H)].
    - apply check_err in H. destruct H as [H ->]. right. cbn [why_core]. apply negb_false_iff in H. destruct KS as (_ & _ & _ & K4 & _). rewrite <- K4. lia.
    - left. apply rbind_err in H. destruct H as [H|(_ & _ & H)]; [apply check_err in H; tauto|]. apply rbind_err in H. destruct H as [H|(_ & _ & H)]; [|discriminate]. destruct (znth (oo_orders oo1) _); discriminate. }
  assert (W1 : oo_wf oo1).
  { destruct KS as (_ & _ & _ & K4 & K5 & K6 & K7 & _). destruct (ao_wf _ _ _ _ _ _ AO). constructor; congruence. }
  assert (NF : oo_free_bits oo1 <> 0).
  { intros E. unfold add_order in HA. rewrite E in HA. discriminate. }
  set (id := oi_price ix * B64 + seq_part (oi_side ix) seq) in *.
  destruct (add_order_ok oo1 id (oi_side ix) W1 NF) as (oo2' & slot' & HA' & W2 & SB & SL & _). rewrite HA in HA'. injection HA' as <- <-.
  apply rbind_err in H. destruct H as [H|(_ & _ & H)]; [destruct (znth _ _); discriminate|].
  assert (SM1 : same_market (ob_mkt o) (ob_mkt o1)).
  { destruct (oi_side ix); [destruct LK as (_ & ? & _ & _ & _ & _ & _ & _ & _ & LM & _)|destruct LK as (_ & _ & ? & _ & _ & _ & _ & _ & _ & _ & LM & _)]; rewrite LM; reflexivity. }
  assert (O1 : o1 = set_mkt o (ob_mkt o1)) by (apply obs_same; assumption).
  assert (MU1' : mkt_u64 (ob_mkt o1)).
  { destruct (oi_side ix); [destruct LK as (_ & ? & _ & _ & _ & _ & _ & _ & _ & LM & LB)|destruct LK as (_ & _ & ? & _ & _ & _ & _ & _ & _ & _ & LM & LB)];
    rewrite LM; unfold mkt_u64, u64 in *; cbn; lia. }
  assert (SP : 0 <= seq_part (oi_side ix) seq < B64) by (pose proof (ci_seq _ _ _ _ C); unfold seq_part; destruct (oi_side ix); lia).
  assert (IDP : id / B64 = oi_price ix) by (unfold id; rewrite (Z.div_add_l (oi_price ix) B64) by lia; rewrite (Z.div_small _ B64) by lia; lia).
  assert (RD : ready o1 A (oi_side ix) (oi_ot ix) id k (oi_qty ix) lk (oi_st ix)).
  { rewrite O1. eapply order_ready; try eassumption; try lia.
    - intros E. rewrite E in LK. destruct LK as (-> & LQ & _). auto.
    - intros E. rewrite E in LK. destruct LK as (-> & _). assumption. }
  assert (R1 : rep o1 A) by (rewrite O1; apply rep_other_mkt; apply C).
  assert (PLE : m_pc_lot (ob_mkt o1) = m_pc_lot (ob_mkt o)).
  { destruct (oi_side ix); [destruct LK as (_ & ? & _ & _ & _ & _ & _ & _ & _ & LM & LB)|destruct LK as (_ & _ & ? & _ & _ & _ & _ & _ & _ & _ & LM & LB)]; rewrite LM; reflexivity. }
  apply rbind_err in H. destruct H as [H|([[o2 pr] rem] & HN & H)].
  { right. destruct (order_blame o1 A _ _ _ _ _ _ _ _ _ _ _ er R1 RD H) as [(-> & X)|(-> & X)]; cbn [why_core]; rewrite IDP in X.
    { rewrite Z2Nat.id in X by lia. destruct X as (X1 & X2 & X3). split; [exact X1|]. split; [exact X2|]. rewrite PLE in X3. eapply meets_own_side; [|exact X3]. intros SD. rewrite SD in LK. symmetry. apply LK. }
    split; [rewrite OB3, Z2Nat.id in X by lia; exact X|]. clear X. intros CAP. rewrite <- OB3 in CAP |- *.
    assert (LIM : Z.of_nat (Z.to_nat (oi_limit ix)) = oi_limit ix) by (apply Z2Nat.id; lia).
    assert (CL' : m_coin_lot (ob_mkt o1) = m_coin_lot (ob_mkt o)) by (rewrite SM1; reflexivity). assert (PL' : m_pc_lot (ob_mkt o1) = m_pc_lot (ob_mkt o)) by (rewrite SM1; reflexivity).
    apply order_full with (1 := R1) (2 := RD) in H; [|left; exact KNZ|lia]. rewrite LIM, IDP, CL', PL' in H.
    destruct H as [(X1 & X2 & X3)|(opp' & own' & E & tr & q' & n & X1 & X2)]; [left|right].
    { split; [exact X1|]. split; [exact X2|]. eapply meets_own_side; [|exact X3]. intros SD. rewrite SD in LK. symmetry. apply LK. }
    exists slot, opp', own', E, tr, q', n. split; [|exact X2]. unfold the_taker, room in X1. replace (k =? 0) with false in X1 by lia.
    replace (orders_of o1 (oi_side ix)) with (orders_of o (oi_side ix)) in X1 by (destruct (oi_side ix); cbn [orders_of]; congruence).
    replace (match oi_side ix with Bid => oi_pc ix | Ask => 0 end) with lk by (destruct (oi_side ix); apply LK). exact X1. }
  left. apply rbind_err in H. destruct H as [H|(_ & _ & H)]; [apply check_err in H; tauto|].
  apply rbind_err in H. destruct H as [H|(oo4 & _ & H)]; [|discriminate]. apply apply_proceeds_errs in H. destruct H as [<-|[]]. reflexivity.
Qed.
(** With the funds, a free slot and room in the totals, the order is accepted or matching refuses it. *)
Theorem new_order_decided o seq oo k L A t ix bal now :
  cinv o seq ((k, oo) :: L) A -> order_ix_ok ix ->
  (oi_max_ts ix < I64_MAX -> now <= oi_max_ts ix) -> oo_free_bits oo <> 0 ->
  let m := ob_mkt o in let dep := to_pay ix (m_coin_lot m) oo in
  dep <= bal -> (oi_side ix = Ask -> oi_qty ix * m_coin_lot m < B64) ->
  oo_coin_total oo + m_coin_deposits m + (match oi_side ix with Ask => dep | Bid => 0 end) < B64 ->
  oo_pc_total oo + m_pc_deposits m + (match oi_side ix with Bid => dep | Ask => 0 end) < B64 ->
  (exists o' oo', new_order_core o (0, seq) oo k t ix bal now = Ok (o', (0, wadd seq 1), oo', dep)) \/
  (exists er, new_order_core o (0, seq) oo k t ix bal now = Err er /\ why_core o seq oo A k t ix bal now er).
Proof.
  intros C IX TS FB m dep HB HQ T1 T2. destruct IX as [ok_price0 ok_qty0 ok_pc0 ok_cid0 ok_limit0 ok_ts0].
  pose proof (ci_acct _ _ _ _ C k oo (or_introl eq_refl)) as AO.
  assert (KNZ : k <> 0) by (intros ->; apply (ci_nz _ _ _ _ C); left; reflexivity).
  pose proof (ci_mkt _ _ _ _ C) as MU. pose proof MU as (MU1 & MU2 & MU3). pose proof (ci_coin_dep _ _ _ _ C) as MU4. unfold u64 in MU1, MU2, MU3, MU4.
  pose proof (ao_coin _ _ _ _ _ _ AO) as P1. pose proof (ao_pc _ _ _ _ _ _ AO) as P2.
  pose proof (ci_cl _ _ _ _ C) as CLP. pose proof (ci_pl _ _ _ _ C) as PLP.
  unfold new_order_core. cbn [fst snd].
  replace (negb (oi_max_ts ix <? I64_MAX) || (now <=? oi_max_ts ix)) with true by (destruct (oi_max_ts ix <? I64_MAX) eqn:E; cbn [negb orb]; lia).
  change (0 =? 0) with true. cbn [check rbind].
  destruct (lock_funds_fwd o oo ix bal (proj1 ok_qty0) (proj1 ok_pc0) CLP P1 P2 HB HQ) as (o1 & oo1 & lk & HL).
  { fold m. fold dep. destruct (oi_side ix); unfold m in *; lia. }
  fold m dep in HL. rewrite HL. cbn [rbind].
  destruct (lock_funds_ok _ _ _ _ _ _ _ _ (proj1 P1) (proj1 P2) (proj1 ok_qty0) (proj1 ok_pc0) CLP HL) as (KS & DEP & OB1 & OB2 & OB3 & LK).
  rewrite gen_order_id_spec by (unfold u64; pose proof (ci_seq _ _ _ _ C); lia).
  assert (W1 : oo_wf oo1).
  { destruct KS as (_ & _ & _ & K4 & K5 & K6 & K7 & _). destruct (ao_wf _ _ _ _ _ _ AO). constructor; congruence. }
  assert (NF : oo_free_bits oo1 <> 0) by (destruct KS as (_ & _ & _ & K4 & _); congruence).
  destruct (add_order_ok oo1 (oi_price ix * B64 + seq_part (oi_side ix) seq) (oi_side ix) W1 NF)
    as (oo2 & slot & HA & W2 & SB & SL & FR1 & FR2 & OR & SI & CI & REST).
  rewrite HA. cbn [rbind].
  assert (CIDL : zlen (oo_cids oo2) = 128) by (apply W2).
  assert (UC : exists c, znth (oo_cids oo2) slot = Some c) by (apply znth_lt; lia).
  destruct UC as (c & ->). cbn [unwrap rbind].
  assert (SM1 : same_market (ob_mkt o) (ob_mkt o1)).
  { destruct (oi_side ix); [destruct LK as (_ & ? & _ & _ & _ & _ & _ & _ & _ & LM & _)|destruct LK as (_ & _ & ? & _ & _ & _ & _ & _ & _ & _ & LM & _)]; rewrite LM; reflexivity. }
  assert (O1 : o1 = set_mkt o (ob_mkt o1)) by (apply obs_same; assumption).
  assert (MU1' : mkt_u64 (ob_mkt o1)).
  { destruct (oi_side ix); [destruct LK as (_ & ? & _ & _ & _ & _ & _ & _ & _ & LM & LB)|destruct LK as (_ & _ & ? & _ & _ & _ & _ & _ & _ & _ & LM & LB)];
    rewrite LM; unfold mkt_u64, u64 in *; cbn; lia. }
  set (id := oi_price ix * B64 + seq_part (oi_side ix) seq) in *.
  assert (SP : 0 <= seq_part (oi_side ix) seq < B64) by (pose proof (ci_seq _ _ _ _ C); unfold seq_part; destruct (oi_side ix); lia).
  assert (IDP : id / B64 = oi_price ix) by (unfold id; rewrite (Z.div_add_l (oi_price ix) B64) by lia; rewrite (Z.div_small _ B64) by lia; lia).
  assert (RD : ready o1 A (oi_side ix) (oi_ot ix) id k (oi_qty ix) lk (oi_st ix)).
  { rewrite O1. eapply order_ready; try eassumption; try lia.
    - intros E. rewrite E in LK. destruct LK as (-> & LQ & _). auto.
    - intros E. rewrite E in LK. destruct LK as (-> & _). assumption. }
  assert (R1 : rep o1 A) by (rewrite O1; apply rep_other_mkt; apply C).
  assert (PLE : m_pc_lot (ob_mkt o1) = m_pc_lot (ob_mkt o)).
  { destruct (oi_side ix); [destruct LK as (_ & ? & _ & _ & _ & _ & _ & _ & _ & LM & LB)|destruct LK as (_ & _ & ? & _ & _ & _ & _ & _ & _ & _ & LM & LB)]; rewrite LM; reflexivity. }
  destruct (new_order o1 (oi_side ix) (oi_ot ix) id k slot t (oi_qty ix) lk (oi_cid ix) (oi_st ix) (Z.to_nat (oi_limit ix))) as [[[o2 pr] rem]|er|] eqn:HN.
  3: destruct (order_calm _ _ _ _ _ _ _ _ _ _ _ _ _ R1 RD HN).
  2: { right. exists er. split; [reflexivity|]. destruct (order_blame o1 A _ _ _ _ _ _ _ _ _ _ _ er R1 RD HN) as [(-> & X)|(-> & X)]; cbn [why_core]; rewrite IDP in X.
    { rewrite Z2Nat.id in X by lia. destruct X as (X1 & X2 & X3). split; [exact X1|]. split; [exact X2|]. rewrite PLE in X3. eapply meets_own_side; [|exact X3]. intros SD. rewrite SD in LK. symmetry. apply LK. }
    split; [rewrite OB3, Z2Nat.id in X by lia; exact X|]. clear X. intros CAP. rewrite <- OB3 in CAP |- *.
    assert (LIM : Z.of_nat (Z.to_nat (oi_limit ix)) = oi_limit ix) by (apply Z2Nat.id; lia).
    assert (CL' : m_coin_lot (ob_mkt o1) = m_coin_lot (ob_mkt o)) by (rewrite SM1; reflexivity). assert (PL' : m_pc_lot (ob_mkt o1) = m_pc_lot (ob_mkt o)) by (rewrite SM1; reflexivity).
    apply order_full with (1 := R1) (2 := RD) in HN; [|left; exact KNZ|lia]. rewrite LIM, IDP, CL', PL' in HN.
    destruct HN as [(X1 & X2 & X3)|(opp' & own' & E & tr & q' & n & X1 & X2)]; [left|right].
    { split; [exact X1|]. split; [exact X2|]. eapply meets_own_side; [|exact X3]. intros SD. rewrite SD in LK. symmetry. apply LK. }
    exists slot, opp', own', E, tr, q', n. split; [|exact X2]. unfold the_taker, room in X1. replace (k =? 0) with false in X1 by lia.
    replace (orders_of o1 (oi_side ix)) with (orders_of o (oi_side ix)) in X1 by (destruct (oi_side ix); cbn [orders_of]; congruence).
    replace (match oi_side ix with Bid => oi_pc ix | Ask => 0 end) with lk by (destruct (oi_side ix); apply LK). exact X1. }
  cbn [rbind]. left.
  destruct (result o1 A _ _ _ _ _ _ _ _ _ _ _ _ _ _ R1 RD HN (or_introl KNZ)) as (-> & A' & tr & q' & n & E & F & R & OR1).
  cbn [check rbind].
  pose proof (or_mkt _ _ _ _ _ _ _ _ _ _ _ _ _ _ _ _ _ _ _ _ _ _ OR1) as MK.
  assert (LOT1 : m_coin_lot (ob_mkt o1) = m_coin_lot m) by (rewrite SM1; reflexivity).
  assert (LOT2 : m_pc_lot (ob_mkt o1) = m_pc_lot m) by (rewrite SM1; reflexivity).
  assert (LOT3 : m_coin_lot (ob_mkt o2) = m_coin_lot m) by (rewrite MK; exact LOT1).
  pose proof (or_all _ _ _ _ _ _ _ _ _ _ _ _ _ _ _ _ _ _ _ _ _ _ OR1) as ALL.
  pose proof (or_amounts _ _ _ _ _ _ _ _ _ _ _ _ _ _ _ _ _ _ _ _ _ _ OR1) as AM.
  pose proof (rp_rounds _ _ _ _ _ _ _ _ _ _ _ _ _ _ _ _ _ (or_report _ _ _ _ _ _ _ _ _ _ _ _ _ _ _ _ _ _ _ _ _ _ OR1)) as RR.
  pose proof (cinv_sorted _ _ _ _ C) as SO.
  pose proof (cinv_bids_value _ _ _ _ C) as BV. pose proof (cinv_asks_value _ _ _ _ C) as AV.
  assert (FN1 : 0 <= zsum (fun x : Z * open_orders => oo_pc_free (snd x)) ((k, oo) :: L)).
  { apply zsum_nonneg. intros [k' oo'] H'. pose proof (ao_pc _ _ _ _ _ _ (ci_acct _ _ _ _ C _ _ H')). cbn [snd]. lia. }
  assert (FN2 : 0 <= zsum (fun x : Z * open_orders => oo_coin_free (snd x)) ((k, oo) :: L)).
  { apply zsum_nonneg. intros [k' oo'] H'. pose proof (ao_coin _ _ _ _ _ _ (ci_acct _ _ _ _ C _ _ H')). cbn [snd]. lia. }
  assert (CF : exists oo4, apply_proceeds (set_cid oo2 slot (oi_cid ix)) (m_coin_lot (ob_mkt o2)) pr = Ok oo4).
  { rewrite LOT3.
    assert (B3 : oo_coin_free (set_cid oo2 slot (oi_cid ix)) = oo_coin_free oo1 /\ oo_coin_total (set_cid oo2 slot (oi_cid ix)) = oo_coin_total oo1 /\
      oo_pc_free (set_cid oo2 slot (oi_cid ix)) = oo_pc_free oo1 /\ oo_pc_total (set_cid oo2 slot (oi_cid ix)) = oo_pc_total oo1).
    { destruct SB as (_ & _ & _ & X1 & X2 & X3 & X4 & X5). unfold set_cid, set_slots. cbn [oo_coin_free oo_coin_total oo_pc_free oo_pc_total].
      repeat split; congruence. }
    destruct B3 as (C1 & C2 & C3 & C4).
    destruct (oi_side ix) eqn:SD; cbn [other book_of] in *.
    - destruct LK as (-> & fl & L1 & L2 & L3 & L4 & L5 & L6 & L7 & L8 & L9).
      destruct ALL as [_ _ SU _ _]. rewrite LOT1, LOT2 in SU. destruct SU as [u1 u2 u3 u4 u5 (u6a & u6b & u6c) u7 u8].
      cbn [pr_zero p_coin_unlocked p_pc_unlocked p_coin_credit p_pc_credit p_coin_debit p_pc_debit] in u6a, u6b, u6c, u7, u8.
      pose proof (bm_credit _ _ _ _ _ _ _ _ _ AM) as CR. cbn [pr_zero p_coin_credit] in CR. rewrite Z.add_0_l in CR.
      pose proof (rounds_coin _ (m_coin_lot m) _ _ _ _ _ CLP (fun b Hb => asks_nonneg _ _ _ (ci_fit _ _ _ _ C) CLP b Hb) (SO Ask) RR) as RC.
      assert (RC' : p_coin_credit pr * m_coin_lot m <= zsum (coin_of (m_coin_lot m)) (a_asks A)) by (rewrite CR; exact RC).
      fold m in T1, T2, CLP, PLP, AV, BV. 
      clear - C1 C2 C3 C4 L1 L2 L3 L4 L5 L6 L7 u6a u6b u6c u7 u8 P1 P2 T1 T2 CLP AV FN2 RC' DEP.
      apply apply_proceeds_fwd; rewrite ?C1, ?C2, ?C3, ?C4, ?u6a, ?u6b, ?u6c, ?Z.mul_0_l; try lia.
    - destruct LK as (-> & LQ & fl & L1 & L2 & L3 & L4 & L5 & L6 & L7 & L8 & L9).
      destruct ALL as [_ _ SU _ _]. rewrite LOT1, LOT2 in SU. destruct SU as [u1 u2 u3 u4 u5 (u6a & u6b & u6c) u7 u8].
      cbn [pr_zero p_coin_unlocked p_pc_unlocked p_coin_credit p_pc_credit p_coin_debit p_pc_debit] in u6a, u6b, u6c, u7, u8.
      pose proof (am_credit _ _ _ _ _ _ _ _ _ AM) as CR. cbn [pr_zero p_pc_credit] in CR. rewrite Z.add_0_l, LOT2 in CR.
      assert (NP : forall b, In b (a_bids A) -> 0 <= l_price b).
      { intros b Hb. destruct (f_bids _ _ _ (ci_fit _ _ _ _ C) b Hb) as (X1 & X2 & X3). lia. }
      pose proof (rounds_value _ (m_pc_lot m) _ _ _ _ _ PLP (fun b Hb => bids_nonneg _ _ _ (ci_fit _ _ _ _ C) PLP b Hb) NP (SO Bid) RR) as RC.
      assert (RC' : p_pc_credit pr <= zsum (pc_of (m_pc_lot m)) (a_bids A)).
      { rewrite CR. change (tk_of (params (oi_ot ix) id k slot t (oi_cid ix) (oi_st ix)) Ask) with (the_taker Ask id k slot t (oi_cid ix) (oi_st ix)).
        clear - RC u7. destruct u7 as (_ & _ & _ & u & _). lia. }
      assert (LE : (p_coin_unlocked pr + p_coin_debit pr) * m_coin_lot m <= oi_qty ix * m_coin_lot m).
      { apply Z.mul_le_mono_nonneg_r; [unfold m in *; lia|]. clear - u8. lia. }
      rewrite Z.mul_add_distr_r in LE. fold m in T1, T2, CLP, PLP, AV, BV, L1, L2.
      clear - C1 C2 C3 C4 L1 L2 L3 L4 L5 L6 L7 u6a u6b u6c u7 u8 P1 P2 T1 T2 CLP BV FN1 RC' DEP LE.
      apply apply_proceeds_fwd; rewrite ?C1, ?C2, ?C3, ?C4, ?u6a, ?u6b, ?u6c, ?Z.mul_0_l; try lia. }
  destruct CF as (oo4 & ->). cbn [rbind]. exists o2, oo4. reflexivity.
Qed.

Theorem new_order_accepted o seq oo k L A t ix bal now :
  cinv o seq ((k, oo) :: L) A -> order_ix_ok ix ->
  (oi_max_ts ix < I64_MAX -> now <= oi_max_ts ix) -> oo_free_bits oo <> 0 ->
  let m := ob_mkt o in let dep := to_pay ix (m_coin_lot m) oo in
  dep <= bal -> (oi_side ix = Ask -> oi_qty ix * m_coin_lot m < B64) ->
  oo_coin_total oo + m_coin_deposits m + (match oi_side ix with Ask => dep | Bid => 0 end) < B64 ->
  oo_pc_total oo + m_pc_deposits m + (match oi_side ix with Bid => dep | Ask => 0 end) < B64 ->
  let opp := book_of A (other (oi_side ix)) in
  (oi_st ix = AbortTransaction -> oi_ot ix <> PostOnly -> ~ meets_own opp (oi_side ix) (oi_price ix) k (oi_qty ix) (oi_pc ix) (m_pc_lot m) (oi_limit ix)) ->
  zlen (a_evs A) + events_needed opp (oi_side ix) (oi_price ix) k (oi_st ix) (oi_limit ix) <= zlen (q_buf (ob_eq o)) ->
  exists o' oo', new_order_core o (0, seq) oo k t ix bal now = Ok (o', (0, wadd seq 1), oo', dep).
Proof.
  intros C IX TS FB m dep HB HQ T1 T2 opp NO RM. destruct (new_order_decided o seq oo k L A t ix bal now C IX TS FB HB HQ T1 T2) as [X|(er & X & Y)]; [exact X|exfalso].
  assert (LB : locks ix (m_coin_lot m) < B64).
  { destruct IX as [_ _ PC _ _ _]. unfold u64 in PC. unfold locks. destruct (oi_side ix); [lia|auto]. }
  destruct er; cbn [why_core] in Y; try contradiction; fold m in Y; try fold dep in Y; try fold opp in Y; try lia.
  destruct Y as (Y1 & Y2 & Y3). exact (NO Y1 Y2 Y3).
Qed.
(** What the payer is charged. *)
Lemma new_order_charges o seq oo k L A t ix bal now o' rq' oo' dep : cinv o seq ((k, oo) :: L) A -> order_ix_ok ix ->
  new_order_core o (0, seq) oo k t ix bal now = Ok (o', rq', oo', dep) -> dep = to_pay ix (m_coin_lot (ob_mkt o)) oo /\ 0 <= dep <= bal.
Proof.
  intros C IX H. destruct IX as [ok_price0 ok_qty0 ok_pc0 ok_cid0 ok_limit0 ok_ts0].
  pose proof (ci_acct _ _ _ _ C k oo (or_introl eq_refl)) as AO. pose proof (ao_coin _ _ _ _ _ _ AO) as P1. pose proof (ao_pc _ _ _ _ _ _ AO) as P2.
  unfold new_order_core in H. do 2 (apply rbind_ok in H; destruct H as (_ & _ & H)).
  apply rbind_ok in H. destruct H as ([[[o1 oo1] d] lk] & HL & H).
  destruct (gen_order_id _ _ _) as [id seq']. apply rbind_ok in H. destruct H as ([oo2 slot] & _ & H). apply rbind_ok in H. destruct H as (_ & _ & H).
  apply rbind_ok in H. destruct H as ([[o2 pr] rem] & _ & H). apply rbind_ok in H. destruct H as (_ & _ & H). apply rbind_ok in H. destruct H as (oo4 & _ & H).
  assert (d = dep) by congruence. subst d.
  destruct (lock_funds_ok _ _ _ _ _ _ _ _ (proj1 P1) (proj1 P2) (proj1 ok_qty0) (proj1 ok_pc0) (ci_cl _ _ _ _ C) HL) as (_ & DEP & _ & _ & _ & LK).
  split; [|exact DEP]. unfold to_pay, locks. destruct (oi_side ix); [destruct LK as (_ & fl & [_ ->] & E & _)|destruct LK as (_ & _ & fl & [_ ->] & E & _)]; lia.
Qed.
(** Whatever the order asks for, it is accepted or refused for a reason. *)
Theorem new_order_judged o seq oo k L A t ix bal now : cinv o seq ((k, oo) :: L) A -> order_ix_ok ix ->
  let m := ob_mkt o in let dep := to_pay ix (m_coin_lot m) oo in
  oo_coin_total oo + m_coin_deposits m + (match oi_side ix with Ask => Z.min dep bal | Bid => 0 end) < B64 ->
  oo_pc_total oo + m_pc_deposits m + (match oi_side ix with Bid => Z.min dep bal | Ask => 0 end) < B64 ->
  (exists o' oo', new_order_core o (0, seq) oo k t ix bal now = Ok (o', (0, wadd seq 1), oo', dep)) \/
  (exists er, new_order_core o (0, seq) oo k t ix bal now = Err er /\ why_core o seq oo A k t ix bal now er).
Proof.
  intros C IX m dep T1 T2. pose proof IX as [ok_price0 ok_qty0 ok_pc0 ok_cid0 ok_limit0 ok_ts0].
  pose proof (ci_acct _ _ _ _ C k oo (or_introl eq_refl)) as AO. pose proof (ao_coin _ _ _ _ _ _ AO) as P1. pose proof (ao_pc _ _ _ _ _ _ AO) as P2. pose proof (ci_cl _ _ _ _ C) as CLP.
  destruct (negb (oi_max_ts ix <? I64_MAX) || (now <=? oi_max_ts ix)) eqn:TS.
  2: { right. exists EMaxTimestamp. unfold new_order_core. rewrite TS. split; [reflexivity|]. cbn [why_core]. lia. }
  destruct (Z.ltb_spec (locks ix (m_coin_lot m)) B64) as [LB|LB].
  2: { right. exists EInsufficientFunds. unfold new_order_core. rewrite TS. cbn [check rbind fst Z.eqb]. unfold lock_funds. unfold locks in LB. unfold u64 in ok_pc0. destruct (oi_side ix) eqn:SD; [lia|].
    fold m. replace (oi_qty ix * m_coin_lot m <? B64) with false by lia. split; [reflexivity|]. cbn [why_core]. left. unfold locks. rewrite SD. exact LB. }
  destruct (Z.leb_spec dep bal) as [HB|HB].
  2: { right. exists EInsufficientFunds. unfold new_order_core. rewrite TS. cbn [check rbind fst Z.eqb]. unfold lock_funds. fold m. unfold dep, to_pay, locks in HB. unfold locks in LB. destruct (oi_side ix) eqn:SD.
    - replace (_ <=? bal) with false by lia. split; [reflexivity|]. cbn [why_core]. right. fold m. unfold to_pay, locks. rewrite SD. lia.
    - replace (oi_qty ix * m_coin_lot m <? B64) with true by lia. cbn [rbind]. replace (_ <=? bal) with false by lia. split; [reflexivity|]. cbn [why_core]. right. fold m. unfold to_pay, locks. rewrite SD. lia. }
  assert (HQ : oi_side ix = Ask -> oi_qty ix * m_coin_lot m < B64) by (intros SD; unfold locks in LB; rewrite SD in LB; exact LB).
  rewrite Z.min_l in T1, T2 by lia.
  destruct (Z.eq_dec (oo_free_bits oo) 0) as [FB|FB].
  - right. exists ETooManyOpenOrders. split; [|exact FB]. unfold new_order_core. rewrite TS. cbn [check rbind fst snd Z.eqb].
    destruct (lock_funds_fwd o oo ix bal (proj1 ok_qty0) (proj1 ok_pc0) CLP P1 P2 HB HQ) as (o1 & oo1 & lk & HL).
    { fold m. fold dep. pose proof (ci_mkt _ _ _ _ C) as (MU1 & MU2 & MU3). pose proof (ci_coin_dep _ _ _ _ C) as MU4. unfold u64 in *. fold m in MU1, MU2, MU3, MU4. destruct (oi_side ix); lia. }
    rewrite HL. cbn [rbind]. destruct (lock_funds_ok _ _ _ _ _ _ _ _ (proj1 P1) (proj1 P2) (proj1 ok_qty0) (proj1 ok_pc0) CLP HL) as ((_ & _ & _ & K4 & _) & _).
    destruct (gen_order_id seq (oi_price ix) (oi_side ix)) as [id seq']. unfold add_order. rewrite K4, FB. reflexivity.
  - apply (new_order_decided o seq oo k L A t ix bal now C IX); try assumption. intros. lia.
Qed.
