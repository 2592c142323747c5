(** An immediate-or-cancel order with its settlement, and a send-take, are the same swap (C83). *)
From Coq Require Import Permutation.
From Verif Require Import Base BaseProofs Fees ListSum Queue Codec Critbit CritbitProofs CritbitSlab Market Matching MatchSteps MatchSpec Ledger Slots Core CoreInv CoreNew Instr InstrProofs Store Process StoreProofs World WorldInv WorldMain WorldSpec WorldFacts
  WorldCancel WorldPay WorldTrade WorldSupply LifeProofs BestSpec BestProofs MoreProofs SwapSpec.

Lemma moves_list s s' ps ps' : (forall v, zsum (got v) ps = zsum (got v) ps') -> moves s s' ps -> moves s s' ps'.
Proof. intros H M v. specialize (M v). rewrite <- H. exact M. Qed.
(** Who takes makes no difference where neither owns an order met. *)
Lemma eager_other pl k k2 limit q L bk tr : tk_side k2 = tk_side k -> tk_tier k2 = tk_tier k -> tk_limit k2 = tk_limit k ->
  eager pl k limit q L bk tr -> (forall r, In r tr -> self k r = false) -> (forall l, In l bk -> tk_owner k2 <> l_owner l) -> eager pl k2 limit q L bk tr.
Proof.
  intros ES ET EL. induction 1 as [limit q L bk ST|limit q L bk b t tr Q B WB A1 T H IH]; intros NS NO.
  - apply eager_stop. unfold affords in *. rewrite ES, ET, EL. exact ST.
  - pose proof (NS _ (or_introl eq_refl)) as N1. assert (N2 : self k2 (b, t) = false) by (unfold self; cbn [fst]; pose proof (NO b (proj1 B)); lia).
    rewrite N1 in T. apply eager_round; rewrite ?ES, ?EL; [exact Q|exact B|exact WB|unfold affords in *; rewrite ES, ET; exact A1|rewrite N2; cbn [andb] in *; unfold affords in *; rewrite ES, ET; exact T|].
    assert (EU : used k2 (b, t) = used k (b, t)) by (unfold used; rewrite N1, N2; reflexivity). assert (EC : tr_cost pl k2 (b, t) = tr_cost pl k (b, t)) by (unfold tr_cost; rewrite N1, N2, ET; reflexivity).
    rewrite EU, EC. apply IH; [intros r I; apply NS; right; exact I|]. intros l I. apply take_from_come in I. destruct I as (l0 & n & I & ->). exact (NO l0 I).
Qed.
Lemma rounds_book k k2 q q2 bk tr q' q2' bk' bk2 : rounds k q bk tr q' bk' -> rounds k2 q2 bk tr q2' bk2 -> bk' = bk2.
Proof.
  intros H. revert q2. induction H as [q bk|q bk b t tr q' bk' B W T U A1 A2 R IH]; intros q2 H2; inversion H2; subst; [reflexivity|]. eapply IH. eassumption.
Qed.
Lemma rounds_own k q bk tr q' bk' : rounds k q bk tr q' bk' -> forall r, In r tr -> exists l, In l bk /\ l_owner l = l_owner (fst r).
Proof.
  induction 1 as [|q bk b t tr q' bk' B W T U A1 A2 R IH]; intros r I; [destruct I|]. destruct I as [<-|I]; [exists b; split; [apply B|reflexivity]|].
  destruct (IH r I) as (l & IL & EL). apply take_from_come in IL. destruct IL as (l0 & n & IL & ->). exists l0. auto.
Qed.
Lemma rounds_no_self k q bk tr q' bk' : tk_st k = AbortTransaction -> rounds k q bk tr q' bk' -> forall r, In r tr -> self k r = false.
Proof.
  intros ST. induction 1 as [|q bk b t tr q' bk' B W T U A1 A2 R IH]; intros r I; [destruct I|]. destruct I as [<-|I]; [|exact (IH r I)].
  destruct (self k (b, t)); [|reflexivity]. destruct (A2 eq_refl) as [X _]. contradiction.
Qed.
Lemma told_app y a b : told y (a ++ b) = told y a ++ told y b.
Proof. unfold told. rewrite filter_app, map_app. reflexivity. Qed.
Lemma told_nil y E x : y <> x -> (forall v, In v E -> ev_owner v = x) -> told y E = [].
Proof.
  intros N H. unfold told. induction E as [|v r IH]; [reflexivity|]. cbn [filter]. rewrite (H v (or_introl eq_refl)). replace (x =? y) with false by lia. apply IH. intros u I. apply H. right. exact I.
Qed.
Lemma told_round cl pl k k2 y r g g2 : tk_side k2 = tk_side k -> y <> tk_owner k2 -> tk_silent k = true -> self k r = false -> self k2 r = false -> reported cl pl k r g -> reported cl pl k2 r g2 -> told y g = told y g2.
Proof.
  intros ES N SI S1 S2. destruct r as [b t]. unfold reported. rewrite S1, S2, SI. intros (ft & rest & -> & _) (ft2 & rest2 & -> & RS). rewrite app_nil_r, ES.
  assert (T0 : forall E F, told y (maker_fill cl pl k (b, t) ft :: E) = told y [maker_fill cl pl k2 (b, t) ft2] ++ told y E /\ told y (maker_fill cl pl k2 (b, t) ft2 :: F) = told y [maker_fill cl pl k2 (b, t) ft2] ++ told y F).
  { intros E F. split; [|change (maker_fill cl pl k2 (b, t) ft2 :: F) with ([maker_fill cl pl k2 (b, t) ft2] ++ F); apply told_app].
    change (maker_fill cl pl k (b, t) ft :: E) with ([maker_fill cl pl k (b, t) ft] ++ E). rewrite told_app. f_equal. unfold told, maker_fill. rewrite ES. destruct (tk_side k); cbn [filter ev_owner fst]; destruct (_ =? y); reflexivity. }
  etransitivity; [apply (T0 _ [])|]. symmetry. etransitivity; [apply (T0 [])|]. symmetry. f_equal. rewrite told_app. rewrite (told_nil y (if tk_silent k2 then [] else _) (tk_owner k2) N); [rewrite app_nil_r; reflexivity|].
  intros v I. destruct (tk_silent k2); [destruct I|]. destruct I as [<-|I]; [unfold taker_fill; destruct (tk_side k2); reflexivity|]. destruct RS as [->|(u & ->)]; [destruct I|destruct I as [<-|[]]; reflexivity].
Qed.
Lemma told_rounds cl pl k k2 y tr : tk_side k2 = tk_side k -> y <> tk_owner k2 -> tk_silent k = true -> (forall r, In r tr -> self k r = false) -> (forall r, In r tr -> self k2 r = false) ->
  forall gs gs2, Forall2 (reported cl pl k) tr gs -> Forall2 (reported cl pl k2) tr gs2 -> told y (concat gs) = told y (concat gs2).
Proof.
  intros ES N SI. induction tr as [|r tr IH]; intros S1 S2 gs gs2 F1 F2; inversion F1; inversion F2; subst; [reflexivity|]. cbn [concat]. rewrite !told_app. f_equal.
  - eapply told_round; [exact ES|exact N|exact SI|apply S1; left; reflexivity|apply S2; left; reflexivity|eassumption|eassumption].
  - apply IH; try assumption; intros u I; [apply S1|apply S2]; right; exact I.
Qed.

Section Swap.
Variable e : env.
Hypothesis EO : env_ok e.
Notation D := (dexd e).
Theorem swap_settled s k m A L : history e s -> no_overflow e s -> sized s -> seen e s k m A L -> usable m ->
  forall c ix ms s1, legal e ms -> wf_instr (INewOrderV3 ix) -> oi_ot ix = ImmediateOrCancel -> process e c s (INewOrderV3 ix) ms = Ok s1 -> key_at ms 0 = Some k ->
  forall c2 ms2 s2, process e c2 s1 ISettleFunds ms2 = Ok s2 -> key_at ms2 0 = Some k -> key_at ms2 1 = key_at ms 1 ->
  exists x w t payer oo cw pw, key_at ms 1 = Some x /\ signs ms 7 w /\ signs ms2 2 w /\ key_at ms 6 = Some payer /\ oo_owner oo = w /\ tier_for s k w (key_at ms 12) t /\
    (In (x, oo) L \/ (D s x = Some DZero /\ blank_for k w oo)) /\ key_at ms2 5 = Some cw /\ key_at ms2 6 = Some pw /\
    swapped e s s2 k m A L ix t x payer oo cw pw (key_at ms2 9).
Proof.
  intros HI G SZ SN P c ix ms s1 LG WF IOC H K c2 ms2 s2 H2 K2 KX. pose proof (reachable_inv e EO s HI) as WI.
  pose proof (process_inv e EO c s _ ms s1 WI G SZ LG WF H) as WI1.
  destruct (order_effect e EO s k m A L WI SN P (guard_room e s 1 G ltac:(lia)) c ix ms s1 H K (wf_order _ WF)) as (x & w & t & payer & oo & X1 & X7 & X6 & OW & TF & XO & OR).
  unfold orders in OR. destruct OR as (m1 & A1 & L1 & oo1 & tr & q' & n & E & slot & id & dep & OR). cbv zeta in OR. destruct OR as (LIM & _ & S1 & XL & EV & RP & (I1 & I2 & I3) & _ & _ & _ & BAL).
  assert (RP' : exists room, report (m_coin_lot m) (m_pc_lot m) (mkTaker (oi_side ix) id x slot t (oi_cid ix) (oi_st ix) false) (Z.to_nat (oi_limit ix)) (ot_post_only (oi_ot ix)) room (ot_post_allowed (oi_ot ix)) (oi_qty ix)
     (match oi_side ix with Bid => oi_pc ix | Ask => 0 end) (book_of A (other (oi_side ix))) (book_of A (oi_side ix)) (book_of A1 (other (oi_side ix))) (book_of A1 (oi_side ix)) E tr q' n).
  { destruct (oi_side ix); [destruct (sn_bids _ _ _ _ _ _ SN) as (sl & HS & _)|destruct (sn_asks _ _ _ _ _ _ SN) as (sl & HS & _)]; eexists; exact (RP _ HS). }
  clear RP. destruct RP' as (room & [r1 _ _ (gs & Ee & r4 & r5 & r6) r7]). rewrite IOC in r6, r7. specialize (r7 eq_refl). set (tk := mkTaker (oi_side ix) id x slot t (oi_cid ix) (oi_st ix) false) in *.
  assert (FN : n = 0 /\ book_of A1 (oi_side ix) = book_of A (oi_side ix) /\ forall v, In v Ee -> ev_owner v = x).
  { inversion r6 as [E0 HE _|l0 E0 AL|l0 w0 E0 AL]; subst; [|discriminate AL|discriminate AL]. split; [reflexivity|]. split; [congruence|]. destruct HE as [->|(_ & u & ->)]; [intros v []|intros v [<-|[]]; reflexivity]. }
  destruct FN as (-> & EOWN & FE). clear r6. rewrite ?Z.mul_0_l, ?Z.sub_0_r, ?Z.add_0_r in BAL.
  assert (P1 : usable m1 /\ m_coin_vault m1 = m_coin_vault m /\ m_pc_vault m1 = m_pc_vault m) by (destruct (oi_side ix); destruct BAL as (_ & _ & _ & _ & MB); rewrite MB; repeat split; apply P). destruct P1 as (P1 & V1 & V2).
  destruct (settle_effect e EO s1 k m1 A1 L1 WI1 S1 P1 c2 ms2 s2 H2 K2) as (x2 & ooc & cw & pw & Y1 & YI & YS & Y5 & Y6 & m2 & oo2 & S2 & M2 & CH2 & _ & MV2 & _).
  assert (x2 = x) as -> by congruence.
  assert (ooc = oo1) as ->.
  { apply (sn_oos _ _ _ _ _ _ S1) in YI. assert (Z1 : In (x, oo1) L1) by (apply XL; auto). apply (sn_oos _ _ _ _ _ _ S1) in Z1. destruct YI as [YI _], Z1 as [Z1 _]. congruence. }
  exists x, w, t, payer, oo, cw, pw. split; [exact X1|]. split; [exact X7|]. split; [rewrite I3, OW in YS; exact YS|]. split; [exact X6|]. split; [exact OW|]. split; [exact TF|].
  split; [destruct XO as [XO|(XO & _ & XB)]; auto|]. split; [exact Y5|]. split; [exact Y6|].
  exists m2, A1, (put_acct L1 x oo2), oo2, tr, q', E, slot, id, dep. cbv zeta. fold tk. split; [exact S2|]. split; [exact LIM|]. split; [exact r1|]. split; [exact r7|]. split; [exact EOWN|].
  split; [split; [exact EV|]; exists gs, Ee; auto|]. split.
  { intros y oy. rewrite put_acct_In. assert (IX : In x (map fst L1)) by (apply (in_map fst) in YI; exact YI). split.
    - intros [(-> & -> & _)|[N I]]; [auto|right]. split; [exact N|]. apply XL in I. destruct I as [[? _]|[_ I]]; [contradiction|exact I].
    - intros [[-> ->]|[N I]]; [auto|right]. split; [exact N|]. apply XL. auto. }
  assert (DE : dep = match oi_side ix with Bid => Z.max 0 (oi_pc ix - oo_pc_free oo) | Ask => Z.max 0 (oi_qty ix * m_coin_lot m - oo_coin_free oo) end) by (destruct (oi_side ix); apply BAL).
  rewrite V1, V2 in MV2.
  destruct (oi_side ix) eqn:SD; destruct BAL as (_ & LE & CH & MV & MB); unfold changed_by in *; destruct CH as (c1 & c3 & c4 & c5 & c6).
  - split; [lia|]. split; [exact DE|]. split.
    + eapply moves_list; [|exact (moves_app _ _ _ _ _ MV MV2)]. intros v. rewrite !zsum_app. cbn [zsum got]. rewrite c1, c4. replace (oo_rebates oo1) with (oo_rebates oo) by lia.
      replace (oo_pc_free oo + (dep - zsum (tr_value (m_pc_lot m) tk) tr - zsum (tr_fee (m_pc_lot m) tk) tr)) with (oo_pc_free oo + dep - zsum (tr_value (m_pc_lot m) tk) tr - zsum (tr_fee (m_pc_lot m) tk) tr) by lia. lia.
    + rewrite M2, MB, c1, c4, c6. unfold set_counters. cbn. destruct (key_at ms2 9); f_equal; lia.
  - split; [lia|]. split; [exact DE|]. split.
    + eapply moves_list; [|exact (moves_app _ _ _ _ _ MV MV2)]. intros v. rewrite !zsum_app. cbn [zsum got]. rewrite c1, c4. replace (oo_rebates oo1) with (oo_rebates oo) by lia.
      replace (oo_coin_free oo + (dep - zsum (tr_coin tk) tr * m_coin_lot m)) with (oo_coin_free oo + dep - zsum (tr_coin tk) tr * m_coin_lot m) by lia.
      replace (oo_pc_free oo + (zsum (tr_value (m_pc_lot m) tk) tr - zsum (tr_fee (m_pc_lot m) tk) tr)) with (oo_pc_free oo + zsum (tr_value (m_pc_lot m) tk) tr - zsum (tr_fee (m_pc_lot m) tk) tr) by lia. lia.
    + rewrite M2, MB, c1, c4, c6. unfold set_counters. cbn. destruct (key_at ms2 9); f_equal; lia.
Qed.

(** ** Against a send-take *)
Theorem swap_is_take s k m A L : history e s -> no_overflow e s -> sized s -> seen e s k m A L -> usable m ->
  forall c ix ms s1, legal e ms -> wf_instr (INewOrderV3 ix) -> oi_ot ix = ImmediateOrCancel -> process e c s (INewOrderV3 ix) ms = Ok s1 -> key_at ms 0 = Some k ->
  forall c2 ms2 s2, process e c2 s1 ISettleFunds ms2 = Ok s2 -> key_at ms2 0 = Some k -> key_at ms2 1 = key_at ms 1 ->
  forall c3 tx ms3 s3, wf_instr (ISendTake tx) -> process e c3 s (ISendTake tx) ms3 = Ok s3 -> key_at ms3 0 = Some k ->
  forall x, key_at ms 1 = Some x -> (forall oo, In (x, oo) L -> idle oo) -> (forall l, In l (book_of A (other (oi_side ix))) -> l_owner l <> x) -> same_ask tx ix ->
  nth_error ms3 7 = nth_error ms 7 -> key_at ms3 12 = key_at ms 12 -> key_at ms3 5 = key_at ms2 5 -> key_at ms3 6 = key_at ms2 6 ->
  key_at ms 6 = key_at ms3 (match oi_side ix with Bid => 6 | Ask => 5 end)%nat ->
  forall m2 A2 L2 m3 A3 L3, seen e s2 k m2 A2 L2 -> seen e s3 k m3 A3 L3 ->
  (forall v, match token_at s2 v, token_at s3 v with
             | Some a, Some b => t_amount a = t_amount b /\ t_mint a = t_mint b /\ t_owner a = t_owner b
             | None, None => True
             | _, _ => False
             end) /\
  m2 = m3 /\ (forall sd, book_of A2 sd = book_of A3 sd) /\ (forall y, y <> x -> told y (a_evs A2) = told y (a_evs A3)) /\
  (forall y oy, y <> x -> (In (y, oy) L2 <-> In (y, oy) L3)).
Proof.
  intros HI G SZ SN P c ix ms s1 LG WF IOC H K c2 ms2 s2 H2 K2 KX c3 tx ms3 s3 WF3 H3 K3 x X1 ID NX (A1 & A2' & A3' & A4 & A5) E7 E12 E5 E6 EP m2 A2 L2 m3 A3 L3 S2 S3.
  destruct (swap_settled s k m A L HI G SZ SN P c ix ms s1 LG WF IOC H K c2 ms2 s2 H2 K2 KX) as (x0 & w & t & payer & oo & cw & pw & X1' & X7 & _ & X6 & OW & TF & XO & Y5 & Y6 & SW).
  assert (x0 = x) as -> by congruence.
  destruct (take_effect e EO s k m A L (reachable_inv e EO s HI) SN P (guard_room e s 1 G ltac:(lia)) c3 tx ms3 s3 H3 K3 (wf_take_ok _ WF3)) as (w3 & t3 & cw3 & pw3 & Z7 & Z5 & Z6 & TF3 & TK).
  assert (w3 = w) as -> by (unfold signs in *; congruence). assert (cw3 = cw) as -> by congruence. assert (pw3 = pw) as -> by congruence.
  assert (t3 = t) as ->. { rewrite E12 in TF3. unfold tier_for in *. destruct (key_at ms 12); [|congruence]. destruct TF as (a & a1 & _ & ->), TF3 as (b & b1 & _ & ->). assert (b = a) by congruence. subst. reflexivity. }
  assert (IDO : idle oo) by (destruct XO as [XO|(_ & XB)]; [exact (ID _ XO)|]; destruct XB as (_ & _ & _ & b1 & _ & b2 & _ & b3 & _); repeat split; assumption).
  unfold swapped in SW. destruct SW as (m2' & A2x & L2' & oo' & tr & q' & E & slot & id & dep & SW). cbv zeta in SW. destruct SW as (S2' & LIM & r1 & r2 & OB & (EV & gs & Ee & EE & RE & OE) & XL & _ & DE & MV & MM).
  unfold takes in TK. destruct TK as (m3' & A3x & tr3 & q3 & gs3 & id3 & TK). cbv zeta in TK. destruct TK as ((LIM3 & _) & S3' & u1 & (_ & u2) & OB3 & EV3 & RE3 & _ & _ & _ & BAL3).
  set (tk := mkTaker (oi_side ix) id x slot t (oi_cid ix) (oi_st ix) false) in *. set (tk3 := mkTaker (ti_side tx) id3 0 0 t 0 AbortTransaction true) in *.
  rewrite A1 in u1, u2, OB3, BAL3. rewrite A3', A4, A5 in u2. rewrite A3' in u1.
  assert (N3 : forall r, In r tr3 -> self tk3 r = false) by (eapply rounds_no_self; [reflexivity|exact u1]).
  assert (EQ : tr3 = tr).
  { eapply (only_trades e EO s k m A L HI SN P (other (oi_side ix)) tk); [| |exact r2].
    - pose proof (wf_order _ WF) as []. destruct (oi_side ix); lia.
    - eapply eager_other; [| | |exact u2|exact N3|]; [symmetry; exact A1|reflexivity|congruence|]. intros l I. cbn [tk tk_owner]. intros X. exact (NX l I (eq_sym X)). }
  subst tr3.
  assert (N2 : forall r, In r tr -> self tk r = false).
  { intros r I. destruct (rounds_own _ _ _ _ _ _ r1 r I) as (l & IL & EL). pose proof (NX l IL) as NL. unfold self. cbn [tk tk_owner]. rewrite <- EL. lia. }
  assert (F1 : zsum (tr_coin tk3) tr = zsum (tr_coin tk) tr) by (apply zsum_ext; intros r I; unfold tr_coin; rewrite (N2 r I), (N3 r I); reflexivity).
  assert (F2 : zsum (tr_value (m_pc_lot m) tk3) tr = zsum (tr_value (m_pc_lot m) tk) tr) by (apply zsum_ext; intros r I; unfold tr_value; rewrite (N2 r I), (N3 r I); reflexivity).
  assert (FF : forall r, In r tr -> tr_fee (m_pc_lot m) tk3 r = tr_fee (m_pc_lot m) tk r) by (intros r I; unfold tr_fee; rewrite (N2 r I), (N3 r I); reflexivity).
  assert (F3 : zsum (tr_fee (m_pc_lot m) tk3) tr = zsum (tr_fee (m_pc_lot m) tk) tr) by (apply zsum_ext; exact FF).
  assert (F4 : zsum (tr_fifth (m_pc_lot m) tk3) tr = zsum (tr_fifth (m_pc_lot m) tk) tr) by (apply zsum_ext; intros r I; unfold tr_fifth; rewrite (FF r I); reflexivity).
  rewrite F1, F2, F3, F4 in BAL3. destruct IDO as (i1 & i2 & i3). rewrite i1, i2, i3 in *.
  destruct (seen_same e _ _ _ _ _ _ _ _ S2' S2) as (EM2 & EB2 & EV2). destruct (seen_same e _ _ _ _ _ _ _ _ S3' S3) as (EM3 & EB3 & EVX).
  assert (PY : payer = match oi_side ix with Bid => pw | Ask => cw end) by (destruct (oi_side ix); congruence).
  assert (MVM : exists ps ps3, moves s s2 ps /\ moves s s3 ps3 /\ (forall v, zsum (got v) ps = zsum (got v) ps3) /\ m2' = m3').
  { destruct (oi_side ix).
    - destruct BAL3 as (_ & _ & MV3 & MM3). eexists _, _. split; [exact MV|]. split; [exact MV3|]. split.
      + intros v. rewrite zsum_app. subst payer. cbn [zsum got]. destruct (key_at ms2 9); cbn [zsum got]; repeat match goal with |- context [v =? ?z] => destruct (v =? z) end; lia.
      + rewrite MM, MM3. destruct (key_at ms2 9); f_equal; lia.
    - destruct BAL3 as (_ & MV3 & MM3). eexists _, _. split; [exact MV|]. split; [exact MV3|]. split.
      + intros v. rewrite zsum_app. subst payer. cbn [zsum got]. destruct (key_at ms2 9); cbn [zsum got]; repeat match goal with |- context [v =? ?z] => destruct (v =? z) end; lia.
      + rewrite MM, MM3. destruct (key_at ms2 9); f_equal; lia. }
  destruct MVM as (ps & ps3 & M2 & M3 & MS & MEQ).
  split.
  { intros v. specialize (M2 v). specialize (M3 v). specialize (MS v). destruct (token_at s v) as [a|].
    - destruct M2 as (b & -> & b1 & b2 & _ & b3), M3 as (d & -> & d1 & d2 & _ & d3). repeat split; congruence || lia.
    - rewrite M2, M3. exact I. }
  split; [congruence|]. split.
  { intros sd. rewrite EB2, EB3. assert (EQO : book_of A2x (other (oi_side ix)) = book_of A3x (other (oi_side ix))) by (eapply rounds_book; eassumption).
    assert (EQS : book_of A2x (oi_side ix) = book_of A3x (oi_side ix)) by congruence. destruct sd, (oi_side ix); cbn [other] in *; assumption. }
  split.
  { intros y N. rewrite EV2, EVX, EV, EV3, EE, !told_app. f_equal. rewrite (told_nil y Ee x N OE), app_nil_r. symmetry.
    eapply (told_rounds _ _ tk3 tk); [symmetry; exact A1|exact N|reflexivity|exact N3|exact N2|exact RE3|exact RE]. }
  intros y oy N. rewrite (sn_oos _ _ _ _ _ _ S2), <- (sn_oos _ _ _ _ _ _ S2'), XL. rewrite (sn_oos _ _ _ _ _ _ S3), <- (sn_oos _ _ _ _ _ _ S3'). split; [intros [[? _]|[_ I]]; [contradiction|exact I]|auto].
Qed.
End Swap.
