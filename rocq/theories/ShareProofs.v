(** Price and time priority as a formula (C76). *)
From Verif Require Import Base BaseProofs Fees FeesSpec FeesProofs ListSum Codec Critbit CritbitProofs CritbitSlab CritbitOps Market Matching MatchSteps MatchRefine Ledger LedgerRun MatchSpec MatchReport MatchFacts
  Slots Core CoreInv CoreNew Instr InstrProofs Store Process StoreProofs World WorldInv WorldSpec WorldFacts WorldMain WorldTrade WorldPay WorldSupply LifeProofs LifeSteps LifeMain BestSpec BestProofs MoreSpec MoreProofs PlaceSpec ExitSpec ShareSpec.

(** ** The lists of orders *)
(** Meetings, each with the best order of the book as it then is. *)
Inductive steps (sd : side) : list leaf -> list round -> list leaf -> Prop :=
| steps_nil bk : steps sd bk [] bk
| steps_cons bk b t tr bk' : best_of (other sd) b bk -> 0 < t <= l_qty b -> steps sd (take_from (l_key b) t bk) tr bk' -> steps sd bk ((b, t) :: tr) bk'.
Lemma steps_app sd bk tr bk1 tr2 bk2 : steps sd bk tr bk1 -> steps sd bk1 tr2 bk2 -> steps sd bk (tr ++ tr2) bk2.
Proof. induction 1; intros H2; [exact H2|]. cbn [app]. constructor; auto. Qed.
Lemma rounds_steps k q bk tr q' bk' : rounds k q bk tr q' bk' -> steps (tk_side k) bk tr bk'.
Proof. induction 1; [constructor|]. constructor; assumption. Qed.
Definition lots_of (x : Z) (r : round) : Z := if x =? l_owner (fst r) then 0 else snd r.
Lemma steps_in sd bk tr bk' : steps sd bk tr bk' -> forall b t, In (b, t) tr -> 0 < t /\ exists l, In l bk /\ l_key l = l_key b /\ l_owner l = l_owner b.
Proof.
  induction 1 as [bk|bk b t tr bk' B T R IH]; intros b0 t0 I; [destruct I|]. destruct I as [[= <- <-]|I]; [split; [lia|]; exists b; repeat split; apply B|].
  destruct (IH b0 t0 I) as (T0 & l & IL & E1 & E2). split; [exact T0|]. apply take_from_come in IL. destruct IL as (l0 & n & I0 & ->). exists l0. auto.
Qed.
Lemma zsum_take f b t bk : sorted bk -> In b bk -> zsum f (take_from (l_key b) t bk) = zsum f bk - f b + (if l_qty b =? t then 0 else f (set_qty b (l_qty b - t))).
Proof.
  intros SO I. rewrite <- (shrink_0 b t bk SO I). unfold shrink. destruct (Z.eqb_spec (l_qty b - t) 0), (Z.eqb_spec (l_qty b) t); try lia.
  - rewrite zsum_ldel by assumption. lia.
  - apply (zsum_lset f b (set_qty b (l_qty b - t)) bk); [assumption|assumption|reflexivity].
Qed.
Definition earlier (sd : side) (a l : leaf) : bool := match sd with Bid => l_key a <? l_key l | Ask => l_key l <? l_key a end.
Definition lots_ahead (sd : side) (x : Z) (bk : list leaf) (l : leaf) : Z := zsum l_qty (ahead_of sd (others x bk) l).
Lemma lots_ahead_sum sd x bk l : lots_ahead sd x bk l = zsum (fun a => if negb (l_owner a =? x) then if earlier sd a l then l_qty a else 0 else 0) bk.
Proof. unfold lots_ahead, ahead_of, others. rewrite !zsum_filter. reflexivity. Qed.
Lemma lots_ahead_key sd x bk l l' : l_key l = l_key l' -> lots_ahead sd x bk l = lots_ahead sd x bk l'.
Proof. intros E. rewrite !lots_ahead_sum. apply zsum_ext. intros a _. unfold earlier. rewrite E. reflexivity. Qed.
Lemma ahead_best sd x bk b : best_of (other sd) b bk -> lots_ahead sd x bk b = 0.
Proof.
  intros [_ H]. rewrite lots_ahead_sum. apply zsum_zero. intros a I. destruct (negb _); [|reflexivity].
  assert (earlier sd a b = false) as -> by (destruct (H a I) as [->|Y]; destruct sd; cbn in *; lia). reflexivity.
Qed.
Lemma ahead_left sd x bk b t l : sorted bk -> In b bk -> lots_ahead sd x (take_from (l_key b) t bk) l = lots_ahead sd x bk l - (if l_owner b =? x then 0 else if earlier sd b l then t else 0).
Proof.
  intros SO I. rewrite !lots_ahead_sum, zsum_take by assumption. change (l_owner (set_qty b (l_qty b - t))) with (l_owner b). change (earlier sd (set_qty b (l_qty b - t)) l) with (earlier sd b l).
  destruct (l_owner b =? x), (earlier sd b l), (Z.eqb_spec (l_qty b) t); cbn [negb l_qty set_qty]; lia.
Qed.
Lemma gone_none sd bk b tr bk' : sorted bk -> In b bk -> steps sd (take_from (l_key b) (l_qty b) bk) tr bk' -> sold tr (l_key b) = 0.
Proof.
  intros SO I R. apply sold_none. intros b1 t1 I1 E1. destruct (steps_in _ _ _ _ R b1 t1 I1) as (_ & l1 & I2 & E2 & _). apply take_from_In in I2. destruct I2 as [[_ N]|(y & I3 & E3 & N & _)]; [congruence|].
  assert (y = b) by (eapply sorted_uniq; [exact SO|exact I3|exact I|exact E3]). subst y. congruence.
Qed.
Lemma lots_nonneg sd x bk tr bk' : steps sd bk tr bk' -> 0 <= zsum (lots_of x) tr.
Proof. intros H. apply zsum_nonneg. intros [b t] I. destruct (steps_in _ _ _ _ H b t I) as [T _]. unfold lots_of. cbn [fst snd]. destruct (x =? l_owner b); lia. Qed.

(** Each order of others gives its part. *)
Lemma steps_share sd x bk tr bk' : steps sd bk tr bk' -> sorted bk -> (forall l, In l bk -> 0 < l_qty l) ->
  forall l, In l bk -> l_owner l <> x -> sold tr (l_key l) = Z.max 0 (Z.min (l_qty l) (zsum (lots_of x) tr - lots_ahead sd x bk l)).
Proof.
  induction 1 as [bk|bk b t tr bk' B T R IH]; intros SO PQ l I OW.
  - cbn [sold zsum]. assert (0 <= lots_ahead sd x bk l). { rewrite lots_ahead_sum. apply zsum_nonneg. intros a IA. specialize (PQ a IA). destruct (negb _), (earlier sd a l); lia. } specialize (PQ l I). lia.
  - pose proof (take_from_sorted b t bk SO (proj1 B)) as SO1. pose proof (left_qty b t bk SO (proj1 B) T PQ) as PQ1. pose proof (lots_nonneg _ x _ _ _ R) as N0.
    cbn [sold zsum fst snd]. fold (sold tr (l_key l)). unfold lots_of at 1. cbn [fst snd].
    destruct (Z.eqb_spec (l_key b) (l_key l)) as [E|E].
    + assert (l = b) by (eapply sorted_uniq; [exact SO|exact I|apply B|symmetry; exact E]). subst l. rewrite (ahead_best sd x bk b B). replace (x =? l_owner b) with false by lia.
      destruct (Z.eq_dec (l_qty b) t) as [X|X].
      * rewrite <- X in R. rewrite (gone_none _ _ _ _ _ SO (proj1 B) R). lia.
      * assert (I1 : In (set_qty b (l_qty b - t)) (take_from (l_key b) t bk)) by (apply take_from_In; right; exists b; repeat split; [apply B|exact X]).
        specialize (IH SO1 PQ1 _ I1 OW). cbn [set_qty l_qty l_key] in IH. rewrite (lots_ahead_key _ _ _ (set_qty b (l_qty b - t)) b eq_refl), (ahead_left sd x bk b t b SO (proj1 B)), (ahead_best sd x bk b B) in IH.
        assert (earlier sd b b = false) as EB by (destruct sd; cbn; lia). rewrite EB in IH. destruct (l_owner b =? x); lia.
    + assert (I1 : In l (take_from (l_key b) t bk)) by (apply take_from_In; left; split; [exact I|congruence]).
      rewrite (IH SO1 PQ1 _ I1 OW), (ahead_left sd x bk b t l SO (proj1 B)).
      assert (EB : earlier sd b l = true). { destruct (proj2 B l I) as [->|Y]; [congruence|]. destruct sd; cbn in *; lia. } rewrite EB.
      rewrite (Z.eqb_sym x (l_owner b)). destruct (l_owner b =? x); lia.
Qed.
Lemma share_sold sd x bk tr bk' : steps sd bk tr bk' -> sorted bk -> (forall l, In l bk -> 0 < l_qty l) ->
  forall l, In l bk -> share sd x bk (zsum (lots_of x) tr) l = if l_owner l =? x then 0 else sold tr (l_key l).
Proof. intros R SO PQ l I. unfold share. destruct (Z.eqb_spec (l_owner l) x) as [E|E]; [reflexivity|]. symmetry. apply (steps_share sd x bk tr bk' R SO PQ l I E). Qed.

(** Meetings weighed by the id of the resting order, from the parts of the orders. *)
Lemma weigh_share sd x bk tr bk' (f : Z -> Z) : steps sd bk tr bk' -> sorted bk -> (forall l, In l bk -> 0 < l_qty l) ->
  zsum (fun r => f (l_key (fst r)) * lots_of x r) tr = zsum (fun l => f (l_key l) * share sd x bk (zsum (lots_of x) tr) l) bk.
Proof.
  intros R SO PQ. set (g := fun l => if l_owner l =? x then 0 else f (l_key l)).
  rewrite (zsum_ext (fun r => f (l_key (fst r)) * lots_of x r) (fun r => snd r * g (fst r)) tr).
  2: { intros [b t] _. unfold lots_of, g. cbn [fst snd]. rewrite (Z.eqb_sym x). destruct (l_owner b =? x); lia. }
  etransitivity; [apply (by_order 0 bk tr g SO)|].
  - intros a b E1 E2. unfold g. rewrite E1, E2. reflexivity.
  - intros b t I. destruct (steps_in _ _ _ _ R b t I) as (_ & X). exact X.
  - apply zsum_ext. intros l I. rewrite (share_sold sd x bk tr bk' R SO PQ l I). unfold g. destruct (l_owner l =? x); lia.
Qed.

(** ** How many lots *)
Section Full.
Variables (pl : Z) (k : taker).
Hypothesis Hpl : 0 < pl.
Definition near (l : leaf) : bool := reaches (tk_side k) (tk_limit k) l.
Definition dear (l : leaf) : Z := l_qty l * l_price l * pl + taker_fee (tk_tier k) (l_qty l * l_price l * pl).
Lemma near_within l : near l = true <-> within (tk_side k) (tk_limit k) (l_price l).
Proof. unfold near, reaches, within. destruct (tk_side k); lia. Qed.
Definition near_sum (f : leaf -> Z) (bk : list leaf) : Z := zsum f (filter near bk).
Lemma near_left f b bk : sorted bk -> In b bk -> near b = true -> near_sum f (take_from (l_key b) (l_qty b) bk) = near_sum f bk - f b.
Proof. intros SO I N. unfold near_sum. rewrite !zsum_filter, (zsum_take _ b (l_qty b) bk SO I), N, Z.eqb_refl. cbv beta. lia. Qed.
Lemma near_none bk b : near_sum (fun _ => 1) bk <= 0 -> In b bk -> near b = true -> False.
Proof. unfold near_sum. rewrite zsum_filter. cbv beta. intros H I N. pose proof (zsum_In_le (fun x => if near x then 1 else 0) bk b ltac:(intros y _; cbv beta; destruct (near y); lia) I) as X. cbv beta in X. rewrite N in X. lia. Qed.
Lemma best_price b bk x : best_of (other (tk_side k)) b bk -> In x bk -> near x = true -> near b = true.
Proof.
  intros B I N. destruct (proj2 B x I) as [->|Y]; [exact N|]. rewrite near_within in *. unfold l_price in *.
  destruct (tk_side k); cbn [other before within] in *; [pose proof (Z.div_le_mono (l_key b) (l_key x) B64 ltac:(lia) ltac:(lia))|pose proof (Z.div_le_mono (l_key x) (l_key b) B64 ltac:(lia) ltac:(lia))]; lia.
Qed.
Theorem eager_full limit q L bk tr : eager pl k limit q L bk tr -> sorted bk -> (forall l, In l bk -> 0 < l_price l /\ 0 < l_qty l) -> L < B64 -> 0 <= q ->
  (forall l, In l bk -> near l = true -> l_owner l <> tk_owner k) -> near_sum (fun _ => 1) bk <= Z.of_nat limit -> (tk_side k = Bid -> near_sum dear bk <= L) ->
  zsum (lots_of (tk_owner k)) tr = Z.min q (near_sum l_qty bk).
Proof.
  induction 1 as [limit q L bk ST|limit q L bk b t tr Q B WB A1 T H IH]; intros SO PB BL Q0 OW LM MN.
  - cbn [zsum]. assert (N0 : 0 <= near_sum l_qty bk) by (apply zsum_nonneg; intros l I; apply filter_In in I; destruct (PB l (proj1 I)); lia).
    destruct ST as [->|[->|ST]]; [|lia|].
    + assert (near_sum l_qty bk = 0); [|lia]. apply zsum_zero. intros l I. apply filter_In in I. exfalso. exact (near_none bk l ltac:(lia) (proj1 I) (proj2 I)).
    + assert (near_sum l_qty bk = 0); [|lia]. apply zsum_zero. intros l I. exfalso. apply filter_In in I. destruct I as [I N]. destruct (best_exists (other (tk_side k)) bk l SO I) as (b0 & B0).
      pose proof (best_price b0 bk l B0 I N) as N1. apply (ST b0 B0); [apply near_within; exact N1|]. intros E. specialize (MN E). destruct (PB b0 (proj1 B0)) as [P1 P2].
      refine (affords_less_price pl k Hpl L (l_qty b0) 1 (l_price b0) (l_price b0) _ _ BL _ E); [lia|lia|]. intros _. fold (dear b0).
      assert (ND : forall y, In y (filter near bk) -> 0 <= dear y). { intros y IY. apply filter_In in IY. destruct (PB y (proj1 IY)). unfold dear. pose proof (fee_nonneg (tk_tier k) (l_qty y * l_price y * pl)). assert (0 <= l_qty y * l_price y * pl) by (repeat apply Z.mul_nonneg_nonneg; lia). lia. }
      pose proof (zsum_In_le dear (filter near bk) b0 ND ltac:(apply filter_In; split; [apply B0|exact N1])). unfold near_sum in MN. lia.
  - assert (NB : near b = true) by (apply near_within; exact WB). pose proof (OW b (proj1 B) NB) as OB. destruct (PB b (proj1 B)) as [P1 P2].
    assert (SF : self k (b, t) = false) by (unfold self; cbn [fst]; lia). rewrite SF in T. cbn [andb] in T. destruct T as (T1 & T2 & T3 & T4).
    assert (ND : forall y, In y (filter near bk) -> 0 <= dear y). { intros y IY. apply filter_In in IY. destruct (PB y (proj1 IY)). unfold dear. pose proof (fee_nonneg (tk_tier k) (l_qty y * l_price y * pl)). assert (0 <= l_qty y * l_price y * pl) by (repeat apply Z.mul_nonneg_nonneg; lia). lia. }
    assert (FULL : affords pl k L (l_qty b) (l_price b)). { intros E. specialize (MN E). fold (dear b). pose proof (zsum_In_le dear (filter near bk) b ND ltac:(apply filter_In; split; [apply B|exact NB])). unfold near_sum in MN. lia. }
    assert (T5 : t = l_qty b \/ t = q). { destruct T4 as [T4|[T4|T4]]; auto. destruct (Z.eq_dec t (l_qty b)); auto. exfalso. apply T4. eapply (affords_less_price pl k Hpl L (l_qty b) (t + 1)); [| |exact BL|exact FULL]; lia. }
    assert (US : used k (b, t) = t) by (unfold used; rewrite SF; reflexivity). assert (CO : tr_cost pl k (b, t) = t * l_price b * pl + taker_fee (tk_tier k) (t * l_price b * pl)) by (unfold tr_cost, value; rewrite SF; reflexivity).
    cbn [zsum]. unfold lots_of at 1. cbn [fst snd]. replace (tk_owner k =? l_owner b) with false by lia.
    assert (GE : l_qty b <= near_sum l_qty bk) by (apply (zsum_In_le l_qty (filter near bk) b); [intros y IY; apply filter_In in IY; destruct (PB y (proj1 IY)); lia|apply filter_In; split; [apply B|exact NB]]).
    destruct (Z.eq_dec t (l_qty b)) as [E|E].
    + subst t. rewrite IH.
      * rewrite near_left by (try assumption; apply B). rewrite US. lia.
      * apply take_from_sorted; [exact SO|apply B].
      * intros l I. split; [eapply left_price; [|exact I]; intros; apply PB; assumption|]. eapply left_qty; [exact SO|apply B|exact T1| |exact I]. intros; apply PB; assumption.
      * pose proof (cost_nonneg pl k Hpl b (l_qty b)). lia.
      * lia.
      * intros l I N. apply take_from_In in I. destruct I as [[I _]|(y & I & E1 & E2 & ->)]; [exact (OW l I N)|]. exact (OW y I N).
      * rewrite near_left by (try assumption; apply B). lia.
      * intros E. specialize (MN E). rewrite near_left by (try assumption; apply B). rewrite CO. fold (dear b). lia.
    + destruct T5 as [T5|T5]; [contradiction|]. subst t. rewrite US in H. assert (tr = []) as ->.
      { inversion H; [reflexivity|]. lia. }
      cbn [zsum]. lia.
Qed.
End Full.

(** ** Instructions *)
Lemma quiet_weighed f E : nofill E -> zsum (weighed f) E = 0.
Proof. intros N. apply zsum_zero. intros v I. specialize (N v I). destruct v; [discriminate|reflexivity]. Qed.
(** What the events say of a list of meetings, by the ids of the resting orders. *)
Record traded (cl pl x : Z) (tr : list round) (E : list event_view) : Prop := mkTraded {
  td_f : forall f, zsum (weighed f) E = cl * zsum (fun r => f (l_key (fst r)) * lots_of x r) tr;
  td_pc : zsum pc_traded E = pl * zsum (fun r => l_key (fst r) / B64 * lots_of x r) tr }.
Lemma events_traded cl pl k tr gs Ee : Forall2 (reported cl pl k) tr gs -> nofill Ee -> traded cl pl (tk_owner k) tr (concat gs ++ Ee).
Proof.
  intros F N. split.
  - intros f. rewrite zsum_app, (quiet_weighed f Ee N), (rounds_weighed _ _ _ f _ _ F). clear. induction tr as [|r tr IH]; cbn [zsum]; [lia|]. change (tr_coin k r) with (lots_of (tk_owner k) r). lia.
  - rewrite zsum_app, (proj2 (quiet_traded Ee N)), (proj2 (rounds_traded _ _ _ _ _ F)). clear. induction tr as [|r tr IH]; cbn [zsum]; [lia|]. rewrite Z.add_0_r in *. rewrite IH. unfold tr_value, self, value, lots_of, l_price. destruct (_ =? _); ring.
Qed.
Section Trading.
Variable e : env. Hypothesis EO : env_ok e.
Variables (s : store) (k : Z) (m : market) (A : astate) (L : list (Z * open_orders)).
Hypotheses (HI : history e s) (G : no_overflow e s) (SN : seen e s k m A L) (P : usable m).
Lemma meeting c i ms s' T : process e c s i ms = Ok s' -> key_at ms 0 = Some k -> wf_instr i -> terms_of i ms = Some T ->
  forall m' A' L' E, seen e s' k m' A' L' -> a_evs A' = a_evs A ++ E ->
  exists w tk tr, signs ms 7 w /\ tier_for s k w (key_at ms 12) (tk_tier tk) /\
    tk_side tk = tm_side T /\ tk_owner tk = tm_account T /\ tk_limit tk = tm_price T /\ tm_money T < B64 /\ 0 <= tm_lots T /\ 0 <= tm_meetings T /\
    steps (tm_side T) (book_of A (other (tm_side T))) tr (book_of A' (other (tm_side T))) /\ traded (m_coin_lot m) (m_pc_lot m) (tm_account T) tr E /\
    eager (m_pc_lot m) tk (Z.to_nat (tm_meetings T)) (tm_lots T) (match tm_side T with Bid => tm_money T | Ask => 0 end) (book_of A (other (tm_side T))) tr.
Proof.
  intros H K WF TT m1 A1 L1 E1 S1 V1. destruct i; try discriminate; cbn [terms_of] in TT.
  - assert (NP : oi_ot ix <> PostOnly) by (destruct (oi_ot ix); discriminate). pose proof (wf_order _ WF) as IX.
    destruct (order_effect e EO s k m A L (reachable_inv e EO s HI) SN P (guard_room e s 1 G ltac:(lia)) c ix ms s' H K IX) as (x & w & t & payer & oo & KX & SG & _ & _ & TF & _ & m' & A' & L' & oo' & tr & q' & n & E & slot & id & dep & O).
    cbv zeta in O. destruct O as (LIM & _ & S' & _ & EV & RP & _). destruct (the_slab e s k m A L SN (oi_side ix)) as (sl & HS). destruct (RP sl HS) as [r1 _ _ (gs & Ee & -> & r5 & r6) r7]. set (tk := mkTaker (oi_side ix) id x slot t (oi_cid ix) (oi_st ix) false) in *.
    specialize (r7 ltac:(destruct (oi_ot ix); [reflexivity|reflexivity|congruence])). destruct (seen_same e _ _ _ _ _ _ _ _ S1 S') as (_ & BK & EQ).
    assert (Y1 : E1 = concat gs ++ Ee) by (apply (app_inv_head (a_evs A)); congruence).
    rewrite KX in TT. assert (TE : T = mkTerms (oi_side ix) (oi_price ix) (oi_qty ix) (oi_pc ix) (oi_limit ix) x (oi_st ix)) by (destruct (oi_ot ix); congruence). rewrite TE.
    exists w, tk, tr. cbn [tk_tier tk_side tk_owner tk_st tm_side tm_price tm_lots tm_money tm_meetings tm_account tm_own]. split; [exact SG|]. split; [exact TF|]. split; [reflexivity|]. split; [reflexivity|]. split; [exact LIM|].
    split; [destruct IX; lia|]. split; [destruct IX; lia|]. split; [destruct IX; lia|]. rewrite <- BK. split; [exact (rounds_steps _ _ _ _ _ _ r1)|]. split; [|exact r7]. rewrite Y1. apply (events_traded _ _ tk tr gs Ee r5). exact (LifeProofs.finish_nofill m tk _ _ _ _ _ _ _ _ r6).
  - injection TT as <-. pose proof (wf_take_ok _ WF) as IX.
    destruct (take_effect e EO s k m A L (reachable_inv e EO s HI) SN P (guard_room e s 1 G ltac:(lia)) c ix ms s' H K IX) as (w & t & cw & pw & SG & _ & _ & TF & m' & A' & tr & q' & gs & id & O).
    cbv zeta in O. destruct O as ((LIM & _) & S' & r1 & (_ & r7) & _ & EV & r5 & _). set (tk := mkTaker (ti_side ix) id 0 0 t 0 AbortTransaction true) in *.
    destruct (seen_same e _ _ _ _ _ _ _ _ S1 S') as (_ & BK & EQ). assert (Y1 : E1 = concat gs ++ []) by (rewrite app_nil_r; apply (app_inv_head (a_evs A)); congruence).
    exists w, tk, tr. cbn [tk_tier tk_side tk_owner tk_st tm_side tm_price tm_lots tm_money tm_meetings tm_account tm_own]. split; [exact SG|]. split; [exact TF|]. split; [reflexivity|]. split; [reflexivity|]. split; [exact LIM|].
    split; [destruct IX; lia|]. split; [destruct IX; lia|]. split; [destruct IX; lia|]. rewrite <- BK. split; [exact (rounds_steps _ _ _ _ _ _ r1)|]. split; [|exact r7]. rewrite Y1. apply (events_traded _ _ tk tr gs [] r5). intros v [].
Qed.

Theorem share_of_each c i ms s' T : process e c s i ms = Ok s' -> key_at ms 0 = Some k -> wf_instr i -> terms_of i ms = Some T ->
  forall m' A' L' E, seen e s' k m' A' L' -> a_evs A' = a_evs A ++ E ->
  let bk := book_of A (other (tm_side T)) in
  exists lots, 0 <= lots /\ zsum coin_traded E = m_coin_lot m * lots /\ lots = zsum (share (tm_side T) (tm_account T) bk lots) bk /\
    (forall l, In l bk -> zsum (with_order (l_key l)) E = m_coin_lot m * share (tm_side T) (tm_account T) bk lots l) /\
    (forall key, (forall l, In l bk -> l_key l <> key) -> zsum (with_order key) E = 0) /\
    zsum pc_traded E = m_pc_lot m * zsum (fun l => l_price l * share (tm_side T) (tm_account T) bk lots l) bk.
Proof.
  intros H K WF TT m' A' L' E S' V. cbv zeta. destruct (meeting c i ms s' T H K WF TT m' A' L' E S' V) as (w & tk & tr & _ & _ & _ & _ & _ & _ & _ & _ & ST & [TD TP] & _).
  destruct (book_facts e EO s k m A L HI SN P (other (tm_side T))) as [SO PB]. set (bk := book_of A (other (tm_side T))) in *. assert (PQ : forall l, In l bk -> 0 < l_qty l) by (intros; apply PB; assumption).
  set (x := tm_account T) in *. set (sd := tm_side T) in *. exists (zsum (lots_of x) tr). split; [exact (lots_nonneg _ _ _ _ _ ST)|].
  assert (W : forall f, zsum (weighed f) E = m_coin_lot m * zsum (fun l => f (l_key l) * share sd x bk (zsum (lots_of x) tr) l) bk) by (intros f; rewrite TD, (weigh_share sd x bk tr _ f ST SO PQ); reflexivity).
  split; [|split; [|split; [|split]]].
  - rewrite (zsum_ext coin_traded (weighed (fun _ => 1)) E) by (intros v _; apply weighed_all). rewrite TD. f_equal. apply zsum_ext. intros r _. lia.
  - pose proof (weigh_share sd x bk tr _ (fun _ => 1) ST SO PQ) as X. rewrite (zsum_ext (fun r => 1 * lots_of x r) (lots_of x)) in X by (intros; lia). rewrite X at 1. apply zsum_ext. intros; lia.
  - intros l I. rewrite (zsum_ext (with_order (l_key l)) (weighed (fun id => if id =? l_key l then 1 else 0)) E) by (intros v _; apply weighed_one). rewrite W. f_equal.
    rewrite (zsum_ext _ (fun y => (if l_key l =? l_key y then 1 else 0) * share sd x bk (zsum (lots_of x) tr) y) bk) by (intros y _; rewrite (Z.eqb_sym (l_key l)); reflexivity).
    rewrite (sum_at bk (l_key l) 1 _ l SO I eq_refl). lia.
  - intros key N. rewrite (zsum_ext (with_order key) (weighed (fun id => if id =? key then 1 else 0)) E) by (intros v _; apply weighed_one). rewrite W, zsum_zero; [lia|]. intros l I. specialize (N l I). replace (l_key l =? key) with false by lia. lia.
  - rewrite TP. f_equal. exact (weigh_share sd x bk tr _ (fun id => id / B64) ST SO PQ).
Qed.
(** How many lots it is, when nothing else holds the order back. *)
Theorem in_full c i ms s' T : process e c s i ms = Ok s' -> key_at ms 0 = Some k -> wf_instr i -> terms_of i ms = Some T ->
  forall w t, signs ms 7 w -> tier_for s k w (key_at ms 12) t -> unhindered (m_pc_lot m) t T (book_of A (other (tm_side T))) ->
  forall m' A' L' E, seen e s' k m' A' L' -> a_evs A' = a_evs A ++ E ->
  zsum coin_traded E = m_coin_lot m * Z.min (tm_lots T) (zsum l_qty (in_reach T (book_of A (other (tm_side T))))).
Proof.
  intros H K WF TT w t SG TF (U1 & U2 & U3) m' A' L' E S' V. destruct (meeting c i ms s' T H K WF TT m' A' L' E S' V) as (w' & tk & tr & SG' & TF' & t1 & t2 & t3 & BM & QM & LM & ST & [TD _] & EA).
  destruct (book_facts e EO s k m A L HI SN P (other (tm_side T))) as [SO PB]. set (bk := book_of A (other (tm_side T))) in *.
  assert (TE : tk_tier tk = t). { unfold signs in *. assert (w' = w) by congruence. subst w'. unfold tier_for in *. destruct (key_at ms 12); [|congruence]. destruct TF as (a & a1 & a2 & a3), TF' as (b & b1 & b2 & b3). rewrite a1 in b1. injection b1 as <-. congruence. }
  rewrite (zsum_ext coin_traded (weighed (fun _ => 1)) E) by (intros v _; apply weighed_all). rewrite TD. f_equal. rewrite (zsum_ext _ (lots_of (tm_account T)) tr) by (intros; lia). rewrite <- t2.
  assert (RE : filter (near tk) bk = in_reach T bk) by (unfold near, in_reach; rewrite t1, t3; reflexivity).
  rewrite (eager_full (m_pc_lot m) tk (proj1 (proj2 P)) _ _ _ _ _ EA SO PB).
  - unfold near_sum. rewrite RE. reflexivity.
  - destruct (tm_side T); lia.
  - exact QM.
  - intros l I N. rewrite t2. apply U1. rewrite <- RE. apply filter_In. auto.
  - unfold near_sum. rewrite RE, Z2Nat.id by exact LM. assert (X : forall l : list leaf, zsum (fun _ => 1) l = zlen l) by (induction l; [reflexivity|]; cbn [zsum]; rewrite IHl; unfold zlen; cbn [length]; lia). rewrite X. exact U2.
  - rewrite t1. intros X. rewrite X. unfold near_sum. rewrite RE. rewrite (zsum_ext (dear (m_pc_lot m) tk) (fun l => l_qty l * l_price l * m_pc_lot m + taker_fee t (l_qty l * l_price l * m_pc_lot m))); [exact (U3 X)|]. intros l _. unfold dear. rewrite TE. reflexivity.
Qed.
End Trading.

(** Splitting an order. *)
Section Split.
Variable e : env. Hypothesis EO : env_ok e.
Theorem in_parts s k m A L : history e s -> no_overflow e s -> seen e s k m A L -> usable m ->
  forall c1 i1 ms1 s1 T1, process e c1 s i1 ms1 = Ok s1 -> key_at ms1 0 = Some k -> wf_instr i1 -> terms_of i1 ms1 = Some T1 ->
  forall m1 A1 L1 E1, seen e s1 k m1 A1 L1 -> a_evs A1 = a_evs A ++ E1 ->
  forall sb k2 m2 A2 L2, history e sb -> no_overflow e sb -> seen e sb k2 m2 A2 L2 -> usable m2 -> same_side m A1 m2 A2 (other (tm_side T1)) ->
  forall c2 i2 ms2 s2 T2, process e c2 sb i2 ms2 = Ok s2 -> key_at ms2 0 = Some k2 -> wf_instr i2 -> terms_of i2 ms2 = Some T2 ->
  forall m2' A2' L2' E2, seen e s2 k2 m2' A2' L2' -> a_evs A2' = a_evs A2 ++ E2 ->
  forall c3 i3 ms3 s3 T3, process e c3 s i3 ms3 = Ok s3 -> key_at ms3 0 = Some k -> wf_instr i3 -> terms_of i3 ms3 = Some T3 ->
  forall m3 A3 L3 E3, seen e s3 k m3 A3 L3 -> a_evs A3 = a_evs A ++ E3 ->
  tm_side T2 = tm_side T1 -> tm_side T3 = tm_side T1 -> tm_account T2 = tm_account T1 -> tm_account T3 = tm_account T1 ->
  zsum coin_traded E1 + zsum coin_traded E2 = zsum coin_traded E3 ->
  zsum pc_traded E1 + zsum pc_traded E2 = zsum pc_traded E3 /\ forall key, zsum (with_order key) E1 + zsum (with_order key) E2 = zsum (with_order key) E3.
Proof.
  intros HI G SN P c1 i1 ms1 s1 T1 H1 K1 WF1 TT1 m1 A1 L1 E1 S1 V1 sb k2 m2 A2 L2 HIb Gb SNb Pb (C1 & C2 & C3) c2 i2 ms2 s2 T2 H2 K2 WF2 TT2 m2' A2' L2' E2 S2 V2 c3 i3 ms3 s3 T3 H3 K3 WF3 TT3 m3 A3 L3 E3 S3 V3 D2 D3 O2 O3 EQ.
  destruct (meeting e EO s k m A L HI G SN P c1 i1 ms1 s1 T1 H1 K1 WF1 TT1 _ _ _ _ S1 V1) as (w1 & tk1 & tr1 & _ & _ & _ & _ & _ & _ & _ & _ & ST1 & [F1 Q1] & _).
  destruct (meeting e EO sb k2 m2 A2 L2 HIb Gb SNb Pb c2 i2 ms2 s2 T2 H2 K2 WF2 TT2 _ _ _ _ S2 V2) as (w2 & tk2 & tr2 & _ & _ & _ & _ & _ & _ & _ & _ & ST2 & [F2 Q2] & _).
  destruct (meeting e EO s k m A L HI G SN P c3 i3 ms3 s3 T3 H3 K3 WF3 TT3 _ _ _ _ S3 V3) as (w3 & tk3 & tr3 & _ & _ & _ & _ & _ & _ & _ & _ & ST3 & [F3 Q3] & _).
  rewrite D2, O2, C1, C2 in *. rewrite D3, O3 in *. rewrite C3 in ST2. destruct (book_facts e EO s k m A L HI SN P (other (tm_side T1))) as [SO PB]. set (bk := book_of A (other (tm_side T1))) in *. set (x := tm_account T1) in *. set (sd := tm_side T1) in *.
  assert (PQ : forall l, In l bk -> 0 < l_qty l) by (intros; apply PB; assumption). pose proof (steps_app _ _ _ _ _ _ ST1 ST2) as ST.
  assert (PO : 0 < m_coin_lot m) by apply P.
  assert (TOT : zsum (lots_of x) (tr1 ++ tr2) = zsum (lots_of x) tr3).
  { rewrite zsum_app. rewrite !(zsum_ext coin_traded (weighed (fun _ => 1))) in EQ by (intros v _; apply weighed_all). rewrite F1, F2, F3 in EQ. rewrite !(zsum_ext (fun r => 1 * lots_of x r) (lots_of x)) in EQ by (intros; lia). nia. }
  assert (MAIN : forall f : Z -> Z, zsum (fun r => f (l_key (fst r)) * lots_of x r) tr1 + zsum (fun r => f (l_key (fst r)) * lots_of x r) tr2 = zsum (fun r => f (l_key (fst r)) * lots_of x r) tr3).
  { intros f. etransitivity; [symmetry; apply zsum_app|]. etransitivity; [exact (weigh_share sd x bk _ _ f ST SO PQ)|]. rewrite TOT. symmetry. exact (weigh_share sd x bk _ _ f ST3 SO PQ). }
  split.
  - rewrite Q1, Q2, Q3. pose proof (MAIN (fun id => id / B64)) as X. cbv beta in X. rewrite <- X. ring.
  - intros key. rewrite !(zsum_ext (with_order key) (weighed (fun id => if id =? key then 1 else 0))) by (intros v _; apply weighed_one). rewrite F1, F2, F3. pose proof (MAIN (fun id => if id =? key then 1 else 0)) as X. cbv beta in *. rewrite <- X. ring.
Qed.
End Split.
