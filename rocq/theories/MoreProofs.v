(** Asking for more never gets less (C73). *)
From Coq Require Import Sorted.
From Verif Require Import Base BaseProofs Fees FeesSpec FeesProofs ListSum Codec Critbit CritbitProofs CritbitSlab CritbitOps Market Matching MatchSteps MatchRefine Ledger LedgerRun MatchSpec MatchReport MatchFacts
  Slots Core CoreInv CoreNew Instr InstrProofs Store Process StoreProofs World WorldInv WorldSpec WorldFacts WorldMain WorldTrade WorldPay WorldSupply LifeProofs LifeSteps LifeMain BestSpec BestProofs TakeBlame WorldExit WorldCrank WorldSizes MoreSpec.

(** ** Taking from the best order *)
Lemma set_qty_same l : set_qty l (l_qty l) = l.
Proof. destruct l; reflexivity. Qed.
Lemma take_twice sd b bk a c : best_of sd b bk -> 0 < a -> 0 < c -> a + c <= l_qty b -> take_from (l_key b) c (take_from (l_key b) a bk) = take_from (l_key b) (a + c) bk.
Proof.
  intros [_ BB] HA HC LE. unfold take_from. assert (U : forall l, In l bk -> l_key l = l_key b -> l = b) by (intros l I E; destruct (BB l I) as [|X]; [assumption|]; destruct sd; cbn in X; lia). clear BB.
  induction bk as [|l r IH]; [reflexivity|]. cbn [flat_map]. rewrite flat_map_app, IH by (intros; apply U; [right|]; assumption). f_equal.
  destruct (Z.eqb_spec (l_key l) (l_key b)) as [E|N].
  - rewrite (U l (or_introl eq_refl) E) in *. replace (l_qty b =? a) with false by lia. cbn [flat_map app set_qty l_key l_qty]. rewrite Z.eqb_refl.
    destruct (Z.eqb_spec (l_qty b - a) c), (Z.eqb_spec (l_qty b) (a + c)); try lia; [reflexivity|]. cbn [app]. unfold set_qty. cbn. f_equal. f_equal. lia.
  - cbn [flat_map]. destruct (Z.eqb_spec (l_key l) (l_key b)); [contradiction|]. reflexivity.
Qed.
Lemma best_left sd b bk a : best_of sd b bk -> 0 < a < l_qty b -> best_of sd (set_qty b (l_qty b - a)) (take_from (l_key b) a bk).
Proof.
  intros [IB BB] HA. split.
  - apply take_from_In. right. exists b. repeat split; [exact IB|lia].
  - intros x I. apply take_from_In in I. destruct I as [[I N]|(y & I & E & Q & ->)].
    + right. destruct (BB x I) as [->|X]; [congruence|exact X].
    + left. destruct (BB y I) as [->|X]; [reflexivity|]. destruct sd; cbn in X; lia.
Qed.

Section Two.
Variables (pl : Z) (k k2 : taker).
Hypothesis (Hpl : 0 < pl) (SIDE : tk_side k2 = tk_side k) (RATE : taker_rate (tk_tier k2) <= taker_rate (tk_tier k)).
Hypothesis (LIM : forall x, within (tk_side k) (tk_limit k) x -> within (tk_side k) (tk_limit k2) x).
Definition agree (bk : list leaf) : Prop := forall l, In l bk -> (tk_owner k2 =? l_owner l) = (tk_owner k =? l_owner l) /\ (tk_owner k = l_owner l -> tk_st k2 = tk_st k).
Definition good (bk : list leaf) : Prop := sorted bk /\ forall l, In l bk -> 0 < l_price l /\ 0 < l_qty l.
Variable w : Z -> Z -> Z.
Hypothesis W0 : forall a b, 0 <= w a b.
Definition sum (tr : list round) : Z := zsum (fun r => w (l_key (fst r)) (l_owner (fst r)) * snd r) tr.
Definition eats (b : leaf) : Prop := tk_owner k = l_owner b /\ tk_st k <> CancelProvide.

Lemma agree_left key n bk : agree bk -> agree (take_from key n bk).
Proof. intros AG l I. apply take_from_come in I. destruct I as (l0 & q & I & ->). exact (AG l0 I). Qed.
Lemma good_left b n bk : good bk -> In b bk -> 0 < n <= l_qty b -> good (take_from (l_key b) n bk).
Proof.
  intros [SO PB] IB N. split; [apply take_from_sorted; assumption|]. intros l I. split; [eapply left_price; [|exact I]; intros; apply PB; assumption|]. eapply left_qty; [exact SO|exact IB|exact N| |exact I]. intros; apply PB; assumption.
Qed.
Lemma sum_nonneg limit q L bk tr : eager pl k2 limit q L bk tr -> good bk -> 0 <= sum tr.
Proof.
  induction 1 as [limit q L bk ST|limit q L bk b t tr Q B WB A1 T H IH]; intros GB; [reflexivity|]. unfold sum in *. cbn [zsum fst snd].
  assert (TB : 0 < t <= l_qty b) by (destruct (proj2 GB b (proj1 B)); destruct (self k2 (b, t) && _); lia). specialize (IH (good_left _ _ _ GB (proj1 B) TB)). pose proof (W0 (l_key b) (l_owner b)). nia.
Qed.
Lemma fee_less x : u64 x -> taker_fee (tk_tier k2) x <= taker_fee (tk_tier k) x.
Proof. intros U. apply taker_fee_rate_mono; assumption. Qed.
Lemma fee_sub t x y : u64 (x + y) -> 0 <= x -> 0 <= y -> taker_fee t (x + y) <= taker_fee t x + taker_fee t y.
Proof.
  intros U X Y. assert (u64 x /\ u64 y) as [UX UY] by (unfold u64 in *; lia). destruct (taker_fee_spec t _ U) as [_ A]. destruct (taker_fee_spec t _ UX) as [C _]. destruct (taker_fee_spec t _ UY) as [D _].
  generalize dependent (taker_fee t (x + y)). generalize dependent (taker_fee t x). generalize dependent (taker_fee t y). generalize (taker_rate t). intros. nia.
Qed.
(** What the first affords with [L], the second affords with as much. *)
Lemma affords_both L L2 n t c : L <= L2 + n * c * pl -> 0 <= n < t -> 0 < c -> L < B64 -> affords pl k L t c -> affords pl k2 L2 (t - n) c.
Proof.
  intros LE N C BL AF E2. rewrite SIDE in E2. specialize (AF E2). pose proof (fee_nonneg (tk_tier k) (t * c * pl)). assert (E : t * c * pl = (t - n) * c * pl + n * c * pl) by ring.
  assert (0 < (t - n) * c * pl) by (apply Z.mul_pos_pos; [apply Z.mul_pos_pos|]; lia). assert (0 <= n * c * pl) by (apply Z.mul_nonneg_nonneg; [apply Z.mul_nonneg_nonneg|]; lia).
  pose proof (fee_less ((t - n) * c * pl) ltac:(unfold u64; lia)). pose proof (taker_fee_mono (tk_tier k) ((t - n) * c * pl) (t * c * pl) ltac:(unfold u64; lia) ltac:(unfold u64; lia) ltac:(lia)). lia.
Qed.
Definition ahead (b : leaf) (n : Z) (bk bk2 : list leaf) : Prop :=
  (n = 0 /\ bk2 = bk) \/ (0 < n <= l_qty b /\ best_of (other (tk_side k)) b bk /\ eats b /\ bk2 = take_from (l_key b) n bk).
Lemma ahead_next b bk t n : best_of (other (tk_side k)) b bk -> eats b -> 0 < t -> 0 <= n -> t + n <= l_qty b -> ahead (set_qty b (l_qty b - t)) n (take_from (l_key b) t bk) (take_from (l_key b) (t + n) bk).
Proof.
  intros B EA T N LE. destruct (Z.eq_dec n 0) as [->|NZ]; [left; split; [reflexivity|f_equal; lia]|]. right. cbn [set_qty l_qty l_key]. split; [lia|]. split; [apply best_left; [exact B|lia]|]. split; [exact EA|]. symmetry. eapply take_twice; [exact B|lia..].
Qed.
Theorem more limit q L bk tr : eager pl k limit q L bk tr -> forall limit2 q2 L2 bk2 tr2 b n, good bk -> agree bk -> L < B64 -> L2 < B64 -> ahead b n bk bk2 -> 0 < l_price b ->
  (limit <= limit2)%nat -> q <= q2 + n -> (tk_side k = Bid -> L <= L2 + n * l_price b * pl) -> eager pl k2 limit2 q2 L2 bk2 tr2 ->
  sum tr <= sum tr2 + n * w (l_key b) (l_owner b).
Proof.
  induction 1 as [limit q L bk ST|limit q L bk b0 t tr Q B WB A1 T H IH]; intros limit2 q2 L2 bk2 tr2 b n GB AG BL BL2 AH PB LL QQ ML H2.
  - assert (G2 : good bk2) by (destruct AH as [[_ ->]|(N & B1 & _ & ->)]; [exact GB|apply good_left; [exact GB|apply B1|exact N]]). pose proof (sum_nonneg _ _ _ _ _ H2 G2). pose proof (W0 (l_key b) (l_owner b)). change (sum []) with 0. destruct AH as [[-> _]|(N & _)]; nia.
  - destruct (proj2 GB b0 (proj1 B)) as [P1 P2]. destruct (AG b0 (proj1 B)) as [AO AS].
    assert (SE : forall u, self k2 (b0, u) = self k (b0, u)) by (intros; unfold self; cbn [fst]; exact AO).
    destruct (self k (b0, t)) eqn:ES.
    2:{ (* somebody else's order *)
      assert (NO : tk_owner k <> l_owner b0) by (unfold self in ES; cbn [fst] in ES; lia).
      destruct AH as [[-> EB]|(N & B1 & (E1 & _) & _)]; [|exfalso; apply NO; assert (b = b0) by (eapply best_unique; eassumption); subst; exact E1]. subst bk2. rewrite Z.mul_0_l, Z.add_0_r in *. assert (ML2 : tk_side k = Bid -> L <= L2) by (intros X; specialize (ML X); lia). clear ML.
      cbn [andb] in T. destruct T as (T1 & T2 & T3 & T4).
      assert (AF : forall u, 0 < u -> affords pl k L u (l_price b0) -> affords pl k2 L2 u (l_price b0)).
      { intros u U AF E2. pose proof E2 as E3. rewrite SIDE in E3. replace u with (u - 0) by lia. eapply affords_both; [|split; [reflexivity|exact U]|exact P1|exact BL|exact AF|exact E2]. specialize (ML2 E3). lia. }
      inversion H2 as [? ? ? ? ST|limit3 ? ? ? b' t2 tr3 Q' B' WB' A1' T' H3]; subst.
      { exfalso. destruct ST as [ST|[ST|ST]]; [lia|lia|]. rewrite SIDE in ST. apply (ST b0 B (LIM _ WB)). apply AF; [lia|exact A1]. }
      rewrite SIDE in B'. assert (b' = b0) by (eapply best_unique; eassumption). subst b'.
      assert (S2 : self k2 (b0, t2) = false) by (rewrite SE; exact ES). rewrite S2 in T'. cbn [andb] in T'. destruct T' as (U1 & U2 & U3 & U4).
      assert (TT : t <= t2). { destruct U4 as [U4|[U4|U4]]; [lia|lia|]. destruct (Z_le_gt_dec t t2); [assumption|]. exfalso. apply U4. eapply (affords_less_price pl k2 Hpl L2 t _ (l_price b0)); [lia|lia|exact BL2|]. apply AF; [lia|exact T3]. }
      unfold sum in *. cbn [zsum fst snd]. destruct (Z.eq_dec t t2) as [E|N].
      - subst t2. assert (LE : zsum (fun r => w (l_key (fst r)) (l_owner (fst r)) * snd r) tr <= zsum (fun r => w (l_key (fst r)) (l_owner (fst r)) * snd r) tr3 + 0 * w (l_key b0) (l_owner b0)); [|lia].
        assert (US : used k (b0, t) = t /\ used k2 (b0, t) = t) by (unfold used; rewrite ES, S2; split; reflexivity). destruct US as [US1 US2]. rewrite US1 in *. rewrite US2 in *.
        eapply (IH limit3 (q2 - t) (L2 - tr_cost pl k2 (b0, t)) (take_from (l_key b0) t bk) tr3 b0 0); [apply good_left; [exact GB|apply B|lia]|apply agree_left; exact AG| | |left; auto|exact P1|lia|lia| |exact H3].
        + pose proof (cost_nonneg pl k Hpl b0 t). lia.
        + pose proof (cost_nonneg pl k2 Hpl b0 t). lia.
        + intros X. specialize (ML2 X). unfold tr_cost. rewrite ES, S2. unfold value. cbn [fst snd]. specialize (T3 X). pose proof (fee_nonneg (tk_tier k) (t * l_price b0 * pl)). assert (0 < t * l_price b0 * pl) by (apply Z.mul_pos_pos; [apply Z.mul_pos_pos|]; lia). pose proof (fee_less (t * l_price b0 * pl) ltac:(unfold u64; lia)). lia.
      - assert (EN : tr = []).
        { inversion H as [|? ? ? ? b'' t'' tr' Q'' B'' WB'' A1'' T'' H'']; subst; [reflexivity|]. exfalso. assert (US : used k (b0, t) = t) by (unfold used; rewrite ES; reflexivity). rewrite US in *. destruct T4 as [T4|[T4|T4]]; [lia|lia|]. apply T4. intros X.
          assert (BL' := best_left _ _ _ t B ltac:(lia)). assert (b'' = set_qty b0 (l_qty b0 - t)) by (eapply best_unique; eassumption). subst b''. change (l_price (set_qty b0 (l_qty b0 - t))) with (l_price b0) in *. specialize (A1'' X). unfold tr_cost in A1''. rewrite ES in A1''. unfold value in A1''. cbn [fst snd] in A1''.
          assert (EQ : (t + 1) * l_price b0 * pl = t * l_price b0 * pl + 1 * l_price b0 * pl) by ring. assert (0 < t * l_price b0 * pl) by (apply Z.mul_pos_pos; [apply Z.mul_pos_pos|]; lia). assert (0 < 1 * l_price b0 * pl) by (apply Z.mul_pos_pos; lia).
          rewrite EQ. pose proof (fee_nonneg (tk_tier k) (t * l_price b0 * pl)). pose proof (fee_nonneg (tk_tier k) (1 * l_price b0 * pl)). pose proof (fee_sub (tk_tier k) (t * l_price b0 * pl) (1 * l_price b0 * pl) ltac:(unfold u64; lia) ltac:(lia) ltac:(lia)). lia. }
        subst tr. cbn [zsum]. assert (S3 : 0 <= sum tr3) by (eapply sum_nonneg; [exact H3|apply good_left; [exact GB|apply B|lia]]). unfold sum in S3. pose proof (W0 (l_key b0) (l_owner b0)). nia. }
    (* an own order *)
    assert (OW : tk_owner k = l_owner b0) by (unfold self in ES; cbn [fst] in ES; lia). specialize (AS OW).
    assert (CPD : tk_st k = CancelProvide \/ tk_st k <> CancelProvide) by (destruct (tk_st k); [right|left|right]; congruence). destruct CPD as [CP|NC].
    { (* withdrawn *)
      rewrite CP in T. cbn [andb] in T. subst t. assert (AH0 : n = 0 /\ bk2 = bk) by (destruct AH as [AH|(_ & _ & (_ & NC) & _)]; [exact AH|contradiction]). destruct AH0 as [-> ->]. rewrite Z.mul_0_l, Z.add_0_r in *. assert (ML2 : tk_side k = Bid -> L <= L2) by (intros X; specialize (ML X); lia). clear ML.
      inversion H2 as [? ? ? ? ST|limit3 ? ? ? b' t2 tr3 Q' B' WB' A1' T' H3]; subst.
      { exfalso. destruct ST as [ST|[ST|ST]]; [lia|lia|]. rewrite SIDE in ST. apply (ST b0 B (LIM _ WB)). intros E2. pose proof E2 as E3. rewrite SIDE in E3. specialize (ML2 E3). refine (affords_both L L2 0 1 (l_price b0) _ _ P1 BL A1 E2); lia. }
      rewrite SIDE in B'. assert (b' = b0) by (eapply best_unique; eassumption). subst b'. rewrite SE, AS, CP in T'. unfold self in ES; cbn [fst] in ES. unfold self in T'. cbn [fst] in T'. rewrite ES in T'. cbn [andb] in T'. subst t2.
      assert (US : used k (b0, l_qty b0) = 0 /\ used k2 (b0, l_qty b0) = 0) by (unfold used, self; cbn [fst]; rewrite AO, ES, AS, CP; split; reflexivity). destruct US as [US1 US2].
      assert (CO : tr_cost pl k (b0, l_qty b0) = 0 /\ tr_cost pl k2 (b0, l_qty b0) = 0) by (unfold tr_cost; rewrite US1, US2; unfold self; cbn [fst]; rewrite AO, ES; split; ring). destruct CO as [CO1 CO2]. rewrite US1, CO1 in *. rewrite US2, CO2 in *.
      unfold sum in *. cbn [zsum fst snd].
      assert (LE : zsum (fun r => w (l_key (fst r)) (l_owner (fst r)) * snd r) tr <= zsum (fun r => w (l_key (fst r)) (l_owner (fst r)) * snd r) tr3 + 0 * w (l_key b0) (l_owner b0)); [|lia].
      eapply (IH limit3 (q2 - 0) (L2 - 0) (take_from (l_key b0) (l_qty b0) bk) tr3 b0 0); [apply good_left; [exact GB|apply B|lia]|apply agree_left; exact AG|lia|lia|left; auto|exact P1|lia|lia|intros X; specialize (ML2 X); lia|exact H3]. }
    (* used up against each other *)
    assert (EA : eats b0) by (split; assumption).
    assert (T' : 0 < t <= l_qty b0 /\ t <= q /\ affords pl k L t (l_price b0)) by (cbn [andb] in T; destruct (tk_st k); [tauto|congruence|tauto]). destruct T' as (T1 & T2 & T3).
    assert (SK : forall u v, self k (set_qty b0 v, u) = true /\ self k2 (set_qty b0 v, u) = true) by (intros; unfold self in *; cbn [fst set_qty l_owner] in *; rewrite AO; auto).
    assert (US : forall v u, used k (set_qty b0 v, u) = u /\ used k2 (set_qty b0 v, u) = u) by (intros v u; unfold used; destruct (SK u v) as [-> ->]; rewrite AS; cbn [snd]; destruct (tk_st k); [auto|congruence|auto]).
    assert (CO : forall v u, tr_cost pl k (set_qty b0 v, u) = u * l_price b0 * pl /\ tr_cost pl k2 (set_qty b0 v, u) = u * l_price b0 * pl) by (intros v u; unfold tr_cost; destruct (US v u) as [-> ->]; destruct (SK u v) as [-> ->]; cbn [fst]; auto).
    assert (AH' : 0 <= n <= l_qty b0 /\ (n = 0 \/ b = b0) /\ ((n = 0 /\ bk2 = bk) \/ (0 < n /\ bk2 = take_from (l_key b0) n bk))) by (destruct AH as [[-> ->]|(N & B1 & _ & ->)]; [split; [lia|]; split; [left; reflexivity|left; split; reflexivity]|]; assert (b = b0) by (eapply best_unique; eassumption); subst b; split; [lia|]; split; [right; reflexivity|right; split; [lia|reflexivity]]).
    destruct AH' as (N & EB & BK2). clear AH.
    assert (WB0 : n * w (l_key b) (l_owner b) = n * w (l_key b0) (l_owner b0)) by (destruct EB as [->| ->]; lia). rewrite WB0.
    assert (ML2 : tk_side k = Bid -> L <= L2 + n * l_price b0 * pl) by (intros X; specialize (ML X); destruct EB as [->| ->]; lia). clear ML WB0.
    pose proof (US (l_qty b0) t) as U0. rewrite set_qty_same in U0. destruct U0 as [U0 _]. pose proof (CO (l_qty b0) t) as C0. rewrite set_qty_same in C0. destruct C0 as [C0 _]. rewrite U0, C0 in *.
    assert (CP0 : 0 < t * l_price b0 * pl) by (apply Z.mul_pos_pos; [apply Z.mul_pos_pos|]; lia).
    assert (GB' : good (take_from (l_key b0) t bk)) by (apply good_left; [exact GB|apply B|exact T1]).
    destruct (Z_le_gt_dec t n) as [TN|TN].
    + (* the second is already there *)
      assert (NP : 0 < n) by lia. destruct BK2 as [[X _]|[_ BK2]]; [lia|]. replace n with (t + (n - t)) in BK2 by lia.
      assert (LE : sum tr <= sum tr2 + (n - t) * w (l_key b0) (l_owner b0)); [|unfold sum in *; cbn [zsum fst snd]; lia].
      eapply (IH limit2 q2 L2 bk2 tr2 (set_qty b0 (l_qty b0 - t)) (n - t)); [exact GB'|apply agree_left; exact AG|lia|exact BL2|rewrite BK2; apply ahead_next; [exact B|exact EA|lia..]|exact P1|lia|lia| |exact H2].
      intros X. specialize (ML2 X). change (l_price (set_qty b0 (l_qty b0 - t))) with (l_price b0). assert (E : n * l_price b0 * pl = (n - t) * l_price b0 * pl + t * l_price b0 * pl) by ring. lia.
    + assert (B2 : best_of (other (tk_side k)) (set_qty b0 (l_qty b0 - n)) bk2). { destruct BK2 as [[-> ->]|[N0 ->]]; [rewrite Z.sub_0_r, set_qty_same; exact B|apply best_left; [exact B|lia]]. }
      assert (AF2 : affords pl k2 L2 (t - n) (l_price b0)). { intros E2. pose proof E2 as E3. rewrite SIDE in E3. refine (affords_both L L2 n t (l_price b0) (ML2 E3) _ P1 BL T3 E2). lia. }
      assert (N0 : 0 <= t - n) by lia. inversion H2 as [l1 q1 m1 c1 ST X1 X2 X3 X4 X5|limit3 q1 m1 c1 b' t2 tr3 Q' B' WB' A1' T' H3 X1 X2 X3 X4 X5].
      { exfalso. destruct ST as [ST|[ST|ST]]; [lia|lia|]. rewrite SIDE in ST. apply (ST _ B2 (LIM _ WB)). change (l_price (set_qty b0 (l_qty b0 - n))) with (l_price b0). eapply (affords_less_price pl k2 Hpl L2 (t - n) 1 (l_price b0)); [lia|lia|exact BL2|exact AF2]. }
      rewrite SIDE in B'. assert (EB' : b' = set_qty b0 (l_qty b0 - n)) by (eapply best_unique; eassumption). rewrite EB' in *. clear EB' b'. change (l_price (set_qty b0 (l_qty b0 - n))) with (l_price b0) in *. change (l_key (set_qty b0 (l_qty b0 - n))) with (l_key b0) in *.
      destruct (SK t2 (l_qty b0 - n)) as [_ SK2]. rewrite SK2, AS in T'. change (l_qty (set_qty b0 (l_qty b0 - n))) with (l_qty b0 - n) in T'.
      assert (T2' : 0 < t2 <= l_qty b0 - n /\ t2 <= q2 /\ (t2 = l_qty b0 - n \/ t2 = q2 \/ ~ affords pl k2 L2 (t2 + 1) (l_price b0))) by (cbn [andb] in T'; destruct (tk_st k); [tauto|congruence|tauto]). clear T'. destruct T2' as (V1 & V2 & V3).
      assert (TT : t - n <= t2). { destruct V3 as [V3|[V3|V3]]; [lia|lia|]. destruct (Z_le_gt_dec (t - n) t2); [assumption|]. exfalso. apply V3. eapply (affords_less_price pl k2 Hpl L2 (t - n) _ (l_price b0)); [lia|lia|exact BL2|exact AF2]. }
      destruct (US (l_qty b0 - n) t2) as [_ US2]. destruct (CO (l_qty b0 - n) t2) as [_ CO2]. rewrite US2, CO2 in H3.
      assert (BK3 : take_from (l_key b0) t2 bk2 = take_from (l_key b0) (t + (n + t2 - t)) bk). { destruct BK2 as [[-> ->]|[N1 ->]]; [f_equal; lia|]. rewrite (take_twice _ _ _ _ _ B); [f_equal; lia|lia..]. }
      rewrite BK3 in H3. assert (CP2 : 0 < t2 * l_price b0 * pl) by (apply Z.mul_pos_pos; [apply Z.mul_pos_pos|]; lia).
      assert (LE : sum tr <= sum tr3 + (n + t2 - t) * w (l_key b0) (l_owner b0)).
      { eapply (IH limit3 (q2 - t2) (L2 - t2 * l_price b0 * pl) _ tr3 (set_qty b0 (l_qty b0 - t)) (n + t2 - t)); [exact GB'|apply agree_left; exact AG|lia|lia|apply ahead_next; [exact B|exact EA|lia..]|exact P1|lia|lia| |exact H3].
        intros X. specialize (ML2 X). change (l_price (set_qty b0 (l_qty b0 - t))) with (l_price b0). assert (E : (n + t2 - t) * l_price b0 * pl = n * l_price b0 * pl + t2 * l_price b0 * pl - t * l_price b0 * pl) by ring. lia. }
      unfold sum in *. cbn [zsum fst snd]. change (l_key (set_qty b0 (l_qty b0 - n))) with (l_key b0). change (l_owner (set_qty b0 (l_qty b0 - n))) with (l_owner b0). lia.
Qed.
End Two.

(** ** What the events say *)
Definition weighed (f : Z -> Z) (v : event_view) : Z :=
  match v with EvFill Bid true _ received _ id _ _ _ _ => f id * received | EvFill Ask true paid _ _ id _ _ _ _ => f id * paid | _ => 0 end.
Lemma weighed_all v : coin_traded v = weighed (fun _ => 1) v.
Proof. destruct v as [[] [] ? ? ? ? ? ? ? ?|? ? ? ? ? ? ? ?]; cbn [coin_traded weighed]; try reflexivity; lia. Qed.
Lemma weighed_one key v : with_order key v = weighed (fun id => if id =? key then 1 else 0) v.
Proof. destruct v as [[] [] ? ? ? ? ? ? ? ?|? ? ? ? ? ? ? ?]; cbn [with_order weighed]; try reflexivity; destruct (_ =? _); lia. Qed.
Lemma eager_in pl k limit q L bk tr : eager pl k limit q L bk tr -> forall r, In r tr -> exists l, In l bk /\ l_owner l = l_owner (fst r).
Proof.
  induction 1 as [|limit q L bk b t tr Q B WB A1 T H IH]; intros r I; [destruct I|]. destruct I as [<-|I]; [exists b; split; [apply B|reflexivity]|].
  destruct (IH r I) as (l & IL & EL). apply take_from_come in IL. destruct IL as (l0 & n & IL & ->). exists l0. auto.
Qed.
Section Events.
Variables (cl pl : Z) (k : taker) (f : Z -> Z).
Lemma round_weighed x g : reported cl pl k x g -> zsum (weighed f) g = f (l_key (fst x)) * cl * tr_coin k x.
Proof.
  destruct x as [b t]. unfold reported, tr_coin. destruct (self k (b, t)) eqn:ES.
  - intros (u & s & ->). cbn [zsum weighed maker_out taker_out]. lia.
  - intros (ft & rest & -> & RS). assert (R0 : zsum (weighed f) rest = 0) by (destruct RS as [->|(u & ->)]; reflexivity).
    cbn [zsum]. rewrite !zsum_app.
    assert (T1 : zsum (weighed f) (if t =? l_qty b then [maker_out (other (tk_side k)) 0 0 b] else []) = 0) by (destruct (t =? l_qty b); reflexivity).
    assert (T2 : zsum (weighed f) (if tk_silent k then [] else taker_fill cl pl k (b, t) :: rest) = 0) by (destruct (tk_silent k); cbn [zsum]; [reflexivity|]; rewrite R0; unfold taker_fill; destruct (tk_side k); reflexivity).
    rewrite T1, T2. unfold maker_fill. cbn [fst snd]. destruct (tk_side k); cbn [weighed fst snd]; ring.
Qed.
Lemma rounds_weighed tr gs : Forall2 (reported cl pl k) tr gs -> zsum (weighed f) (concat gs) = zsum (fun r => f (l_key (fst r)) * cl * tr_coin k r) tr.
Proof. induction 1 as [|x g tr gs R F IH]; cbn [concat zsum]; [reflexivity|]. rewrite zsum_app, IH, (round_weighed x g R). reflexivity. Qed.
End Events.

(** ** Instructions *)
Section Trading.
Variable e : env. Hypothesis EO : env_ok e.
Variables (s : store) (k : Z) (m : market) (A : astate) (L : list (Z * open_orders)).
Hypotheses (HI : history e s) (G : no_overflow e s) (SN : seen e s k m A L) (P : usable m).
Lemma trading c i ms s' T : process e c s i ms = Ok s' -> key_at ms 0 = Some k -> wf_instr i -> terms_of i ms = Some T ->
  exists w tk m' A' L' tr gs Ee, signs ms 7 w /\ tier_for s k w (key_at ms 12) (tk_tier tk) /\ seen e s' k m' A' L' /\ a_evs A' = a_evs A ++ concat gs ++ Ee /\ nofill Ee /\
    tk_side tk = tm_side T /\ tk_owner tk = tm_account T /\ tk_st tk = tm_own T /\ tk_limit tk = tm_price T /\ Forall2 (reported (m_coin_lot m) (m_pc_lot m) tk) tr gs /\
    tm_money T < B64 /\ eager (m_pc_lot m) tk (Z.to_nat (tm_meetings T)) (tm_lots T) (match tm_side T with Bid => tm_money T | Ask => 0 end) (book_of A (other (tm_side T))) tr.
Proof.
  intros H K WF TT. destruct i; try discriminate; cbn [terms_of] in TT.
  - assert (NP : oi_ot ix <> PostOnly) by (destruct (oi_ot ix); discriminate). pose proof (wf_order _ WF) as IX.
    destruct (order_all e EO s k m A L HI G SN P c ix ms s' H K IX NP) as (x & w & t & id & slot & m' & A' & L' & tr & gs & Ee & KX & SG & TF & S' & EV & NF & R). cbv zeta in R. destruct R as (R1 & R2 & R3 & _).
    rewrite KX in TT. assert (TE : T = mkTerms (oi_side ix) (oi_price ix) (oi_qty ix) (oi_pc ix) (oi_limit ix) x (oi_st ix)) by (destruct (oi_ot ix); congruence). rewrite TE.
    exists w, (mkTaker (oi_side ix) id x slot t (oi_cid ix) (oi_st ix) false), m', A', L', tr, gs, Ee. cbn [tk_tier tk_side tk_owner tk_st tm_side tm_price tm_lots tm_money tm_meetings tm_account tm_own]. do 10 (split; [assumption || reflexivity|]). split; [destruct IX; lia|exact R3].
  - injection TT as <-. pose proof (wf_take_ok _ WF) as IX. destruct (take_all e EO s k m A L HI G SN P c ix ms s' H K IX) as (w & t & id & m' & A' & tr & gs & SG & TF & S' & EV & R). cbv zeta in R. destruct R as (R1 & R2 & R3 & _).
    exists w, (mkTaker (ti_side ix) id 0 0 t 0 AbortTransaction true), m', A', L, tr, gs, []. cbn [tk_tier tk_side tk_owner tk_st tm_side tm_price tm_lots tm_money tm_meetings tm_account tm_own].
    split; [assumption|]. split; [assumption|]. split; [assumption|]. split; [rewrite app_nil_r; assumption|]. split; [intros v []|]. do 5 (split; [assumption || reflexivity|]). split; [destruct IX; lia|exact R3].
Qed.
End Trading.
Section Compare.
Variable e : env. Hypothesis EO : env_ok e.
Theorem more_gets_more s k m A L s0 k0 m0 A0 L0 : history e s -> no_overflow e s -> seen e s k m A L -> usable m -> history e s0 -> no_overflow e s0 -> seen e s0 k0 m0 A0 L0 -> usable m0 ->
  forall c c2 i i2 ms ms2 s1 s2 T T2, same_side m A m0 A0 (other (tm_side T)) -> process e c s i ms = Ok s1 -> key_at ms 0 = Some k -> wf_instr i -> terms_of i ms = Some T ->
  process e c2 s0 i2 ms2 = Ok s2 -> key_at ms2 0 = Some k0 -> wf_instr i2 -> terms_of i2 ms2 = Some T2 ->
  as_generous T T2 -> same_own T T2 (book_of A (other (tm_side T))) -> no_dearer s k ms s0 k0 ms2 ->
  forall m1 A1 L1 E1 m2 A2 L2 E2, seen e s1 k m1 A1 L1 -> a_evs A1 = a_evs A ++ E1 -> seen e s2 k0 m2 A2 L2 -> a_evs A2 = a_evs A0 ++ E2 ->
  zsum coin_traded E1 <= zsum coin_traded E2 /\ forall key, zsum (with_order key) E1 <= zsum (with_order key) E2.
Proof.
  intros HI G SN P HI0 G0 SN0 P0 c c2 i i2 ms ms2 s1 s2 T T2 (C1 & C2 & C3) H K WF TT H2 K2 WF2 TT2 (G1 & G2 & G3 & G4) SO ND m1 A1 L1 E1 m2 A2 L2 E2 S1 V1 S2 V2.
  destruct (trading e EO _ _ _ _ _ HI G SN P _ _ _ _ _ H K WF TT) as (w & tk & m1' & A1' & L1' & tr & gs & Ee & SG & TF & S1' & EV & NF & t1 & t2 & t3 & t4 & RE & B1 & EA).
  destruct (trading e EO _ _ _ _ _ HI0 G0 SN0 P0 _ _ _ _ _ H2 K2 WF2 TT2) as (w2 & tk2 & m2' & A2' & L2' & tr2 & gs2 & Ee2 & SG2 & TF2 & S2' & EV2 & NF2 & u1 & u2 & u3 & u4 & RE2 & B2 & EA2).
  destruct (seen_same e _ _ _ _ _ _ _ _ S1 S1') as (_ & _ & X1). destruct (seen_same e _ _ _ _ _ _ _ _ S2 S2') as (_ & _ & X2).
  assert (Y1 : E1 = concat gs ++ Ee) by (apply (app_inv_head (a_evs A)); congruence). assert (Y2 : E2 = concat gs2 ++ Ee2) by (apply (app_inv_head (a_evs A0)); congruence). rewrite C1, C2 in RE2. rewrite C2 in EA2.
  destruct (book_facts e EO s k m A L HI SN P (other (tm_side T))) as [SB PB]. set (bk := book_of A (other (tm_side T))) in *. rewrite G1, C3 in EA2. fold bk in EA2.
  assert (SIDE : tk_side tk2 = tk_side tk) by congruence. assert (RATE : taker_rate (tk_tier tk2) <= taker_rate (tk_tier tk)) by exact (ND _ _ _ _ SG SG2 TF TF2).
  assert (AG : agree tk tk2 bk). { intros l I. destruct (SO l I) as [O1 O2]. rewrite t2, t3, u2, u3. split; [destruct (Z.eqb_spec (tm_account T2) (l_owner l)), (Z.eqb_spec (tm_account T) (l_owner l)); try reflexivity; exfalso; tauto|]. intros X. symmetry. exact (O2 X). }
  assert (LIM : forall x, within (tk_side tk) (tk_limit tk) x -> within (tk_side tk) (tk_limit tk2) x) by (rewrite t1, t4, u4; intros x; destruct (tm_side T); cbn [within]; lia).
  assert (MAIN : forall f, (forall a, 0 <= f a) -> zsum (weighed f) E1 <= zsum (weighed f) E2).
  { intros f F0. rewrite Y1, Y2, !zsum_app. assert (Q : forall E, nofill E -> zsum (weighed f) E = 0) by (intros E N; apply zsum_zero; intros v I; specialize (N v I); destruct v; [discriminate|reflexivity]). rewrite (Q Ee NF), (Q Ee2 NF2).
    rewrite (rounds_weighed _ _ _ f _ _ RE), (rounds_weighed _ _ _ f _ _ RE2). set (wt := fun a b : Z => if tk_owner tk =? b then 0 else f a * m_coin_lot m).
    assert (R1 : zsum (fun r => f (l_key (fst r)) * m_coin_lot m * tr_coin tk r) tr = sum wt tr) by (apply zsum_ext; intros r _; unfold tr_coin, self, wt; destruct (_ =? _); ring).
    assert (R2 : zsum (fun r => f (l_key (fst r)) * m_coin_lot m * tr_coin tk2 r) tr2 = sum wt tr2).
    { apply zsum_ext. intros r I. destruct (eager_in _ _ _ _ _ _ _ EA2 r I) as (l & IL & EL). destruct (AG l IL) as [AO _]. unfold tr_coin, self, wt. cbv beta. rewrite <- EL, AO. destruct (tk_owner tk =? l_owner l). { ring. } { ring. } }
    rewrite R1, R2. assert (PO : 0 < m_coin_lot m /\ 0 < m_pc_lot m) by (destruct P as (? & ? & _); auto). destruct PO as [CL PL].
    assert (LB : forall T0, tm_money T0 < B64 -> match tm_side T with Bid => tm_money T0 | Ask => 0 end < B64) by (intros; destruct (tm_side T); lia).
    set (b0 := mkLeaf 0 0 (1 * B64) 0 0 0). assert (PB0 : 0 < l_price b0) by (unfold b0, l_price; cbn [l_key]; rewrite Z.div_mul; lia).
    pose proof (more (m_pc_lot m) tk tk2 PL SIDE RATE LIM wt) as MO. specialize (MO ltac:(intros a b; unfold wt; destruct (_ =? _); [lia|apply Z.mul_nonneg_nonneg; [apply F0|lia]])).
    specialize (MO _ _ _ _ _ EA (Z.to_nat (tm_meetings T2)) (tm_lots T2) (match tm_side T with Bid => tm_money T2 | Ask => 0 end) bk tr2 b0 0 (conj SB PB) AG (LB _ B1) (LB _ B2) (or_introl (conj eq_refl eq_refl)) PB0 ltac:(lia) ltac:(lia) ltac:(rewrite t1; intros X; rewrite X in *; lia) EA2). lia. }
  split; [|intros key].
  - rewrite (zsum_ext coin_traded (weighed (fun _ => 1)) E1), (zsum_ext coin_traded (weighed (fun _ => 1)) E2) by (intros v _; apply weighed_all). apply MAIN. lia.
  - rewrite (zsum_ext (with_order key) (weighed (fun id => if id =? key then 1 else 0)) E1), (zsum_ext (with_order key) (weighed (fun id => if id =? key then 1 else 0)) E2) by (intros v _; apply weighed_one). apply MAIN. intros a. destruct (a =? key); lia.
Qed.
Theorem same_gets_same s k m A L s0 k0 m0 A0 L0 : history e s -> no_overflow e s -> seen e s k m A L -> usable m -> history e s0 -> no_overflow e s0 -> seen e s0 k0 m0 A0 L0 -> usable m0 ->
  forall c c2 i i2 ms ms2 s1 s2 T T2, same_side m A m0 A0 (other (tm_side T)) -> process e c s i ms = Ok s1 -> key_at ms 0 = Some k -> wf_instr i -> terms_of i ms = Some T ->
  process e c2 s0 i2 ms2 = Ok s2 -> key_at ms2 0 = Some k0 -> wf_instr i2 -> terms_of i2 ms2 = Some T2 ->
  as_generous T T2 -> as_generous T2 T -> same_own T T2 (book_of A (other (tm_side T))) -> no_dearer s k ms s0 k0 ms2 -> no_dearer s0 k0 ms2 s k ms ->
  forall m1 A1 L1 E1 m2 A2 L2 E2, seen e s1 k m1 A1 L1 -> a_evs A1 = a_evs A ++ E1 -> seen e s2 k0 m2 A2 L2 -> a_evs A2 = a_evs A0 ++ E2 ->
  zsum coin_traded E1 = zsum coin_traded E2 /\ forall key, zsum (with_order key) E1 = zsum (with_order key) E2.
Proof.
  intros HI G SN P HI0 G0 SN0 P0 c c2 i i2 ms ms2 s1 s2 T T2 (C1 & C2 & C3) H K WF TT H2 K2 WF2 TT2 GN GN2 SO ND ND2 m1 A1 L1 E1 m2 A2 L2 E2 S1 V1 S2 V2.
  assert (SO2 : same_own T2 T (book_of A0 (other (tm_side T2)))). { destruct GN as (-> & _). rewrite C3. intros l I. destruct (SO l I) as [O1 O2]. split; [tauto|]. intros X. symmetry. apply O2. tauto. }
  destruct (more_gets_more _ _ _ _ _ _ _ _ _ _ HI G SN P HI0 G0 SN0 P0 _ _ _ _ _ _ _ _ _ _ (conj C1 (conj C2 C3)) H K WF TT H2 K2 WF2 TT2 GN SO ND _ _ _ _ _ _ _ _ S1 V1 S2 V2) as [a1 a2].
  assert (SS : same_side m0 A0 m A (other (tm_side T2))) by (destruct GN as (-> & _); repeat split; auto).
  destruct (more_gets_more _ _ _ _ _ _ _ _ _ _ HI0 G0 SN0 P0 HI G SN P _ _ _ _ _ _ _ _ _ _ SS H2 K2 WF2 TT2 H K WF TT GN2 SO2 ND2 _ _ _ _ _ _ _ _ S2 V2 S1 V1) as [b1 b2].
  split; [lia|]. intros key. specialize (a2 key). specialize (b2 key). lia.
Qed.
(** Nothing about tokens has changed. *)
Lemma same_sender s s0 k ms ms' : (forall d, token_at s0 d = token_at s d) -> nth_error ms 7 = nth_error ms' 7 -> key_at ms 12 = key_at ms' 12 -> no_dearer s k ms s0 k ms'.
Proof.
  intros TS E7 E12 w w' t t' S1 S2 T1 T2. unfold signs in *. assert (w' = w) by congruence. subst w'. rewrite <- E12 in T2. unfold tier_for in *. destruct (key_at ms 12).
  - destruct T1 as (a & a1 & a2 & ->), T2 as (b & b1 & b2 & ->). rewrite TS in b1. assert (b = a) by congruence. subst. lia.
  - subst. lia.
Qed.
End Compare.

(** ** A crank in between *)
Section Crank.
Variable e : env. Hypothesis EO : env_ok e.
Lemma crank_good s k m A L i ms c s' vs : WorldExit.good e s -> seen e s k m A L -> usable m -> legal e ms -> wf_instr i -> process e c s i ms = Ok s' -> consumes e s s' k m A L vs -> WorldExit.good e s'.
Proof.
  intros GD SN P LG WF HP (rest & L' & EV & SN' & KS & BK & ON).
  assert (H' : history e s') by (eapply history_next; [exact (gd_h _ _ GD)|exact (gd_g _ _ GD)|exact (gd_s _ _ GD)|exact LG|exact WF|exact HP]).
  destruct (seen_dex e _ _ _ _ _ SN) as (dq & _ & _ & do_). destruct (seen_dex e _ _ _ _ _ SN') as (dq' & _ & _ & do'). pose proof (sn_mkt _ _ _ _ _ _ SN) as HM.
  constructor; [exact H'| |eapply process_sized; [exact HP|exact (gd_s _ _ GD)]].
  apply (guard_next e s s' k m m (m_event_q m :: map ev_owner vs) P (gd_g _ _ GD) (wi_str _ _ (reachable_inv e EO s' H')) ON HM (sn_mkt _ _ _ _ _ _ SN') eq_refl eq_refl).
  - intros y [<-|IY]; [auto|]. apply in_map_iff in IY. destruct IY as (v & <- & IV). right. right. right. left. apply do'. apply KS. eapply event_owners; [exact EO|exact GD|exact SN|exact P|rewrite EV; apply in_or_app; left; exact IV].
  - intros q' HQ'. destruct (sn_evs _ _ _ _ _ _ SN) as (q & HQ & VS). destruct (sn_evs _ _ _ _ _ _ SN') as (q1 & HQ1 & VS'). assert (q1 = q') as -> by congruence. exists q. split; [assumption|].
    rewrite !(pending_views _ _ _ VS), !(pending_views _ _ _ VS'), EV. cbn [a_evs]. rewrite !zsum_app.
    assert (N : 0 <= zsum ev_paid_coin vs /\ 0 <= zsum ev_paid_pc vs).
    { split; apply zsum_nonneg; intros v IV; apply (paid_nonneg e EO s k m A L v GD SN P); rewrite EV; apply in_or_app; left; exact IV. }
    lia.
Qed.
Theorem crank_no_matter s k m A L : history e s -> no_overflow e s -> sized s -> seen e s k m A L -> usable m ->
  forall c0 c c2 i0 ms0 q oos n s0 i ms s1 s2 T, crank i0 ms0 k q oos n -> StronglySorted Z.lt oos -> legal e ms0 -> wf_instr i0 -> process e c0 s i0 ms0 = Ok s0 ->
  process e c s i ms = Ok s1 -> process e c2 s0 i ms = Ok s2 -> key_at ms 0 = Some k -> wf_instr i -> terms_of i ms = Some T ->
  forall m1 A1 L1 E1 A0 L0 m2 A2 L2 E2, seen e s1 k m1 A1 L1 -> a_evs A1 = a_evs A ++ E1 -> seen e s0 k m A0 L0 -> seen e s2 k m2 A2 L2 -> a_evs A2 = a_evs A0 ++ E2 ->
  zsum coin_traded E1 = zsum coin_traded E2 /\ forall key, zsum (with_order key) E1 = zsum (with_order key) E2.
Proof.
  intros HI G SZ SN P c0 c c2 i0 ms0 q oos n s0 i ms s1 s2 T CR SO LG WF0 H0 H1 H2 K WF TT m1 A1 L1 E1 A0 L0 m2 A2 L2 E2 S1 V1 S0 S2 V2.
  destruct (crank_effect e EO s k m A L (reachable_inv e EO s HI) G SN P _ _ _ _ _ _ _ CR SO H0) as (EQ & _ & CO). set (vs := served (Z.to_nat n) oos (a_evs A)) in *.
  pose proof (mkGood e s HI G SZ) as GD. 
  assert (GD0 : WorldExit.good e s0) by exact (crank_good s k m A L i0 ms0 c0 s0 vs GD SN P LG WF0 H0 CO).
  pose proof CO as (rest & L0' & EV & S0' & IN & _ & ON).
  destruct (seen_same e _ _ _ _ _ _ _ _ S0 S0') as (_ & B0 & _).
  assert (TS : forall d, token_at s0 d = token_at s d).
  { apply (only_quiet e EO s s0 _ ON). destruct (seen_dex e s k m A L SN) as (Q1 & _ & _ & O1). destruct (seen_dex e s0 k m _ _ S0') as (Q2 & _ & _ & O2).
    intros y [<-|I]; [auto|]. apply in_map_iff in I. destruct I as (v & <- & I). assert (IL : In (ev_owner v) (map fst L)) by (eapply (event_owners e EO s k m A L); [exact GD|exact SN|exact P|rewrite EV; apply in_app_iff; auto]).
    split; [destruct (O1 _ IL); eauto|]. destruct (O2 _ (proj2 (IN _) IL)); eauto. }
  assert (OW : same_own T T (book_of A (other (tm_side T)))) by (intros l _; tauto). assert (GE : as_generous T T) by (unfold as_generous; destruct (tm_side T); repeat split; lia).
  eapply (same_gets_same e EO s k m A L s0 k m A0 L0); try eassumption; try (apply GD0).
  - split; [reflexivity|]. split; [reflexivity|]. rewrite <- (B0 (other (tm_side T))). destruct (tm_side T); reflexivity.
  - apply same_sender; auto.
  - apply same_sender; auto.
Qed.
End Crank.
