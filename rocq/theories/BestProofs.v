(** Incoming orders trade all they can, at the best prices there are (C65). *)
From Verif Require Import Base BaseProofs Fees FeesSpec FeesProofs ListSum Codec Critbit CritbitProofs CritbitSlab CritbitOps Market Matching MatchSteps MatchRefine Ledger LedgerRun MatchSpec MatchReport MatchFacts
  Slots Core CoreInv CoreNew Instr Store Process StoreProofs World WorldInv WorldSpec WorldFacts WorldMain WorldTrade WorldPay LifeProofs LifeSteps LifeMain BestSpec.

Lemma fee_nonneg t x : 0 <= taker_fee t x.
Proof. unfold taker_fee, wadd, w64. apply Z.mod_pos_bound. lia. Qed.
Lemma best_unique sd b b' bk : best_of sd b bk -> best_of sd b' bk -> b = b'.
Proof. intros [I1 H1] [I2 H2]. destruct (H1 b' I2) as [|X]; [congruence|]. destruct (H2 b I1) as [|Y]; [congruence|]. destruct sd; cbn in X, Y; lia. Qed.
Lemma best_exists sd bk b : sorted bk -> In b bk -> exists b0, best_of sd b0 bk.
Proof.
  intros SO I. destruct sd.
  - destruct (best_bid (mkA bk [] [])) as [w|] eqn:E; [exists w; exact (best_bid_best (mkA bk [] []) w SO E)|].
    unfold best_bid, first_leaf in E. cbn [a_bids] in E. apply in_rev in I. destruct (rev bk); [destruct I|discriminate].
  - destruct (best_ask (mkA [] bk [])) as [w|] eqn:E; [exists w; exact (best_ask_best (mkA [] bk []) w SO E)|].
    unfold best_ask, first_leaf in E. cbn [a_asks] in E. destruct bk; [destruct I|discriminate].
Qed.

Section Book.
Variables (pl : Z) (k : taker).
Hypothesis Hpl : 0 < pl.

Lemma affords_less_price L n n' x x' : 0 <= n' <= n -> 0 <= x' <= x -> L < B64 -> affords pl k L n x -> affords pl k L n' x'.
Proof.
  intros N X BL AF E. specialize (AF E). assert (LE : n' * x' <= n * x) by (apply Z.mul_le_mono_nonneg; lia).
  assert (LE2 : n' * x' * pl <= n * x * pl) by (apply Z.mul_le_mono_nonneg_r; lia).
  assert (0 <= n' * x' * pl) by (apply Z.mul_nonneg_nonneg; [apply Z.mul_nonneg_nonneg|]; lia).
  remember (n * x * pl) as v. remember (n' * x' * pl) as u. pose proof (fee_nonneg (tk_tier k) v).
  assert (taker_fee (tk_tier k) u <= taker_fee (tk_tier k) v) by (apply taker_fee_mono; unfold u64; lia). lia.
Qed.
Lemma cost_nonneg b t : 0 < t -> 0 <= l_price b -> 0 <= tr_cost pl k (b, t).
Proof.
  intros T P. unfold tr_cost, used, value. cbn [fst snd]. destruct (self k (b, t)).
  - destruct (tk_st k); repeat apply Z.mul_nonneg_nonneg; lia.
  - pose proof (fee_nonneg (tk_tier k) (t * l_price b * pl)). assert (0 <= t * l_price b * pl) by (repeat apply Z.mul_nonneg_nonneg; lia). lia.
Qed.
Lemma left_price key n bk : (forall l, In l bk -> 0 < l_price l) -> forall l, In l (take_from key n bk) -> 0 < l_price l.
Proof. intros P l I. apply take_from_come in I. destruct I as (l0 & q & I & ->). exact (P l0 I). Qed.
Lemma left_qty b n bk : sorted bk -> In b bk -> 0 < n <= l_qty b -> (forall l, In l bk -> 0 < l_qty l) -> forall l, In l (take_from (l_key b) n bk) -> 0 < l_qty l.
Proof.
  intros SO IB N P l I. apply take_from_In in I. destruct I as [[I _]|(y & I & E & Q & ->)]; [exact (P l I)|].
  assert (y = b) by (eapply sorted_uniq; eassumption). subst y. cbn [set_qty l_qty]. lia.
Qed.

(** Nothing is left open: book, quantity, money and number of rounds fix the trades. *)
Theorem eager_fun limit q L bk tr tr' : (forall l, In l bk -> 0 < l_price l /\ 0 < l_qty l) -> sorted bk -> L < B64 -> eager pl k limit q L bk tr -> eager pl k limit q L bk tr' -> tr = tr'.
Proof.
  intros PB SO BL H. revert tr' PB SO BL. induction H as [limit q L bk ST|limit q L bk b t tr Q B WB A1 T H IH]; intros tr' PB SO BL H'.
  - inversion H'; subst; [reflexivity|]. destruct ST as [ST|[ST|ST]]; [discriminate|lia|]. exfalso. eapply ST; eassumption.
  - inversion H' as [? ? ? ? ST|? ? ? ? b' t' tr1 Q' B' WB' A1' T' H1]; subst.
    { destruct ST as [ST|[ST|ST]]; [discriminate|lia|]. exfalso. eapply ST; eassumption. }
    assert (b' = b) by (eapply best_unique; eassumption). subst b'. destruct (PB b (proj1 B)) as [P1 P2].
    assert (t' = t /\ 0 < t <= l_qty b) as [-> TB].
    { change (self k (b, t')) with (self k (b, t)) in T'. destruct (self k (b, t) && _); [lia|].
      destruct T as (T1 & T2 & T3 & T4), T' as (T1' & T2' & T3' & T4'). split; [|lia].
      assert (MO : forall u v, u < v -> 0 < u -> affords pl k L v (l_price b) -> affords pl k L (u + 1) (l_price b)) by (intros u v UV U0; apply affords_less_price; lia).
      destruct (Z.lt_trichotomy t t') as [X|[X|X]]; [|lia|]; exfalso.
      - destruct T4 as [T4|[T4|T4]]; [lia|lia|]. apply T4. apply (MO t t'); [lia|lia|exact T3'].
      - destruct T4' as [T4'|[T4'|T4']]; [lia|lia|]. apply T4'. apply (MO t' t); [lia|lia|exact T3]. }
    f_equal. apply IH; [|apply take_from_sorted; [exact SO|apply B]| |exact H1].
    + intros l I. split; [eapply left_price; [|exact I]; intros; apply PB; assumption|]. eapply left_qty; [exact SO|apply B|exact TB| |exact I]. intros; apply PB; assumption.
    + pose proof (cost_nonneg b t). lia.
Qed.

Lemma eager_done limit q L bk tr : eager pl k limit q L bk tr -> forall q' bk', rounds k q bk tr q' bk' -> (forall l, In l bk -> 0 < l_price l) -> sorted bk -> L < B64 -> done pl k limit q L tr bk'.
Proof.
  induction 1 as [limit q L bk ST|limit q L bk b t tr Q B WB A1 T H IH]; intros q' bk' R PB SO BL; inversion R as [|? ? ? ? ? ? ? B2 WB2 T2 U2 _ _ R2]; subst; unfold done; cbn [zsum length].
  - destruct ST as [->|[->|ST]]; [auto|auto|]. right. right. intros x I W AF. rewrite Z.sub_0_r in AF.
    destruct (best_exists (other (tk_side k)) bk' x SO I) as (b0 & B0). pose proof (PB b0 (proj1 B0)) as P0.
    assert (X : match tk_side k with Bid => l_price b0 <= l_price x | Ask => l_price x <= l_price b0 end).
    { destruct (proj2 B0 x I) as [->|Y]; [destruct (tk_side k); lia|]. unfold l_price. destruct (tk_side k); cbn in Y; apply Z.div_le_mono; lia. }
    apply (ST b0 B0); [destruct (tk_side k); cbn in *; lia|]. intros E. rewrite E in X. apply (affords_less_price L 1 1 (l_price x)); [lia|lia|exact BL|exact AF|exact E].
  - destruct (IH q' bk' R2) as [D|[D|D]].
    + apply left_price. exact PB.
    + apply take_from_sorted; [exact SO|apply B].
    + pose proof (cost_nonneg b t). pose proof (PB b (proj1 B)). lia.
    + left. rewrite D. reflexivity.
    + right. left. lia.
    + right. right. intros x I W. rewrite Z.sub_add_distr. apply D; assumption.
Qed.

(** ** No better trades *)
Definition sold (tr : list round) (key : Z) : Z := zsum (fun x => if l_key (fst x) =? key then snd x else 0) tr.
Lemma sold_none tr key : (forall b t, In (b, t) tr -> l_key b <> key) -> sold tr key = 0.
Proof. intros H. apply zsum_zero. intros [b t] I. cbn [fst snd]. specialize (H b t I). replace (l_key b =? key) with false by lia. reflexivity. Qed.
Lemma rounds_in q bk tr q' bk' : rounds k q bk tr q' bk' -> forall b t, In (b, t) tr -> 0 < t /\ exists l, In l bk /\ l_key l = l_key b /\ l_owner l = l_owner b.
Proof.
  induction 1 as [q bk|q bk b t tr q' bk' B W T U A1 A2 R IH]; intros b0 t0 I; [destruct I|]. destruct I as [[= <- <-]|I]; [split; [lia|]; exists b; repeat split; apply B|].
  destruct (IH b0 t0 I) as (T0 & l & IL & E1 & E2). split; [exact T0|]. apply take_from_come in IL. destruct IL as (l0 & n & I0 & ->). exists l0. auto.
Qed.
Lemma sold_all q bk tr q' bk' : rounds k q bk tr q' bk' -> sorted bk ->
  forall l, In l bk -> 0 <= l_qty l -> 0 <= sold tr (l_key l) <= l_qty l /\ ((exists b t, In (b, t) tr /\ before (other (tk_side k)) l b) -> sold tr (l_key l) = l_qty l).
Proof.
  induction 1 as [q bk|q bk b t tr q' bk' B W T U A1 A2 R IH]; intros SO l I Q; [split; [cbn; lia|intros (b & t & [] & _)]|].
  pose proof (take_from_sorted b t bk SO (proj1 B)) as SO1. cbn [sold zsum fst snd]. fold (sold tr (l_key l)).
  assert (NB : ~ before (other (tk_side k)) l b). { intros X. destruct (proj2 B l I) as [->|Y]; destruct (other (tk_side k)); cbn in *; lia. }
  destruct (Z.eqb_spec (l_key b) (l_key l)) as [E|E].
  - assert (l = b) by (eapply sorted_uniq; [exact SO|exact I|apply B|symmetry; exact E]). subst l.
    destruct (Z.eq_dec (l_qty b) t) as [X|X].
    + assert (S0 : sold tr (l_key b) = 0).
      { apply sold_none. intros b1 t1 I1 E1. destruct (rounds_in _ _ _ _ _ R b1 t1 I1) as (_ & l1 & I2 & E2 & _). apply take_from_In in I2. destruct I2 as [[_ N]|(y & I3 & E3 & N & _)]; [congruence|].
        assert (y = b) by (eapply sorted_uniq; [exact SO|exact I3|apply B|exact E3]). subst y. congruence. }
      rewrite S0. split; [lia|]. intros _. lia.
    + assert (I1 : In (set_qty b (l_qty b - t)) (take_from (l_key b) t bk)) by (apply take_from_In; right; exists b; repeat split; [apply B|exact X]).
      destruct (IH SO1 _ I1) as [S1 S2]; [cbn [set_qty l_qty]; lia|]. cbn [set_qty l_qty l_key] in S1, S2. split; [lia|].
      intros (b1 & t1 & [[= -> ->]|I2] & BF); [contradiction|]. rewrite S2; [lia|]. exists b1, t1. split; [exact I2|exact BF].
  - assert (I1 : In l (take_from (l_key b) t bk)) by (apply take_from_In; left; split; [exact I|congruence]).
    destruct (IH SO1 _ I1 Q) as [S1 S2]. split; [lia|]. intros (b1 & t1 & [[= -> ->]|I2] & BF); [contradiction|]. rewrite S2; [lia|]. exists b1, t1. auto.
Qed.
Lemma sum_at bk key v (g : leaf -> Z) l : sorted bk -> In l bk -> l_key l = key -> zsum (fun y => (if key =? l_key y then v else 0) * g y) bk = v * g l.
Proof.
  intros SO I E. induction SO as [|x bk SO IH F]; [destruct I|]. cbn [zsum]. rewrite Forall_forall in F. destruct I as [->|I].
  - rewrite E, Z.eqb_refl. rewrite zsum_zero; [lia|]. intros y Y. specialize (F y Y). unfold klt in F. replace (key =? l_key y) with false by lia. lia.
  - specialize (F l I). unfold klt in F. replace (key =? l_key x) with false by lia. rewrite IH by exact I. lia.
Qed.
Lemma by_order bk tr (g : leaf -> Z) : sorted bk -> (forall a b, l_key a = l_key b -> l_owner a = l_owner b -> g a = g b) ->
  (forall b t, In (b, t) tr -> exists l, In l bk /\ l_key l = l_key b /\ l_owner l = l_owner b) ->
  zsum (fun x : round => snd x * g (fst x)) tr = zsum (fun l => sold tr (l_key l) * g l) bk.
Proof.
  intros SO G. induction tr as [|[b t] tr IH]; intros H; [cbn [zsum sold]; rewrite zsum_zero; [reflexivity|intros; cbn; lia]|]. cbn [zsum fst snd].
  rewrite IH by (intros; eapply H; right; eassumption). destruct (H b t (or_introl eq_refl)) as (l & I & E1 & E2).
  rewrite (G b l) by congruence. rewrite <- (sum_at bk (l_key b) t g l SO I E1), <- zsum_plus. apply zsum_ext. intros y _. cbn [sold zsum fst snd]. fold (sold tr (l_key y)). lia.
Qed.
Lemma worst_price (tr : list round) : tr <> [] -> forall f : round -> Z, exists x, In x tr /\ forall y, In y tr -> f y <= f x.
Proof.
  intros N f. induction tr as [|x tr IH]; [congruence|]. destruct tr as [|y tr]; [exists x; split; [left; reflexivity|]; intros z [<-|[]]; lia|].
  destruct IH as (z & I & M); [discriminate|]. destruct (Z_le_dec (f z) (f x)); [exists x|exists z]; (split; [auto with datatypes|]); intros u [<-|U]; try lia; specialize (M u U); lia.
Qed.

Theorem rounds_best q bk tr q' bk' n : rounds k q bk tr q' bk' -> sorted bk -> (forall l, In l bk -> 0 < l_qty l) -> choice (tk_owner k) bk n -> chosen n bk = zsum (tr_coin k) tr ->
  match tk_side k with Bid => zsum (tr_value pl k) tr <= pl * worth n bk | Ask => pl * worth n bk <= zsum (tr_value pl k) tr end.
Proof.
  intros R SO PQ CH EQ.
  set (o1 := fun l => if tk_owner k =? l_owner l then 0 else 1). set (o2 := fun l => if tk_owner k =? l_owner l then 0 else l_price l).
  assert (C1 : zsum (tr_coin k) tr = zsum (fun l => sold tr (l_key l) * o1 l) bk).
  { rewrite <- (by_order bk tr o1 SO); [apply zsum_ext; intros [b t] _; unfold tr_coin, self, o1; cbn [fst snd]; destruct (_ =? _); lia|intros a b _ E; unfold o1; rewrite E; reflexivity|].
    intros b t I. destruct (rounds_in _ _ _ _ _ R b t I) as (_ & X). exact X. }
  assert (C2 : zsum (tr_value pl k) tr = pl * zsum (fun l => sold tr (l_key l) * o2 l) bk).
  { rewrite <- (by_order bk tr o2 SO).
    - assert (X : forall l : list round, zsum (tr_value pl k) l = pl * zsum (fun x => snd x * o2 (fst x)) l); [|apply X].
      induction l as [|[b t] l IH]; cbn [zsum fst snd]; [lia|]. rewrite IH. unfold tr_value, value, self, o2. cbn [fst snd]. destruct (_ =? _); ring.
    - intros a b E1 E2. unfold o2, l_price. rewrite E1, E2. reflexivity.
    - intros b t I. destruct (rounds_in _ _ _ _ _ R b t I) as (_ & X). exact X. }
  rewrite C2. unfold worth. rewrite C1 in EQ. unfold chosen in EQ. clear C1 C2.
  assert (KEY : exists P, forall l, In l bk -> match tk_side k with
      | Bid => (sold tr (l_key l) * o1 l - n (l_key l)) * (l_price l - P) <= 0 | Ask => 0 <= (sold tr (l_key l) * o1 l - n (l_key l)) * (l_price l - P) end).
  { destruct tr as [|x0 tr0] eqn:ETR.
    - exists 0. intros l I. assert (Z0 : forall y, In y bk -> n (l_key y) = 0).
      { assert (G : zsum (fun l => n (l_key l)) bk = 0) by (rewrite EQ; apply zsum_zero; intros; cbn; lia). intros y Y. pose proof (zsum_In_le (fun l => n (l_key l)) bk y) as X. cbv beta in X.
        assert (forall z, In z bk -> 0 <= n (l_key z)) by (intros z IZ; apply CH; exact IZ). specialize (X H Y). specialize (H y Y). lia. }
      rewrite (Z0 l I). cbn [sold zsum]. destruct (tk_side k); lia.
    - rewrite <- ETR in *. assert (N : tr <> []) by (rewrite ETR; discriminate). clear ETR.
      destruct (worst_price tr N (fun x => match tk_side k with Bid => l_price (fst x) | Ask => - l_price (fst x) end)) as ([b t] & I0 & M). cbn [fst] in M.
      exists (l_price b). intros l I. destruct (CH l I) as [CH1 CH2]. destruct (sold_all _ _ _ _ _ R SO l I ltac:(pose proof (PQ l I); lia)) as [S1 S2].
      assert (O1 : o1 l = 1 \/ (o1 l = 0 /\ n (l_key l) = 0)). { unfold o1. destruct (Z.eqb_spec (tk_owner k) (l_owner l)) as [X|X]; [right; split; [reflexivity|apply CH2; congruence]|left; reflexivity]. }
      destruct O1 as [O1|[O1 O2]]; [|rewrite O1, O2; destruct (tk_side k); lia]. rewrite O1, Z.mul_1_r.
      assert (FAR : match tk_side k with Bid => l_price b < l_price l | Ask => l_price l < l_price b end -> sold tr (l_key l) = 0).
      { intros X. apply sold_none. intros b1 t1 I1 E1. specialize (M _ I1). cbn [fst] in M. assert (l_price b1 = l_price l) by (unfold l_price; rewrite E1; reflexivity). destruct (tk_side k); lia. }
      assert (NEAR : match tk_side k with Bid => l_price l < l_price b | Ask => l_price b < l_price l end -> sold tr (l_key l) = l_qty l).
      { intros X. apply S2. exists b, t. split; [exact I0|]. unfold l_price in X. destruct (tk_side k); cbn [other before].
        - destruct (Z_lt_le_dec (l_key l) (l_key b)) as [|Y]; [assumption|]. pose proof (Z.div_le_mono _ _ B64 ltac:(lia) Y). lia.
        - destruct (Z_lt_le_dec (l_key b) (l_key l)) as [|Y]; [assumption|]. pose proof (Z.div_le_mono _ _ B64 ltac:(lia) Y). lia. }
      destruct (tk_side k); (destruct (Z.lt_trichotomy (l_price l) (l_price b)) as [X|[X|X]]; [|rewrite X; lia|]); try specialize (FAR X); try specialize (NEAR X).
      + rewrite NEAR. apply Z.mul_nonneg_nonpos; lia.
      + rewrite FAR. apply Z.mul_nonpos_nonneg; lia.
      + rewrite FAR. apply Z.mul_nonpos_nonpos; lia.
      + rewrite NEAR. apply Z.mul_nonneg_nonneg; lia. }
  destruct KEY as (P & KEY).
  assert (SUM : zsum (fun l => (sold tr (l_key l) * o1 l - n (l_key l)) * (l_price l - P)) bk = zsum (fun l => sold tr (l_key l) * o2 l) bk - zsum (fun l => n (l_key l) * l_price l) bk).
  { assert (X : forall b, zsum (fun l => (sold tr (l_key l) * o1 l - n (l_key l)) * (l_price l - P)) b =
      zsum (fun l => sold tr (l_key l) * o2 l) b - zsum (fun l => n (l_key l) * l_price l) b - P * (zsum (fun l => sold tr (l_key l) * o1 l) b - zsum (fun l => n (l_key l)) b)).
    { induction b as [|l b IH]; cbn [zsum]; [lia|]. rewrite IH. unfold o1, o2. destruct (_ =? _); ring. }
    rewrite X, EQ. ring. }
  destruct (tk_side k).
  - assert (zsum (fun l => (sold tr (l_key l) * o1 l - n (l_key l)) * (l_price l - P)) bk <= 0).
    { pose proof (zsum_le _ (fun _ => 0) bk KEY) as X. rewrite zsum_0 in X. exact X. }
    apply Z.mul_le_mono_nonneg_l; lia.
  - pose proof (zsum_nonneg _ bk KEY). apply Z.mul_le_mono_nonneg_l; lia.
Qed.
End Book.

(** ** What the events say *)
Section Events.
Variables (cl pl : Z) (k : taker).
Hypothesis Hcl : 0 < cl.
Lemma round_traded x g : reported cl pl k x g -> zsum coin_traded g = cl * tr_coin k x /\ zsum pc_traded g = tr_value pl k x.
Proof.
  destruct x as [b t]. unfold reported, tr_coin, tr_value. destruct (self k (b, t)) eqn:ES.
  - intros (u & s & ->). cbn. lia.
  - intros (ft & rest & -> & RS). assert (R0 : zsum coin_traded rest = 0 /\ zsum pc_traded rest = 0) by (destruct RS as [->|(u & ->)]; cbn; lia).
    cbn [zsum]. rewrite !zsum_app. destruct R0 as [R1 R2].
    assert (T0 : forall f, (f = coin_traded \/ f = pc_traded) -> zsum f (if t =? l_qty b then [maker_out (other (tk_side k)) 0 0 b] else []) = 0 /\ zsum f (if tk_silent k then [] else taker_fill cl pl k (b, t) :: rest) = 0).
    { intros f [-> | ->]; (split; [destruct (t =? l_qty b); reflexivity|]); destruct (tk_silent k); cbn [zsum]; try reflexivity; rewrite ?R1, ?R2; unfold taker_fill; destruct (tk_side k); reflexivity. }
    destruct (T0 coin_traded (or_introl eq_refl)) as [-> ->]. destruct (T0 pc_traded (or_intror eq_refl)) as [-> ->].
    unfold maker_fill, value. cbn [fst snd]. destruct (tk_side k); cbn [coin_traded pc_traded fst snd]; lia.
Qed.
Lemma rounds_traded tr gs : Forall2 (reported cl pl k) tr gs -> zsum coin_traded (concat gs) = cl * zsum (tr_coin k) tr /\ zsum pc_traded (concat gs) = zsum (tr_value pl k) tr.
Proof. induction 1 as [|x g tr gs R F [I1 I2]]; cbn [concat zsum]; [lia|]. rewrite !zsum_app. destruct (round_traded x g R). lia. Qed.
Lemma quiet_traded E : nofill E -> zsum coin_traded E = 0 /\ zsum pc_traded E = 0.
Proof. intros N. split; apply zsum_zero; intros v I; specialize (N v I); destruct v; [discriminate|reflexivity|discriminate|reflexivity]. Qed.
Lemma events_best q bk tr q' bk' gs Ee : 0 < pl -> rounds k q bk tr q' bk' -> sorted bk -> (forall l, In l bk -> 0 < l_qty l) -> Forall2 (reported cl pl k) tr gs -> nofill Ee ->
  best_trades (tk_side k) cl pl (tk_owner k) bk (concat gs ++ Ee).
Proof.
  intros Hpl R SO PQ F N n CH EQ. destruct (rounds_traded tr gs F) as [T1 T2]. destruct (quiet_traded Ee N) as [N1 N2]. rewrite zsum_app in *. rewrite T1, N1 in EQ. rewrite T2, N2.
  pose proof (rounds_best pl k Hpl q bk tr q' bk' n R SO PQ CH ltac:(nia)). destruct (tk_side k); lia.
Qed.
End Events.

(** ** Instructions *)
Section World.
Variable e : env. Hypothesis EO : env_ok e.
Variables (s : store) (k : Z) (m : market) (A : astate) (L : list (Z * open_orders)).
Hypotheses (HI : history e s) (G : no_overflow e s) (SN : seen e s k m A L) (P : usable m).

Lemma book_facts sd : sorted (book_of A sd) /\ forall l, In l (book_of A sd) -> 0 < l_price l /\ 0 < l_qty l.
Proof.
  destruct (seen_state e s k m A L (reachable_inv e EO s HI) SN P) as (seq & o & MS). pose proof (ms_inv _ _ _ _ _ _ _ MS) as C.
  split; [exact (cinv_sorted _ _ _ _ C sd)|]. intros l I. pose proof (ci_fit _ _ _ _ C) as [F1 F2].
  destruct sd; cbn [book_of] in I; [destruct (F1 l I) as (? & ? & _)|destruct (F2 l I) as (? & ? & _)]; auto.
Qed.
Lemma the_slab sd : exists sl, dexd e s (match sd with Bid => m_bids m | Ask => m_asks m end) = Some (DSlab sd sl).
Proof. destruct (sn_bids _ _ _ _ _ _ SN) as (sb & HB & _). destruct (sn_asks _ _ _ _ _ _ SN) as (sa & HA & _). destruct sd; eauto. Qed.

Theorem order_best c ix ms s' : process e c s (INewOrderV3 ix) ms = Ok s' -> key_at ms 0 = Some k -> order_ix_ok ix ->
  exists x m' A' L' E, key_at ms 1 = Some x /\ seen e s' k m' A' L' /\ a_evs A' = a_evs A ++ E /\
    best_trades (oi_side ix) (m_coin_lot m) (m_pc_lot m) x (book_of A (other (oi_side ix))) E.
Proof.
  intros H K IX. destruct (order_effect e EO s k m A L (reachable_inv e EO s HI) SN P (guard_room e s 1 G ltac:(lia)) c ix ms s' H K IX) as (x & w & t & payer & oo & KX & _ & _ & _ & _ & _ & m' & A' & L' & oo' & tr & q' & n & E & slot & id & dep & O).
  cbv zeta in O. destruct O as (_ & _ & S' & _ & EV & RP & _). exists x, m', A', L', E. split; [exact KX|]. split; [exact S'|]. split; [exact EV|].
  destruct (the_slab (oi_side ix)) as (sl & HS). destruct (RP sl HS) as [r1 _ _ (gs & Ee & -> & r5 & r6) _]. set (tk := mkTaker (oi_side ix) id x slot t (oi_cid ix) (oi_st ix) false) in *.
  destruct (book_facts (other (oi_side ix))) as [SO PQ]. apply (events_best (m_coin_lot m) (m_pc_lot m) tk (proj1 P) _ _ _ _ _ _ _ (proj1 (proj2 P)) r1 SO (fun l I => proj2 (PQ l I)) r5). exact (LifeProofs.finish_nofill m tk _ _ _ _ _ _ _ _ r6).
Qed.
Theorem take_best c ix ms s' : process e c s (ISendTake ix) ms = Ok s' -> key_at ms 0 = Some k -> take_ix_ok ix ->
  exists m' A' E, seen e s' k m' A' L /\ a_evs A' = a_evs A ++ E /\ best_trades (ti_side ix) (m_coin_lot m) (m_pc_lot m) 0 (book_of A (other (ti_side ix))) E.
Proof.
  intros H K IX. destruct (take_effect e EO s k m A L (reachable_inv e EO s HI) SN P (guard_room e s 1 G ltac:(lia)) c ix ms s' H K IX) as (w & t & cw & pw & _ & _ & _ & _ & m' & A' & tr & q' & gs & id & O).
  cbv zeta in O. destruct O as (_ & S' & r1 & _ & _ & EV & r5 & _). exists m', A', (concat gs). split; [exact S'|]. split; [exact EV|]. set (tk := mkTaker (ti_side ix) id 0 0 t 0 AbortTransaction true) in *.
  destruct (book_facts (other (ti_side ix))) as [SO PQ]. rewrite <- (app_nil_r (concat gs)).
  apply (events_best (m_coin_lot m) (m_pc_lot m) tk (proj1 P) _ _ _ _ _ _ _ (proj1 (proj2 P)) r1 SO (fun l I => proj2 (PQ l I)) r5). intros v [].
Qed.

Theorem order_all c ix ms s' : process e c s (INewOrderV3 ix) ms = Ok s' -> key_at ms 0 = Some k -> order_ix_ok ix -> oi_ot ix <> PostOnly ->
  exists x w t id slot m' A' L' tr gs Ee, key_at ms 1 = Some x /\ signs ms 7 w /\ tier_for s k w (key_at ms 12) t /\ seen e s' k m' A' L' /\ a_evs A' = a_evs A ++ concat gs ++ Ee /\ nofill Ee /\
    let tk := mkTaker (oi_side ix) id x slot t (oi_cid ix) (oi_st ix) false in let money := match oi_side ix with Bid => oi_pc ix | Ask => 0 end in let bk := book_of A (other (oi_side ix)) in
    tk_limit tk = oi_price ix /\ Forall2 (reported (m_coin_lot m) (m_pc_lot m) tk) tr gs /\ eager (m_pc_lot m) tk (Z.to_nat (oi_limit ix)) (oi_qty ix) money bk tr /\
    done (m_pc_lot m) tk (Z.to_nat (oi_limit ix)) (oi_qty ix) money tr (book_of A' (other (oi_side ix))).
Proof.
  intros H K IX NP. destruct (order_effect e EO s k m A L (reachable_inv e EO s HI) SN P (guard_room e s 1 G ltac:(lia)) c ix ms s' H K IX) as (x & w & t & payer & oo & KX & SG & _ & _ & TF & _ & m' & A' & L' & oo' & tr & q' & n & E & slot & id & dep & O).
  cbv zeta in O. destruct O as (LIM & _ & S' & _ & EV & RP & _). destruct (the_slab (oi_side ix)) as (sl & HS). destruct (RP sl HS) as [r1 _ _ (gs & Ee & -> & r5 & r6) r7]. set (tk := mkTaker (oi_side ix) id x slot t (oi_cid ix) (oi_st ix) false) in *.
  exists x, w, t, id, slot, m', A', L', tr, gs, Ee. split; [exact KX|]. split; [exact SG|]. split; [exact TF|]. split; [exact S'|]. split; [exact EV|]. split; [exact (LifeProofs.finish_nofill m tk _ _ _ _ _ _ _ _ r6)|].
  cbv zeta. fold tk. split; [exact LIM|]. split; [exact r5|]. specialize (r7 ltac:(destruct (oi_ot ix); [reflexivity|reflexivity|congruence])). split; [exact r7|].
  destruct (book_facts (other (oi_side ix))) as [SO PQ]. apply (eager_done (m_pc_lot m) tk (proj1 (proj2 P)) _ _ _ _ _ r7 _ _ r1 (fun l I => proj1 (PQ l I)) SO). destruct IX. destruct (oi_side ix); lia.
Qed.
Theorem take_all c ix ms s' : process e c s (ISendTake ix) ms = Ok s' -> key_at ms 0 = Some k -> take_ix_ok ix ->
  exists w t id m' A' tr gs, signs ms 7 w /\ tier_for s k w (key_at ms 12) t /\ seen e s' k m' A' L /\ a_evs A' = a_evs A ++ concat gs /\
    let tk := mkTaker (ti_side ix) id 0 0 t 0 AbortTransaction true in let money := match ti_side ix with Bid => ti_pc ix | Ask => 0 end in let bk := book_of A (other (ti_side ix)) in
    tk_limit tk = ti_price ix /\ Forall2 (reported (m_coin_lot m) (m_pc_lot m) tk) tr gs /\ eager (m_pc_lot m) tk (Z.to_nat (ti_limit ix)) (ti_qty ix) money bk tr /\
    done (m_pc_lot m) tk (Z.to_nat (ti_limit ix)) (ti_qty ix) money tr (book_of A' (other (ti_side ix))).
Proof.
  intros H K IX. destruct (take_effect e EO s k m A L (reachable_inv e EO s HI) SN P (guard_room e s 1 G ltac:(lia)) c ix ms s' H K IX) as (w & t & cw & pw & SG & _ & _ & TF & m' & A' & tr & q' & gs & id & O).
  cbv zeta in O. destruct O as ((LIM & _) & S' & r1 & (_ & r7) & _ & EV & r5 & _). set (tk := mkTaker (ti_side ix) id 0 0 t 0 AbortTransaction true) in *.
  exists w, t, id, m', A', tr, gs. split; [exact SG|]. split; [exact TF|]. split; [exact S'|]. split; [exact EV|]. cbv zeta. fold tk. split; [exact LIM|]. split; [exact r5|]. split; [exact r7|].
  destruct (book_facts (other (ti_side ix))) as [SO PQ]. apply (eager_done (m_pc_lot m) tk (proj1 (proj2 P)) _ _ _ _ _ r7 _ _ r1 (fun l I => proj1 (PQ l I)) SO). destruct IX. destruct (ti_side ix); lia.
Qed.
(** The hypotheses of [eager_fun] hold in every reachable state. *)
Theorem only_trades sd tk limit q money tr tr' : money < B64 ->
  eager (m_pc_lot m) tk limit q money (book_of A sd) tr -> eager (m_pc_lot m) tk limit q money (book_of A sd) tr' -> tr = tr'.
Proof. intros B. destruct (book_facts sd) as [SO PQ]. apply (eager_fun (m_pc_lot m) tk (proj1 (proj2 P)) limit q money (book_of A sd) tr tr' PQ SO B). Qed.
End World.
