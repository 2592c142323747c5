(** What matching, cancelling and the other pieces of an instruction do to a resting order (C61). *)
From Coq Require Import Permutation.
From Verif Require Import Base BaseProofs Fees ListSum Queue QueueProofs Codec Critbit CritbitProofs CritbitSlab Market Matching MatchSteps MatchSpec MatchFacts MatchReport MatchRefine MatchAsk MatchBid MatchRun Ledger LedgerSums LedgerSteps
  Core CoreInv CoreNew Instr InstrProofs Store Process StoreProofs World WorldSpec WorldSupply LifeSpec.

Lemma set_qty_same l : set_qty l (l_qty l) = l.
Proof. destruct l; reflexivity. Qed.
Lemma set_qty_twice l a b : set_qty (set_qty l a) b = set_qty l b.
Proof. reflexivity. Qed.
Lemma side_eqb_refl sd : side_eqb sd sd = true.
Proof. destruct sd; reflexivity. Qed.
Lemma side_eqb_other sd : side_eqb sd (other sd) = false /\ side_eqb (other sd) sd = false.
Proof. destruct sd; split; reflexivity. Qed.
Lemma other_other sd : other (other sd) = sd.
Proof. destruct sd; reflexivity. Qed.

(** ** Stories *)
Section One.
Variables (m : market) (sd : side) (l : leaf).
Lemma story_0 q r q' : story m sd l q r q' -> q = 0 -> r = [] /\ q' = 0.
Proof. destruct 1; intros E; subst; try lia; auto. Qed.
Lemma story_app q r q1 r2 q2 : story m sd l q r q1 -> story m sd l q1 r2 q2 -> story m sd l q (r ++ r2) q2.
Proof.
  induction 1 as [q|q n t r q1 N S IH|q n r q1 N S IH|q t N|q g N]; intros S2; cbn [app].
  - exact S2.
  - apply story_trade; auto.
  - apply story_less; auto.
  - destruct (story_0 _ _ _ S2 eq_refl) as [-> ->]. apply story_sold; assumption.
  - destruct (story_0 _ _ _ S2 eq_refl) as [-> ->]. cbn [app]. apply story_out; assumption.
Qed.
Lemma story_mkt m' q r q' : m_coin_lot m' = m_coin_lot m -> m_pc_lot m' = m_pc_lot m -> story m' sd l q r q' -> story m sd l q r q'.
Proof.
  intros E1 E2. assert (P : forall n, part m' sd l n = part m sd l n) by (intros; unfold part; rewrite E1, E2; reflexivity).
  assert (F : forall n, fetch m' sd l n = fetch m sd l n) by (intros; unfold fetch; rewrite E1, E2; reflexivity).
  induction 1; unfold traded in *; rewrite ?P, ?F in *; [apply story_still|apply (story_trade m sd l q n t r q'); assumption|apply story_less; assumption|apply (story_sold m sd l q t); assumption|apply story_out; assumption].
Qed.
Lemma story_range q r q' : story m sd l q r q' -> 0 <= q -> 0 <= q' <= q.
Proof. induction 1; lia. Qed.
(** Nothing is lost: what the order locked has been paid for lots traded, released, or is still locked; what
    was paid fetched the price of the order; and the end is announced exactly when nothing is left. *)
Lemma part_sub a b : part m sd l (a - b) = part m sd l a - part m sd l b.
Proof. unfold part. destruct sd; ring. Qed.
Lemma part_add a b : part m sd l (a + b) = part m sd l a + part m sd l b.
Proof. unfold part. destruct sd; ring. Qed.
Lemma fetch_add a b : fetch m sd l (a + b) = fetch m sd l a + fetch m sd l b.
Proof. unfold fetch. destruct sd; ring. Qed.
Lemma part_0 : part m sd l 0 = 0 /\ fetch m sd l 0 = 0.
Proof. unfold part, fetch. destruct sd; split; ring. Qed.
Lemma story_sums q r q' : story m sd l q r q' -> 0 <= q ->
  part m sd l q = zsum taken r + part m sd l q' /\ exists n, 0 <= n <= q - q' /\ zsum spent r = part m sd l n /\ zsum brought r = fetch m sd l n.
Proof.
  destruct part_0 as [P0 F0]. induction 1 as [q|q n t r q1 N S IH|q n r q1 N S IH|q t N|q g N]; intros Q; cbn [zsum taken spent brought traded released].
  - split; [lia|]. exists 0. rewrite P0, F0. cbn. lia.
  - destruct (IH ltac:(lia)) as [I1 (k & K & I2 & I3)]. rewrite part_sub in I1. split; [lia|]. exists (n + k). rewrite part_add, fetch_add. lia.
  - destruct (IH ltac:(lia)) as [I1 (k & K & I2 & I3)]. rewrite part_sub in I1. split; [lia|]. exists k. lia.
  - split; [lia|]. exists q. lia.
  - split; [lia|]. exists 0. lia.
Qed.
Lemma story_final q r q' : story m sd l q r q' -> 0 < q -> 0 < part m sd l 1 -> (q' = 0 <-> exists v, In v r /\ ev_final v = true).
Proof.
  intros S Q P1. assert (PP : forall n, 0 < n -> 0 < part m sd l n) by (intros n Hn; replace (part m sd l n) with (n * part m sd l 1) by (unfold part; destruct sd; ring); apply Z.mul_pos_pos; lia).
  induction S as [q|q n t r q1 N S IH|q n r q1 N S IH|q t N|q g N].
  - split; [lia|]. intros (v & [] & _).
  - rewrite (IH ltac:(lia)). split; intros (v & I & F); [exists v; split; [right; exact I|exact F]|]. destruct I as [<-|I]; [discriminate|eauto].
  - rewrite (IH ltac:(lia)). split; intros (v & I & F); [exists v; split; [right; exact I|exact F]|]. destruct I as [<-|I]; [|eauto]. cbn [ev_final released] in F. specialize (PP (q - n) ltac:(lia)). lia.
  - split; [|reflexivity]. intros _. eexists. split; [right; left; reflexivity|reflexivity].
  - split; [|reflexivity]. intros _. eexists. split; [left; reflexivity|reflexivity].
Qed.
Lemma story_ends q r q' : story m sd l q r q' -> 0 < q -> q' = 0 -> exists v, In v r /\ ev_final v = true.
Proof.
  induction 1 as [q|q n t r q1 N S IH|q n r q1 N S IH|q t N|q g N]; intros Q Z0.
  - lia.
  - destruct (IH ltac:(lia) Z0) as (v & I & F). exists v. split; [right; exact I|exact F].
  - destruct (IH ltac:(lia) Z0) as (v & I & F). exists v. split; [right; exact I|exact F].
  - eexists. split; [right; left; reflexivity|reflexivity].
  - eexists. split; [left; reflexivity|reflexivity].
Qed.
Lemma story_ended q E q' : story m sd l q (filter (about sd (l_key l)) E) q' -> 0 < q -> q' = 0 -> ended sd l E.
Proof. intros S Q Z0. destruct (story_ends _ _ _ S Q Z0) as (v & I & F). apply filter_In in I. exists v. tauto. Qed.
End One.

(** ** Priority *)
Lemma outranks_key sd a b : outranks sd a b <-> match sd with Bid => b < a | Ask => a < b end.
Proof.
  unfold outranks, price_of, number_of. pose proof (Z.div_mod a B64 ltac:(lia)) as EA. pose proof (Z.div_mod b B64 ltac:(lia)) as EB. pose proof (Z.mod_pos_bound a B64 ltac:(lia)) as BA. pose proof (Z.mod_pos_bound b B64 ltac:(lia)) as BB.
  remember (a / B64) as qa. remember (b / B64) as qb. remember (a mod B64) as ra. remember (b mod B64) as rb. clear Heqqa Heqqb Heqra Heqrb.
  assert (C : qa < qb \/ qa = qb \/ qb < qa) by lia. destruct sd, C as [C|[C|C]]; nia.
Qed.
Lemma outranks_before sd a b : outranks sd (l_key a) (l_key b) <-> before sd a b.
Proof. rewrite outranks_key. unfold before. destruct sd; reflexivity. Qed.
Lemma served_quiet sd l E : (forall v, In v E -> resting_trade sd v -> outranks sd (l_key l) (ev_id v) -> False) -> served_first sd l E.
Proof. intros N E1 v E2 -> R O. exfalso. apply (N v); [apply in_or_app; right; left; reflexivity|assumption..]. Qed.
Lemma served_app sd l g r : served_first sd l g -> ended sd l g \/ served_first sd l r -> served_first sd l (g ++ r).
Proof.
  intros SG SR E1 v E2 EQ R O. assert (X : (exists E3, g = E1 ++ v :: E3) \/ exists E3, E1 = g ++ E3 /\ r = E3 ++ v :: E2).
  { clear - EQ. revert E1 EQ. induction g as [|x g IH]; intros E1 EQ; cbn [app] in EQ; [right; exists E1; auto|].
    destruct E1 as [|y E1]; cbn [app] in EQ; injection EQ as E0 EQ; [left; exists g; rewrite E0; reflexivity|]. destruct (IH E1 EQ) as [(E3 & X)|(E3 & X & Y)]; [left; exists E3; cbn [app]; congruence|right; exists E3; cbn [app]; split; congruence]. }
  destruct X as [(E3 & X)|(E3 & X & Y)]; [eapply SG; eassumption|]. subst E1. destruct SR as [(w & I & W)|SR].
  - exists w. split; [apply in_or_app; left; exact I|exact W].
  - destruct (SR E3 v E2 Y R O) as (w & I & W). exists w. split; [apply in_or_app; right; exact I|exact W].
Qed.
Lemma served_nil sd l : served_first sd l [].
Proof. apply served_quiet. intros v []. Qed.
Lemma served_nofill sd l E : (forall v, In v E -> is_fill v = false) -> served_first sd l E.
Proof. intros N. apply served_quiet. intros v I R _. specialize (N v I). destruct v; [discriminate|exact R]. Qed.
Lemma in_filter_app {X} (p : X -> bool) a b : filter p (a ++ b) = filter p a ++ filter p b.
Proof. induction a as [|x a IH]; [reflexivity|]. cbn [filter app]. destruct (p x); [cbn [app]; rewrite IH; reflexivity|exact IH]. Qed.

(** ** The lists of orders *)
Lemma take_from_In k n bk y : In y (take_from k n bk) <->
  (In y bk /\ l_key y <> k) \/ (exists x, In x bk /\ l_key x = k /\ l_qty x <> n /\ y = set_qty x (l_qty x - n)).
Proof.
  unfold take_from. rewrite in_flat_map. split.
  - intros (x & I & Y). destruct (Z.eqb_spec (l_key x) k) as [E|E]; [destruct (Z.eqb_spec (l_qty x) n); [destruct Y|destruct Y as [<-|[]]; right; eauto]|destruct Y as [<-|[]]; left; auto].
  - intros [[I N]|(x & I & E & N & ->)].
    + exists y. split; [assumption|]. destruct (Z.eqb_spec (l_key y) k); [contradiction|left; reflexivity].
    + exists x. split; [assumption|]. rewrite E, Z.eqb_refl. destruct (Z.eqb_spec (l_qty x) n); [contradiction|left; reflexivity].
Qed.
Lemma take_from_sorted b n bk : sorted bk -> In b bk -> sorted (take_from (l_key b) n bk).
Proof.
  intros S I. rewrite <- (shrink_0 b n bk S I). unfold shrink. destruct (l_qty b - n =? 0); [apply ldel_sorted; assumption|apply lset_sorted; assumption].
Qed.
Definition rests_in (bk : list leaf) (l : leaf) (q : Z) : Prop := (0 < q /\ In (set_qty l q) bk) \/ (q = 0 /\ forall y, In y bk -> l_key y <> l_key l).
Lemma lins_keeps bk l q x : sorted bk -> l_key x <> l_key l -> rests_in bk l q -> rests_in (lins x bk) l q.
Proof.
  intros S N [[Q I]|[Q I]]; [left|right]; (split; [assumption|]).
  - apply lins_In_iff; [assumption|]. right. split; [assumption|]. cbn [l_key set_qty]. congruence.
  - intros y H. apply lins_In in H. destruct H as [->|H]; auto.
Qed.
Lemma ldel_keeps bk l q k : l_key l <> k -> rests_in bk l q -> rests_in (ldel k bk) l q.
Proof.
  intros N [[Q I]|[Q I]]; [left|right]; (split; [assumption|]).
  - apply ldel_In. split; [assumption|exact N].
  - intros y H. apply ldel_In in H. apply I, H.
Qed.

(** ** Matching *)
Section Match.
Variables (m : market) (k : taker).
Notation cl := (m_coin_lot m).
Notation pl := (m_pc_lot m).
(** Who is behind an event of an order of the other side. *)
Definition met (l : leaf) (v : event_view) : Prop :=
  (is_fill v = true /\ tk_owner k <> l_owner l) \/ v = released (other (tk_side k)) l false 0 0 \/ (is_fill v = false /\ tk_owner k = l_owner l).

Lemma round_story bk b t g l q : sorted bk -> In b bk -> 0 < t <= l_qty b -> reported cl pl k (b, t) g -> rests_in bk l q ->
  exists q', story m (other (tk_side k)) l q (filter (about (other (tk_side k)) (l_key l)) g) q' /\ rests_in (take_from (l_key b) t bk) l q' /\
    forall v, In v (filter (about (other (tk_side k)) (l_key l)) g) -> met l v.
Proof.
  intros SO IB T RP RE.
  assert (TA : forall v, ev_side v = tk_side k -> about (other (tk_side k)) (l_key l) v = false).
  { intros v E. unfold about. rewrite E. rewrite (proj1 (side_eqb_other (tk_side k))). reflexivity. }
  assert (TF : filter (about (other (tk_side k)) (l_key l)) (if tk_silent k then [] else [taker_fill cl pl k (b, t)]) = []).
  { destruct (tk_silent k); [reflexivity|]. cbn [filter]. rewrite TA; [reflexivity|]. unfold taker_fill. destruct (tk_side k); reflexivity. }
  assert (TO : forall u st, about (other (tk_side k)) (l_key l) (taker_out k u st) = false) by (intros; apply TA; reflexivity).
  assert (TR : forall r, (r = [] \/ exists u, r = [taker_out k u 0]) -> filter (about (other (tk_side k)) (l_key l)) (if tk_silent k then [] else taker_fill cl pl k (b, t) :: r) = []).
  { intros r R. destruct (tk_silent k); [reflexivity|]. cbn [filter]. rewrite TA by (unfold taker_fill; destruct (tk_side k); reflexivity). destruct R as [->|(u & ->)]; [reflexivity|]. cbn [filter]. rewrite TO. reflexivity. }
  destruct (Z.eq_dec (l_key b) (l_key l)) as [EK|NK].
  - (* it is this order *)
    destruct RE as [[Q I]|[_ I]]; [|exfalso; exact (I b IB EK)]. assert (EB : b = set_qty l q) by (eapply sorted_uniq; [exact SO|exact IB|exact I|exact EK]).
    subst b. cbn [l_qty set_qty] in T. cbn [l_key set_qty] in *.
    assert (AB : forall f c, about (other (tk_side k)) (l_key l) (maker_out (other (tk_side k)) f c (set_qty l q)) = true) by (intros; unfold about; cbn [maker_out ev_side ev_id l_key set_qty]; rewrite side_eqb_refl, Z.eqb_refl; reflexivity).
    assert (RQ : rests_in (take_from (l_key l) t bk) l (q - t)).
    { destruct (Z.eq_dec q t) as [->|NE].
      - right. split; [lia|]. intros y Y EY. apply take_from_In in Y. destruct Y as [[_ N]|(x & IX & EX & N & ->)]; [congruence|].
        assert (x = set_qty l t) by (eapply sorted_uniq; [exact SO|exact IX|exact I|exact EX]). subst x. apply N. reflexivity.
      - left. split; [lia|]. apply take_from_In. right. exists (set_qty l q). cbn [l_key l_qty set_qty]. auto. }
    exists (q - t). split; [|split; [exact RQ|]].
    + unfold reported in RP. destruct (self k (set_qty l q, t)) eqn:SF.
      * destruct RP as (u & st & ->). cbn [filter]. rewrite AB, TO. cbn [l_qty l_price set_qty].
        destruct (Z.eq_dec q t) as [->|NE].
        -- replace (t - t) with 0 by lia. assert (Z0 : backing cl pl (other (tk_side k)) 0 (l_price (set_qty l t)) = 0) by (unfold backing; destruct (other (tk_side k)); lia). rewrite Z0.
           exact (story_out m (other (tk_side k)) l t false Q).
        -- exact (story_less m (other (tk_side k)) l q t [] (q - t) ltac:(lia) (story_still _ _ _ _)).
      * destruct RP as (ft & rest & -> & RR). rewrite app_comm_cons, in_filter_app, (TR _ RR), app_nil_r.
        assert (AF : about (other (tk_side k)) (l_key l) (maker_fill cl pl k (set_qty l q, t) ft) = true) by (unfold about, maker_fill; destruct (tk_side k); cbn [other ev_side ev_id side_eqb l_key set_qty fst]; rewrite Z.eqb_refl; reflexivity).
        assert (EF : maker_fill cl pl k (set_qty l q, t) ft = traded m (other (tk_side k)) l t ft) by (unfold maker_fill, traded, part, fetch, value; destruct (tk_side k); reflexivity).
        cbn [filter]. rewrite AF, EF. cbn [l_qty set_qty]. destruct (Z.eqb_spec t q) as [->|NE].
        -- cbn [filter]. rewrite AB. replace (q - q) with 0 by lia. exact (story_sold m (other (tk_side k)) l q ft Q).
        -- cbn [filter]. exact (story_trade m (other (tk_side k)) l q t ft [] (q - t) ltac:(lia) (story_still _ _ _ _)).
    + intros v V. apply filter_In in V. destruct V as [V AV]. unfold reported in RP. destruct (self k (set_qty l q, t)) eqn:SF.
      * unfold self in SF. cbn [fst l_owner set_qty] in SF. destruct RP as (u & st & ->). destruct V as [<-|[<-|[]]]; [|rewrite TO in AV; discriminate]. right. right. split; [reflexivity|lia].
      * unfold self in SF. cbn [fst l_owner set_qty] in SF. destruct RP as (ft & rest & -> & RR). destruct V as [<-|V]; [left; split; [unfold maker_fill; destruct (tk_side k); reflexivity|lia]|].
        apply in_app_or in V. destruct V as [V|V].
        -- destruct (t =? l_qty (set_qty l q)); [|destruct V]. destruct V as [<-|[]]. right. left. reflexivity.
        -- exfalso. assert (X : In v (filter (about (other (tk_side k)) (l_key l)) (if tk_silent k then [] else taker_fill cl pl k (set_qty l q, t) :: rest))) by (apply filter_In; split; assumption). rewrite (TR _ RR) in X. destruct X.
  - (* it is another *)
    assert (AB : forall f c, about (other (tk_side k)) (l_key l) (maker_out (other (tk_side k)) f c b) = false) by (intros; unfold about; cbn [maker_out ev_side ev_id]; replace (l_key b =? l_key l) with false by lia; apply andb_false_r).
    assert (NO : filter (about (other (tk_side k)) (l_key l)) g = []).
    { unfold reported in RP. destruct (self k (b, t)).
      - destruct RP as (u & st & ->). cbn [filter]. rewrite AB, TO. reflexivity.
      - destruct RP as (ft & rest & -> & RR). cbn [filter]. replace (about (other (tk_side k)) (l_key l) (maker_fill cl pl k (b, t) ft)) with false.
        + rewrite in_filter_app, (TR _ RR), app_nil_r. destruct (t =? l_qty b); [|reflexivity]. cbn [filter]. rewrite AB. reflexivity.
        + unfold about, maker_fill. destruct (tk_side k); cbn [ev_side ev_id fst]; replace (l_key b =? l_key l) with false by lia; symmetry; apply andb_false_r. }
    rewrite NO. exists q. split; [apply story_still|]. split; [|intros v []]. destruct RE as [[Q I]|[Q I]]; [left|right]; (split; [assumption|]).
    + apply take_from_In. left. split; [assumption|]. cbn [l_key set_qty]. congruence.
    + intros y Y. apply take_from_In in Y. destruct Y as [[Y _]|(x & IX & EX & _ & ->)]; [auto|]. cbn [l_key set_qty]. congruence.
Qed.
Lemma rounds_story q bk tr q' bk' : rounds k q bk tr q' bk' -> forall gs, Forall2 (reported cl pl k) tr gs -> sorted bk -> sorted bk' /\ forall l n, rests_in bk l n ->
  exists n', story m (other (tk_side k)) l n (filter (about (other (tk_side k)) (l_key l)) (concat gs)) n' /\ rests_in bk' l n' /\
    forall v, In v (filter (about (other (tk_side k)) (l_key l)) (concat gs)) -> met l v.
Proof.
  induction 1 as [q bk|q bk b t tr q' bk' B W T U A1 A2 R IH]; intros gs F SO; inversion F as [|? g ? gs' RG F']; subst; cbn [concat].
  - split; [assumption|]. intros l n RE. exists n. split; [apply story_still|]. split; [assumption|intros v []].
  - pose proof (proj1 B) as IB. destruct (IH gs' F' (take_from_sorted b t bk SO IB)) as [S' IH']. split; [exact S'|]. intros l n RE.
    destruct (round_story bk b t g l n SO IB T RG RE) as (n1 & S1 & R1 & M1). destruct (IH' l n1 R1) as (n2 & S2 & R2 & M2). exists n2. rewrite in_filter_app. split; [eapply story_app; eassumption|]. split; [exact R2|].
    intros v V. apply in_app_or in V. destruct V; auto.
Qed.
(** The best order is met first. *)
Lemma round_served bk b t g l n : best_of (other (tk_side k)) b bk -> reported cl pl k (b, t) g -> rests_in bk l n -> 0 < n -> served_first (other (tk_side k)) l g.
Proof.
  intros B RP RE N. apply served_quiet. intros v I R O. destruct RE as [[_ RE]|[RE _]]; [|lia].
  assert (EV : ev_id v = l_key b).
  { unfold reported in RP. destruct (self k (b, t)).
    - destruct RP as (u & st & ->). destruct I as [<-|[<-|[]]]; destruct R.
    - destruct RP as (ft & rest & -> & RR). destruct I as [<-|I]; [unfold maker_fill; destruct (tk_side k); reflexivity|]. exfalso. apply in_app_or in I. destruct I as [I|I].
      + destruct (t =? l_qty b); [destruct I as [<-|[]]; destruct R|destruct I].
      + destruct (tk_silent k); [destruct I|]. destruct I as [<-|I]; [unfold taker_fill in R; destruct (tk_side k); destruct R; discriminate|]. destruct RR as [->|(u & ->)]; [destruct I|]. destruct I as [<-|[]]; destruct R. }
  rewrite EV in O. apply outranks_before in O. destruct (proj2 B _ RE) as [<-|X]; unfold before in *; cbn [l_key set_qty] in *; destruct (other (tk_side k)); lia.
Qed.
Lemma rounds_served q bk tr q' bk' : rounds k q bk tr q' bk' -> forall gs, Forall2 (reported cl pl k) tr gs -> sorted bk -> forall l n, rests_in bk l n -> 0 < n -> served_first (other (tk_side k)) l (concat gs).
Proof.
  induction 1 as [q bk|q bk b t tr q' bk' B W T U A1 A2 R IH]; intros gs F SO l n RE N; inversion F as [|? g ? gs' RG F']; subst; cbn [concat]; [apply served_nil|].
  pose proof (proj1 B) as IB. destruct (round_story bk b t g l n SO IB T RG RE) as (n1 & S1 & R1 & M1). apply served_app; [eapply round_served; eassumption|].
  destruct (Z.eq_dec n1 0) as [Z0|NZ]; [left; eapply story_ended; eassumption|right]. apply (IH gs' F' (take_from_sorted b t bk SO IB) l n1 R1). destruct R1 as [[? _]|[? _]]; lia.
Qed.
Lemma rounds_served_own tr gs l : Forall2 (reported cl pl k) tr gs -> served_first (tk_side k) l (concat gs).
Proof.
  intros F. apply served_quiet. intros v I R _. apply in_concat in I. destruct I as (g & IG & I). revert g IG I. induction F as [|[b t] g0 tr gs RG F IH]; intros g IG I; [destruct IG|]. destruct IG as [->|IG]; [|eauto]. clear IH.
  unfold reported in RG. destruct (self k (b, t)).
  - destruct RG as (u & st & ->). destruct I as [<-|[<-|[]]]; destruct R.
  - destruct RG as (ft & rest & -> & RR). destruct I as [<-|I]; [unfold maker_fill in R; destruct (tk_side k); destruct R; discriminate|]. apply in_app_or in I. destruct I as [I|I].
    + destruct (t =? l_qty b); [destruct I as [<-|[]]; destruct R|destruct I].
    + destruct (tk_silent k); [destruct I|]. destruct I as [<-|I]; [unfold taker_fill in R; destruct (tk_side k); destruct R; discriminate|]. destruct RR as [->|(u & ->)]; [destruct I|]. destruct I as [<-|[]]; destruct R.
Qed.
Lemma finish_nofill hr al can opp own own' E n : finish cl pl k hr al can opp own own' E n -> forall v, In v E -> is_fill v = false.
Proof.
  intros F v I. assert (Q1 : forall E0, (E0 = [] \/ (tk_silent k = false /\ exists u st, E0 = [taker_out k u st])) -> In v E0 -> is_fill v = false) by (intros E0 [->|(_ & u & st & ->)] []; [subst; reflexivity|contradiction]).
  inversion F as [E0 HE HC|l0 E0 AL CN NX HR EL HE|l0 w E0 AL CN NX HR EL WO HE]; subst.
  - apply (Q1 E); [destruct HE as [->|(? & u & ->)]; [auto|right; eauto]|assumption].
  - apply (Q1 E); assumption.
  - apply in_app_or in I. destruct I as [I|[<-|[]]]; [apply (Q1 E0); assumption|reflexivity].
Qed.
(** Every event names the incoming order or one that was on the book. *)
Lemma take_from_come b n bk y : In y (take_from b n bk) -> exists l q, In l bk /\ y = set_qty l q.
Proof. intros I. apply take_from_In in I. destruct I as [[I _]|(x & I & _ & _ & ->)]; [exists y, (l_qty y); rewrite set_qty_same; auto|eauto]. Qed.
Lemma rounds_come q bk tr q' bk' : rounds k q bk tr q' bk' -> forall y, In y bk' -> exists l n, In l bk /\ y = set_qty l n.
Proof.
  induction 1 as [q bk|q bk b t tr q' bk' B W T U A1 A2 R IH]; intros y I; [exists y, (l_qty y); rewrite set_qty_same; auto|]. destruct (IH y I) as (l & n & I1 & ->). apply take_from_come in I1. destruct I1 as (l0 & n0 & I0 & ->). exists l0, n. auto.
Qed.
Lemma rounds_heard q bk tr q' bk' : rounds k q bk tr q' bk' -> forall gs, Forall2 (reported cl pl k) tr gs -> forall v, In v (concat gs) ->
  ev_owner v = tk_owner k \/ exists l, In l bk /\ ev_owner v = l_owner l /\ about (other (tk_side k)) (l_key l) v = true.
Proof.
  induction 1 as [q bk|q bk b t tr q' bk' B W T U A1 A2 R IH]; intros gs F v I; inversion F as [|? g ? gs' RG F']; subst; cbn [concat] in I; [destruct I|]. apply in_app_or in I. destruct I as [I|I].
  - pose proof (proj1 B) as IB. assert (MO : forall f c, about (other (tk_side k)) (l_key b) (maker_out (other (tk_side k)) f c b) = true) by (intros; unfold about; cbn [maker_out ev_side ev_id]; rewrite side_eqb_refl, Z.eqb_refl; reflexivity).
    unfold reported in RG. destruct (self k (b, t)).
    + destruct RG as (u & st & ->). destruct I as [<-|[<-|[]]]; [right; exists b; split; [assumption|]; split; [reflexivity|apply MO]|left; reflexivity].
    + destruct RG as (ft & rest & -> & RR). destruct I as [<-|I].
      * right. exists b. split; [assumption|]. unfold about, maker_fill. destruct (tk_side k); cbn [ev_owner ev_side ev_id side_eqb other fst]; rewrite Z.eqb_refl; auto.
      * apply in_app_or in I. destruct I as [I|I].
        -- destruct (t =? l_qty b); [|destruct I]. destruct I as [<-|[]]. right. exists b. split; [assumption|]. split; [reflexivity|apply MO].
        -- left. destruct (tk_silent k); [destruct I|]. destruct I as [<-|I]; [unfold taker_fill; destruct (tk_side k); reflexivity|]. destruct RR as [->|(u & ->)]; [destruct I|]. destruct I as [<-|[]]. reflexivity.
  - destruct (IH gs' F' v I) as [X|(l & I1 & X)]; [left; exact X|right]. apply take_from_come in I1. destruct I1 as (l0 & n0 & I0 & ->). exists l0. auto.
Qed.
Lemma finish_heard hr al can opp own own' E n : finish cl pl k hr al can opp own own' E n -> forall v, In v E -> ev_owner v = tk_owner k \/ exists l, In l own /\ ev_owner v = l_owner l /\ about (tk_side k) (l_key l) v = true.
Proof.
  intros F v I. assert (Q1 : forall E0, (E0 = [] \/ (tk_silent k = false /\ exists u st, E0 = [taker_out k u st])) -> In v E0 -> ev_owner v = tk_owner k) by (intros E0 [->|(_ & u & st & ->)] []; [subst; reflexivity|contradiction]).
  inversion F as [E0 HE HC|l0 E0 AL CN NX HR EL HE|l0 w E0 AL CN NX HR EL WO HE]; subst.
  - left. apply (Q1 E); [destruct HE as [->|(? & u & ->)]; [auto|right; eauto]|assumption].
  - left. apply (Q1 E); assumption.
  - apply in_app_or in I. destruct I as [I|[<-|[]]]; [left; apply (Q1 E0); assumption|right]. exists w. split; [apply WO|]. split; [reflexivity|]. unfold about. cbn [maker_out ev_side ev_id]. rewrite side_eqb_refl, Z.eqb_refl. reflexivity.
Qed.
Lemma finish_come hr al can opp own own' E n : finish cl pl k hr al can opp own own' E n -> forall y, In y own' -> l_owner y = tk_owner k \/ In y own.
Proof.
  intros F y I. inversion F as [E0 HE HC|l0 E0 AL CN NX HR EL HE|l0 w E0 AL CN NX HR EL WO HE]; subst; [auto| |]; apply lins_In in I; destruct I as [->|I]; auto.
  apply ldel_In in I. right. apply I.
Qed.
(** Orders of the same side are not met. *)
Lemma rounds_quiet tr gs id : Forall2 (reported cl pl k) tr gs -> id <> tk_id k -> filter (about (tk_side k) id) (concat gs) = [].
Proof.
  intros F N. induction F as [|[b t] g tr gs RG F IH]; [reflexivity|]. cbn [concat]. rewrite in_filter_app, IH, app_nil_r.
  assert (AO : forall f c, about (tk_side k) id (maker_out (other (tk_side k)) f c b) = false) by (intros; unfold about; cbn [maker_out ev_side]; rewrite (proj2 (side_eqb_other (tk_side k))); reflexivity).
  assert (TO : forall u st, about (tk_side k) id (taker_out k u st) = false) by (intros; unfold about; cbn [taker_out ev_id]; replace (tk_id k =? id) with false by lia; apply andb_false_r).
  unfold reported in RG. destruct (self k (b, t)).
  - destruct RG as (u & st & ->). cbn [filter]. rewrite AO, TO. reflexivity.
  - destruct RG as (ft & rest & -> & RR). cbn [filter]. replace (about (tk_side k) id (maker_fill cl pl k (b, t) ft)) with false by (unfold about, maker_fill; destruct (tk_side k); reflexivity).
    rewrite in_filter_app. assert (X : filter (about (tk_side k) id) (if t =? l_qty b then [maker_out (other (tk_side k)) 0 0 b] else []) = []) by (destruct (t =? l_qty b); [cbn [filter]; rewrite AO|]; reflexivity). rewrite X. cbn [app].
    destruct (tk_silent k); [reflexivity|]. cbn [filter]. replace (about (tk_side k) id (taker_fill cl pl k (b, t))) with false by (unfold about, taker_fill; destruct (tk_side k); cbn [ev_side ev_id]; replace (tk_id k =? id) with false by lia; symmetry; apply andb_false_r).
    destruct RR as [->|(u & ->)]; [reflexivity|]. cbn [filter]. rewrite TO. reflexivity.
Qed.
(** The end of an order: nothing happens to the other side; one order of its own side may have to leave. *)
Lemma finish_story hr al can opp own own' E n : finish cl pl k hr al can opp own own' E n -> sorted own ->
  sorted own' /\ (forall id, filter (about (other (tk_side k)) id) E = []) /\
  forall l q, l_key l <> tk_id k -> rests_in own l q ->
    exists q', story m (tk_side k) l q (filter (about (tk_side k) (l_key l)) E) q' /\ rests_in own' l q' /\
      forall v, In v (filter (about (tk_side k) (l_key l)) E) -> (0 < q /\ v = released (tk_side k) l false (part m (tk_side k) l q) 0) /\ ~ hr /\ worst_of (tk_side k) (set_qty l q) own.
Proof.
  intros F SO. assert (TO : forall id u st, id <> tk_id k -> about (tk_side k) id (taker_out k u st) = false) by (intros; unfold about; cbn [taker_out ev_id]; replace (tk_id k =? id) with false by lia; apply andb_false_r).
  assert (TX : forall id u st, about (other (tk_side k)) id (taker_out k u st) = false) by (intros; unfold about; cbn [taker_out ev_side]; rewrite (proj1 (side_eqb_other (tk_side k))); reflexivity).
  assert (MX : forall id f c w, about (other (tk_side k)) id (maker_out (tk_side k) f c w) = false) by (intros; unfold about; cbn [maker_out ev_side]; rewrite (proj1 (side_eqb_other (tk_side k))); reflexivity).
  assert (Q1 : forall E0, (E0 = [] \/ (tk_silent k = false /\ exists u st, E0 = [taker_out k u st])) -> (forall id, filter (about (other (tk_side k)) id) E0 = []) /\ (forall id, id <> tk_id k -> filter (about (tk_side k) id) E0 = [])).
  { intros E0 [->|(_ & u & st & ->)]; [split; reflexivity|]. split; intros id; [|intros N]; cbn [filter]; [rewrite TX|rewrite TO by assumption]; reflexivity. }
  inversion F as [E0 HE HC|l0 E0 AL CN NX HR EL HE|l0 w E0 AL CN NX HR EL WO HE]; subst.
  - destruct (Q1 E) as [X1 X2]; [destruct HE as [->|(S & u & ->)]; [auto|right; eauto]|]. split; [assumption|]. split; [exact X1|]. intros l q N RE. rewrite X2 by assumption. exists q. split; [apply story_still|]. split; [assumption|intros v []].
  - destruct (Q1 E HE) as [X1 X2]. split; [apply lins_sorted; assumption|]. split; [exact X1|]. intros l q N RE. rewrite X2 by assumption. exists q. split; [apply story_still|]. split; [|intros v []].
    apply lins_keeps; [assumption|cbn [l_key]; congruence|assumption].
  - destruct (Q1 E0 HE) as [X1 X2]. split; [apply lins_sorted, ldel_sorted; assumption|]. split.
    + intros id. rewrite in_filter_app, X1. cbn [filter app]. rewrite MX. reflexivity.
    + intros l q N RE. rewrite in_filter_app, (X2 _ N). cbn [app filter]. destruct (Z.eq_dec (l_key w) (l_key l)) as [EK|NK].
      * destruct RE as [[Q I]|[_ I]]; [|exfalso; exact (I w (proj1 WO) EK)]. assert (w = set_qty l q) by (eapply sorted_uniq; [exact SO|exact (proj1 WO)|exact I|exact EK]). subst w.
        assert (AB : about (tk_side k) (l_key l) (maker_out (tk_side k) (backing cl pl (tk_side k) (l_qty (set_qty l q)) (l_price (set_qty l q))) 0 (set_qty l q)) = true) by (unfold about; cbn [maker_out ev_side ev_id l_key set_qty]; rewrite side_eqb_refl, Z.eqb_refl; reflexivity).
        rewrite AB. exists 0. split; [exact (story_out m (tk_side k) l q false Q)|]. split.
        -- right. split; [reflexivity|]. intros y Y. apply lins_In in Y. destruct Y as [->|Y]; [cbn [l_key]; congruence|]. apply ldel_In in Y. cbn [l_key set_qty] in Y. apply Y.
        -- intros v [<-|[]]. split; [split; [exact Q|reflexivity]|]. split; assumption.
      * assert (AB : about (tk_side k) (l_key l) (maker_out (tk_side k) (backing cl pl (tk_side k) (l_qty w) (l_price w)) 0 w) = false) by (unfold about; cbn [maker_out ev_id]; replace (l_key w =? l_key l) with false by lia; apply andb_false_r).
        rewrite AB. exists q. split; [apply story_still|]. split; [|intros v []]. apply lins_keeps; [apply ldel_sorted; assumption|cbn [l_key]; congruence|]. apply ldel_keeps; [congruence|assumption].
Qed.
End Match.
