(** What a trader can gain and lose by the orders of an account (C74). *)
From Coq Require Import Permutation.
From Verif Require Import Base BaseProofs Fees ListSum Queue QueueProofs Codec CodecProofs Critbit CritbitProofs CritbitSlab Market Matching MatchSteps MatchSpec MatchFacts MatchReport MatchRefine MatchAsk MatchBid MatchRun Ledger LedgerSums LedgerSteps LedgerRun Slots
  Core CoreInv CoreNew CoreOrder CoreCancel CoreConsume CoreSettle CoreFrame Instr InstrProofs Store Process StoreProofs World WorldInv WorldLoad WorldRun WorldStep WorldStep2 WorldConsume WorldInit WorldMain WorldSpec WorldFacts
  WorldRange WorldCancel WorldPay WorldTrade WorldCrank WorldOpen WorldAuth WorldRights WorldSizes WorldIsolate WorldSupply LifeSpec LifeProofs LifeSteps LifeMain AbsentSpec AbsentProofs StatementSpec StatementProofs OpenSpec ExposureSpec.

Definition fine (bk : list leaf) : Prop := sorted bk /\ forall l, In l bk -> 0 < l_qty l /\ 0 < l_price l.

(** ** What is open on a side against what is traded *)
Section Measure.
Variables (cl pl : Z) (s0 : side) (c : Z -> Z) (h : event_view -> Z) (u : taker -> round -> Z).
Hypothesis hn : forall v, is_fill v = false -> h v = 0.
Hypothesis hm : forall k b t ft, h (maker_fill cl pl k (b, t) ft) = if side_eqb (other (tk_side k)) s0 then t * c (l_price b) else 0.
Hypothesis ht : forall k x, h (taker_fill cl pl k x) = if side_eqb (tk_side k) s0 then u k x else 0.
Hypothesis cn : forall p, 0 < p -> 0 <= c p.
Definition weight (y : Z) (l : leaf) : Z := if l_owner l =? y then l_qty l * c (l_price l) else 0.
Lemma weight_nonneg y l : 0 < l_qty l /\ 0 < l_price l -> 0 <= weight y l.
Proof. intros [Q R]. unfold weight. pose proof (cn _ R). destruct (l_owner l =? y); nia. Qed.
Lemma take_weight y bk b t : fine bk -> In b bk -> 0 < t <= l_qty b ->
  fine (take_from (l_key b) t bk) /\ zsum (weight y) (take_from (l_key b) t bk) = zsum (weight y) bk - (if l_owner b =? y then t * c (l_price b) else 0).
Proof.
  intros [SO PO] I T. split.
  - split; [apply take_from_sorted; assumption|]. intros l IL. apply take_from_In in IL. destruct IL as [[IL _]|(z & IZ & EK & NQ & ->)]; [auto|]. assert (z = b) by (eapply sorted_uniq; eassumption). subst z.
    destruct (PO b I). change (l_price (set_qty b (l_qty b - t))) with (l_price b). cbn [l_qty set_qty]. lia.
  - rewrite <- (shrink_0 b t bk SO I). unfold shrink. destruct (Z.eqb_spec (l_qty b - t) 0) as [Z0|Z0].
    + rewrite zsum_ldel by assumption. unfold weight at 2. replace (l_qty b) with t by lia. reflexivity.
    + rewrite (zsum_lset (weight y) b) by (try assumption; reflexivity). unfold weight at 2 3. change (l_price (set_qty b (l_qty b - t))) with (l_price b). cbn [l_owner l_qty set_qty]. destruct (l_owner b =? y); lia.
Qed.
Definition tu (k : taker) (x : round) : Z := if self k x then 0 else u k x.
Lemma none_sum y E : (forall v, In v E -> is_fill v = false) -> zsum h (events_of y E) = 0.
Proof. intros N. apply zsum_zero. intros v I. apply filter_In in I. apply hn, N, I. Qed.
Lemma round_events y k b t g : reported cl pl k (b, t) g ->
  zsum h (events_of y g) = (if self k (b, t) then 0 else if (l_owner b =? y) && side_eqb (other (tk_side k)) s0 then t * c (l_price b) else 0) +
    (if negb (tk_silent k) && (tk_owner k =? y) && side_eqb (tk_side k) s0 then tu k (b, t) else 0).
Proof.
  unfold reported, tu. destruct (self k (b, t)).
  - intros (v & w & ->). rewrite none_sum; [destruct (negb (tk_silent k) && (tk_owner k =? y) && side_eqb (tk_side k) s0); reflexivity|]. intros x [<-|[<-|[]]]; reflexivity.
  - intros (ft & rest & -> & R).
    assert (MF : ev_owner (maker_fill cl pl k (b, t) ft) = l_owner b) by (unfold maker_fill; destruct (tk_side k); reflexivity).
    assert (TF : ev_owner (taker_fill cl pl k (b, t)) = tk_owner k) by (unfold taker_fill; destruct (tk_side k); reflexivity).
    match goal with |- zsum h (events_of y (?x :: ?a ++ ?r)) = _ => change (x :: a ++ r) with ([x] ++ a ++ r) end. rewrite !events_app, !zsum_app.
    assert (X1 : zsum h (events_of y [maker_fill cl pl k (b, t) ft]) = if (l_owner b =? y) && side_eqb (other (tk_side k)) s0 then t * c (l_price b) else 0).
    { unfold events_of. cbn [filter]. rewrite MF. destruct (l_owner b =? y); [|reflexivity]. cbn [zsum andb]. rewrite hm. destruct (side_eqb (other (tk_side k)) s0); lia. }
    assert (X2 : zsum h (events_of y (if t =? l_qty b then [maker_out (other (tk_side k)) 0 0 b] else [])) = 0) by (apply none_sum; destruct (t =? l_qty b); [intros v [<-|[]]; reflexivity|intros v []]).
    assert (X3 : zsum h (events_of y (if tk_silent k then [] else taker_fill cl pl k (b, t) :: rest)) = if negb (tk_silent k) && (tk_owner k =? y) && side_eqb (tk_side k) s0 then u k (b, t) else 0).
    { destruct (tk_silent k); [reflexivity|]. cbn [negb andb]. change (taker_fill cl pl k (b, t) :: rest) with ([taker_fill cl pl k (b, t)] ++ rest). rewrite events_app, zsum_app.
      rewrite (none_sum y rest) by (destruct R as [->|(v & ->)]; [intros v []|intros w [<-|[]]; reflexivity]). unfold events_of. cbn [filter]. rewrite TF. destruct (tk_owner k =? y); [|reflexivity]. cbn [zsum andb]. rewrite ht. destruct (side_eqb (tk_side k) s0); lia. }
    rewrite X1, X2, X3. lia.
Qed.
Lemma met_weight y k q bk tr q' bk' : rounds k q bk tr q' bk' -> forall gs, Forall2 (reported cl pl k) tr gs -> other (tk_side k) = s0 -> fine bk ->
  fine bk' /\ zsum (weight y) bk' + zsum h (events_of y (concat gs)) <= zsum (weight y) bk.
Proof.
  induction 1 as [q bk|q bk b t tr q' bk' B _ T _ _ _ R IH]; intros gs F; inversion F as [|? g ? gs' RG F']; subst; intros OS FB; cbn [concat].
  - split; [exact FB|]. cbn [events_of filter zsum]. lia.
  - destruct (take_weight y bk b t FB (proj1 B) T) as [FB1 W1]. destruct (IH gs' F' OS FB1) as [FB2 W2]. split; [exact FB2|]. rewrite events_app, zsum_app. rewrite (round_events y k b t g RG), <- OS, side_eqb_refl.
    rewrite (proj1 (side_eqb_other (tk_side k))), andb_false_r. rewrite andb_true_r. destruct (proj2 FB b (proj1 B)) as [_ PB]. pose proof (cn _ PB). destruct (self k (b, t)), (l_owner b =? y); nia.
Qed.
Lemma sent_weight y k tr gs : Forall2 (reported cl pl k) tr gs -> tk_side k = s0 ->
  zsum h (events_of y (concat gs)) = if negb (tk_silent k) && (tk_owner k =? y) then zsum (tu k) tr else 0.
Proof.
  intros F OS. induction F as [|[b t] g tr gs RG F IH]; [cbn; destruct (negb (tk_silent k) && (tk_owner k =? y)); reflexivity|]. cbn [concat zsum]. rewrite events_app, zsum_app, IH, (round_events y k b t g RG), <- OS, side_eqb_refl, (proj2 (side_eqb_other (tk_side k))), andb_false_r, andb_true_r.
  destruct (self k (b, t)); destruct (negb (tk_silent k) && (tk_owner k =? y)); lia.
Qed.
Lemma rest_weight y k hr al can opp own own' E n : finish cl pl k hr al can opp own own' E n -> fine own -> (forall l, In l own -> l_key l <> tk_id k) -> 0 < tk_limit k ->
  fine own' /\ zsum (weight y) own' <= zsum (weight y) own + (if tk_owner k =? y then n * c (tk_limit k) else 0) /\ (n = 0 \/ n = can /\ 0 < can).
Proof.
  intros F FB FR PL. assert (NW : forall l, l = mkLeaf (tk_slot k) (tier_to_u8 (tk_tier k)) (tk_id k) (tk_owner k) can (tk_cid k) -> weight y l = if tk_owner k =? y then can * c (tk_limit k) else 0) by (intros l ->; reflexivity).
  inversion F as [E0 HE HC|l0 E0 AL CN NX HR EL HE|l0 w E0 AL CN NX HR EL WO HE]; subst.
  - split; [exact FB|]. split; [destruct (tk_owner k =? y); lia|auto].
  - destruct FB as [SO PO]. split; [split; [apply lins_sorted; assumption|]|].
    + intros l I. apply lins_In in I. destruct I as [->|I]; [cbn [l_qty]; split; [assumption|exact PL]|auto].
    + split; [|auto]. rewrite zsum_lins; [rewrite (NW _ eq_refl); lia|assumption|]. apply lfind_None. exact FR.
  - destruct FB as [SO PO]. pose proof (ldel_sorted (l_key w) own SO) as SD. split; [split; [apply lins_sorted; assumption|]|].
    + intros l I. apply lins_In in I. destruct I as [->|I]; [cbn [l_qty]; split; [assumption|exact PL]|apply ldel_In in I; apply PO, I].
    + split; [|auto]. rewrite zsum_lins; [rewrite (NW _ eq_refl), zsum_ldel by (try assumption; apply WO)|assumption|].
      * pose proof (weight_nonneg y w (PO w (proj1 WO))). lia.
      * apply lfind_None. intros l I. apply ldel_In in I. apply FR, I.
Qed.
Lemma drop_weight y ls bk : fine bk -> fine (drop ls bk) /\ zsum (weight y) (drop ls bk) <= zsum (weight y) bk.
Proof.
  intros [SO PO]. split; [split; [apply filter_sorted; assumption|intros l I; apply filter_In in I; apply PO, I]|]. unfold drop. rewrite zsum_filter. apply zsum_le. intros l I. pose proof (weight_nonneg y l (PO l I)). destruct (negb (existsb (fun l0 => l_key l0 =? l_key l) ls)); lia.
Qed.
End Measure.

(** ** The three measures *)
Definition buys (k : taker) (cl : Z) (x : round) : Z := snd x * cl.
Definition pays (pl : Z) (k : taker) (x : round) : Z := value pl x + taker_fee (tk_tier k) (value pl x).
Lemma open_coin_weight m x bk : open_coin m x bk = zsum (weight (fun _ => m_coin_lot m) x) bk.
Proof. unfold open_coin, own_orders. rewrite zsum_filter. reflexivity. Qed.
Lemma open_cost_weight m x bk : open_cost m x bk = zsum (weight (fun p => p * m_pc_lot m) x) bk.
Proof. unfold open_cost, own_orders. rewrite zsum_filter. apply zsum_ext. intros l _. unfold weight. destruct (l_owner l =? x); lia. Qed.
Definition fines (A : astate) : Prop := fine (a_bids A) /\ fine (a_asks A).
Definition holds (y : Z) (m : market) (A A' : astate) (E : list event_view) (B : list order_ix) : Prop :=
  zsum bought (events_of y E) + open_coin m y (a_bids A') <= open_coin m y (a_bids A) + zsum (to_buy m) B /\
  zsum sold (events_of y E) + open_coin m y (a_asks A') <= open_coin m y (a_asks A) + zsum (to_sell m) B /\
  zsum spent (events_of y E) + open_cost m y (a_bids A') <= open_cost m y (a_bids A) + zsum to_spend B.
Lemma holds_trans y m A A1 A' E1 E2 B1 B2 : holds y m A A1 E1 B1 -> holds y m A1 A' E2 B2 -> holds y m A A' (E1 ++ E2) (B1 ++ B2).
Proof. unfold holds. rewrite events_app, !zsum_app. lia. Qed.
Lemma holds_still y m A A' : (forall sd, book_of A' sd = book_of A sd) -> holds y m A A' [] [].
Proof. intros EB. pose proof (EB Bid) as E1. pose proof (EB Ask) as E2. cbn [book_of] in E1, E2. unfold holds. rewrite E1, E2. cbn [events_of filter zsum]. lia. Qed.
Lemma holds_ext y m m' A A2 A' A2' E B : m_coin_lot m' = m_coin_lot m -> m_pc_lot m' = m_pc_lot m -> (forall sd, book_of A2 sd = book_of A sd) -> (forall sd, book_of A2' sd = book_of A' sd) -> holds y m A A' E B -> holds y m' A2 A2' E B.
Proof.
  intros M1 M2 B1 B2. pose proof (B1 Bid) as E1. pose proof (B1 Ask) as E2. pose proof (B2 Bid) as E3. pose proof (B2 Ask) as E4. cbn [book_of] in *. unfold holds, open_coin, open_cost, to_buy, to_sell. rewrite E1, E2, E3, E4, M1, M2. auto.
Qed.
Lemma fines_ext A A' : (forall sd, book_of A' sd = book_of A sd) -> fines A -> fines A'.
Proof. intros EB. pose proof (EB Bid) as E1. pose proof (EB Ask) as E2. cbn [book_of] in *. unfold fines. rewrite E1, E2. auto. Qed.

Section Lots.
Variable m : market.
Hypothesis CP : 0 < m_coin_lot m /\ 0 < m_pc_lot m.
Notation cl := (m_coin_lot m). Notation pl := (m_pc_lot m).
Definition buy_u (k : taker) (x : round) : Z := snd x * cl.
Definition pay_u (k : taker) (x : round) : Z := value pl x + taker_fee (tk_tier k) (value pl x).
Lemma sum_buy k tr : zsum (tu buy_u k) tr = zsum (tr_coin k) tr * cl.
Proof. induction tr as [|x tr IH]; [reflexivity|]. cbn [zsum]. rewrite IH. unfold tu, buy_u, tr_coin at 2. destruct (self k x); lia. Qed.
Lemma sum_pay k tr : zsum (tu pay_u k) tr = zsum (tr_value pl k) tr + zsum (tr_fee pl k) tr.
Proof. induction tr as [|x tr IH]; [reflexivity|]. cbn [zsum]. rewrite IH. unfold tu, pay_u, tr_value at 2, tr_fee at 2. destruct (self k x); lia. Qed.
Lemma bought_n v : is_fill v = false -> bought v = 0. Proof. destruct v; [discriminate|reflexivity]. Qed.
Lemma sold_n v : is_fill v = false -> sold v = 0. Proof. destruct v; [discriminate|reflexivity]. Qed.
Lemma spent_n v : is_fill v = false -> spent v = 0. Proof. destruct v; [discriminate|reflexivity]. Qed.
Lemma bought_m k b t ft : bought (maker_fill cl pl k (b, t) ft) = if side_eqb (other (tk_side k)) Bid then t * cl else 0. Proof. unfold maker_fill. destruct (tk_side k); reflexivity. Qed.
Lemma sold_m k b t ft : sold (maker_fill cl pl k (b, t) ft) = if side_eqb (other (tk_side k)) Ask then t * cl else 0. Proof. unfold maker_fill. destruct (tk_side k); reflexivity. Qed.
Lemma spent_m k b t ft : spent (maker_fill cl pl k (b, t) ft) = if side_eqb (other (tk_side k)) Bid then t * (l_price b * pl) else 0. Proof. unfold maker_fill, value. destruct (tk_side k); cbn [spent other side_eqb fst snd]; lia. Qed.
Lemma bought_t k x : bought (taker_fill cl pl k x) = if side_eqb (tk_side k) Bid then buy_u k x else 0. Proof. unfold taker_fill. destruct (tk_side k); reflexivity. Qed.
Lemma sold_t k x : sold (taker_fill cl pl k x) = if side_eqb (tk_side k) Ask then buy_u k x else 0. Proof. unfold taker_fill. destruct (tk_side k); reflexivity. Qed.
Lemma spent_t k x : spent (taker_fill cl pl k x) = if side_eqb (tk_side k) Bid then pay_u k x else 0. Proof. unfold taker_fill. destruct (tk_side k); reflexivity. Qed.
Lemma pos_c p : 0 < p -> 0 <= cl. Proof. lia. Qed.
Lemma pos_p p : 0 < p -> 0 <= p * pl. Proof. nia. Qed.

(** The incoming order [k] meets the other side of the book. *)
Lemma met_bids y k q tr q' bk bk' gs : rounds k q bk tr q' bk' -> Forall2 (reported cl pl k) tr gs -> tk_side k = Ask -> fine bk ->
  fine bk' /\ zsum bought (events_of y (concat gs)) + open_coin m y bk' <= open_coin m y bk /\ zsum spent (events_of y (concat gs)) + open_cost m y bk' <= open_cost m y bk.
Proof.
  intros R F SD FB. assert (OS : other (tk_side k) = Bid) by (rewrite SD; reflexivity). rewrite !open_coin_weight, !open_cost_weight.
  destruct (met_weight cl pl Bid (fun _ => cl) bought buy_u bought_n bought_m bought_t pos_c y k q bk tr q' bk' R gs F OS FB) as [F1 W1].
  destruct (met_weight cl pl Bid (fun p => p * pl) spent pay_u spent_n spent_m spent_t pos_p y k q bk tr q' bk' R gs F OS FB) as [_ W2]. split; [exact F1|]. lia.
Qed.
Lemma met_asks y k q tr q' bk bk' gs : rounds k q bk tr q' bk' -> Forall2 (reported cl pl k) tr gs -> tk_side k = Bid -> fine bk ->
  fine bk' /\ zsum sold (events_of y (concat gs)) + open_coin m y bk' <= open_coin m y bk.
Proof.
  intros R F SD FB. assert (OS : other (tk_side k) = Ask) by (rewrite SD; reflexivity). rewrite !open_coin_weight.
  destruct (met_weight cl pl Ask (fun _ => cl) sold buy_u sold_n sold_m sold_t pos_c y k q bk tr q' bk' R gs F OS FB) as [F1 W1]. split; [exact F1|]. lia.
Qed.
Lemma sent_bid y k tr gs : Forall2 (reported cl pl k) tr gs -> tk_side k = Bid ->
  zsum bought (events_of y (concat gs)) = (if negb (tk_silent k) && (tk_owner k =? y) then zsum (tr_coin k) tr * cl else 0) /\
  zsum spent (events_of y (concat gs)) = if negb (tk_silent k) && (tk_owner k =? y) then zsum (tr_value pl k) tr + zsum (tr_fee pl k) tr else 0.
Proof.
  intros F SD. rewrite <- sum_pay, <- sum_buy. split.
  - exact (sent_weight cl pl Bid (fun _ => cl) bought buy_u bought_n bought_m bought_t y k tr gs F SD).
  - exact (sent_weight cl pl Bid (fun p => p * pl) spent pay_u spent_n spent_m spent_t y k tr gs F SD).
Qed.
Lemma sent_ask y k tr gs : Forall2 (reported cl pl k) tr gs -> tk_side k = Ask ->
  zsum sold (events_of y (concat gs)) = if negb (tk_silent k) && (tk_owner k =? y) then zsum (tr_coin k) tr * cl else 0.
Proof. intros F SD. rewrite <- sum_buy. exact (sent_weight cl pl Ask (fun _ => cl) sold buy_u sold_n sold_m sold_t y k tr gs F SD). Qed.
Lemma quiet_end y E : (forall v, In v E -> is_fill v = false) -> zsum bought (events_of y E) = 0 /\ zsum sold (events_of y E) = 0 /\ zsum spent (events_of y E) = 0.
Proof. intros N. split; [exact (none_sum bought bought_n y E N)|]. split; [exact (none_sum sold sold_n y E N)|exact (none_sum spent spent_n y E N)]. Qed.
End Lots.

Section Main.
Variable e : env.
Hypothesis EO : env_ok e.
Notation D := (dexd e).
Notation acct := (Z * open_orders)%type.
Definition lots_pos (m : market) : Prop := 0 < m_coin_lot m /\ 0 < m_pc_lot m.

Lemma orders_holds s s' k m A L ix t x payer oo : seen e s k m A L -> lots_pos m -> fines A -> order_ix_ok ix -> orders e s s' k m A L ix t x payer oo -> exists m' A' L' E,
  seen e s' k m' A' L' /\ (exists a b c d, m' = set_counters m a b c d) /\ a_evs A' = a_evs A ++ E /\ fines A' /\ forall y, holds y m A A' E (if y =? x then [ix] else []).
Proof.
  intros SN CP FA IX (m' & A' & L' & oo' & tr & q' & n & E & slot & id & dep & OD).
  assert (SL : exists sl, D s (match oi_side ix with Bid => m_bids m | Ask => m_asks m end) = Some (DSlab (oi_side ix) sl)) by (destruct (sn_bids _ _ _ _ _ _ SN) as (sb & HB & _), (sn_asks _ _ _ _ _ _ SN) as (sa & HA & _); destruct (oi_side ix); eauto). destruct SL as (sl & SL).
  cbv zeta in OD. destruct OD as (LIM & (FR & _) & SN' & _ & EV & RP & _ & _ & _ & _ & MM).
  specialize (RP sl SL). destruct RP as [RR _ _ (gs & Eend & EE & RE & FI) _]. set (tk := mkTaker (oi_side ix) id x slot t (oi_cid ix) (oi_st ix) false) in *.
  exists m', A', L', E. split; [exact SN'|]. split; [destruct (oi_side ix); destruct MM as (_ & _ & _ & _ & ->); do 4 eexists; reflexivity|]. split; [exact EV|].
  assert (NF : forall v, In v Eend -> is_fill v = false) by (eapply (LifeProofs.finish_nofill m tk); exact FI).
  pose proof (ok_price _ IX) as PP. pose proof (ok_qty _ IX) as PQ. pose proof (ok_pc _ IX) as PC. assert (LP : 0 < tk_limit tk) by (rewrite LIM; lia).
  destruct (rounds_q _ _ _ _ _ _ RR) as [Q1 Q2]. pose proof (rounds_used _ _ _ _ _ _ RR) as Q3. specialize (Q2 ltac:(lia)). destruct FA as [FB FS].
  assert (CN : forall p, 0 < p -> 0 <= m_coin_lot m) by (intros; unfold lots_pos in CP; lia).
  assert (PN : forall p, 0 < p -> 0 <= p * m_pc_lot m) by (intros; unfold lots_pos in CP; nia).
  change (tk_side tk) with (oi_side ix) in *. destruct (oi_side ix) eqn:SD; cbn [book_of other] in *.
  - destruct MM as (_ & MC & _).
    assert (FS' : fine (a_asks A')) by (exact (proj1 (met_asks m CP 0 tk _ _ _ _ _ gs RR RE eq_refl FS))).
    assert (FB' : fine (a_bids A')) by (exact (proj1 (rest_weight _ _ (fun _ => m_coin_lot m) CN 0 tk _ _ _ _ _ _ _ _ FI FB FR LP))).
    split; [split; assumption|]. intros y.
    destruct (met_asks m CP y tk _ _ _ _ _ gs RR RE eq_refl FS) as [_ H1]. destruct (sent_bid m y tk tr gs RE eq_refl) as [H2 H3]. destruct (quiet_end y Eend NF) as (z1 & z2 & z3).
    destruct (rest_weight _ _ (fun _ => m_coin_lot m) CN y tk _ _ _ _ _ _ _ _ FI FB FR LP) as (_ & H4 & NN). destruct (rest_weight _ _ (fun p => p * m_pc_lot m) PN y tk _ _ _ _ _ _ _ _ FI FB FR LP) as (_ & H5 & _).
    rewrite <- !open_coin_weight in H4. rewrite <- !open_cost_weight in H5. cbn [tk_owner tk_silent tk negb andb] in H2, H3, H4, H5. cbv beta in H4, H5. fold tk in H2, H3, H5. rewrite LIM in H5.
    assert (NQ : 0 <= n <= q') by (destruct NN as [->|[-> NP]]; lia). unfold holds. rewrite EE, !events_app, !zsum_app, z1, z2, z3, H2, H3. rewrite (Z.eqb_sym y x). unfold lots_pos in CP.
    destruct (x =? y); cbn [zsum]; unfold to_buy, to_sell, to_spend; rewrite ?SD; [|lia].
    assert ((zsum (tr_coin tk) tr + n) * m_coin_lot m <= oi_qty ix * m_coin_lot m) by (apply Z.mul_le_mono_nonneg_r; lia). lia.
  - destruct MM as (_ & MC & _).
    assert (FB' : fine (a_bids A')) by (exact (proj1 (met_bids m CP 0 tk _ _ _ _ _ gs RR RE eq_refl FB))).
    assert (FS' : fine (a_asks A')) by (exact (proj1 (rest_weight _ _ (fun _ => m_coin_lot m) CN 0 tk _ _ _ _ _ _ _ _ FI FS FR LP))).
    split; [split; assumption|]. intros y.
    destruct (met_bids m CP y tk _ _ _ _ _ gs RR RE eq_refl FB) as (_ & H1 & H2). pose proof (sent_ask m y tk tr gs RE eq_refl) as H3. destruct (quiet_end y Eend NF) as (z1 & z2 & z3).
    destruct (rest_weight _ _ (fun _ => m_coin_lot m) CN y tk _ _ _ _ _ _ _ _ FI FS FR LP) as (_ & H4 & NN).
    rewrite <- !open_coin_weight in H4. cbn [tk_owner tk_silent tk negb andb] in H3, H4. cbv beta in H4. fold tk in H3.
    unfold holds. rewrite EE, !events_app, !zsum_app, z1, z2, z3, H3. rewrite (Z.eqb_sym y x). unfold lots_pos in CP.
    destruct (x =? y); cbn [zsum]; unfold to_buy, to_sell, to_spend; rewrite ?SD; [|lia].
    assert ((zsum (tr_coin tk) tr + n) * m_coin_lot m <= oi_qty ix * m_coin_lot m) by (apply Z.mul_le_mono_nonneg_r; lia). lia.
Qed.
Lemma placing_holds k x payer w dc s ixs s' : placing e k x payer w dc s ixs s' -> Forall order_ix_ok ixs -> forall m A L, seen e s k m A L -> lots_pos m -> fines A -> exists m' A' L' E,
  seen e s' k m' A' L' /\ (exists a b c d, m' = set_counters m a b c d) /\ a_evs A' = a_evs A ++ E /\ fines A' /\ forall y, holds y m A A' E (if y =? x then ixs else []).
Proof.
  induction 1 as [s|s s1 s2 m0 A0 L0 oo0 t ix r S0 I0 O0 T OD PL IH]; intros FO m A L SN CP FA.
  - exists m, A, L, []. split; [exact SN|]. split; [exists (m_coin_deposits m), (m_pc_deposits m), (m_pc_fees m), (m_rebates m); destruct m; reflexivity|]. split; [rewrite app_nil_r; reflexivity|]. split; [exact FA|]. intros y. replace (if y =? x then [] else []) with (@nil order_ix) by (destruct (y =? x); reflexivity). apply holds_still. reflexivity.
  - inversion FO as [|? ? F1 F2]; subst. destruct (seen_same e _ _ _ _ _ _ _ _ SN S0) as (-> & EB & EE). pose proof (fines_ext _ _ EB FA) as FA0.
    destruct (orders_holds _ _ _ _ _ _ _ _ _ _ _ S0 CP FA0 F1 OD) as (m1 & A1 & L1 & E1 & SN1 & (a & b & c & d & EM) & EV1 & FA1 & H1).
    assert (ML : m_coin_lot m1 = m_coin_lot m /\ m_pc_lot m1 = m_pc_lot m) by (rewrite EM; split; reflexivity). destruct ML as [ML1 ML2].
    destruct (IH F2 m1 A1 L1 SN1 ltac:(unfold lots_pos in *; rewrite ML1, ML2; exact CP) FA1) as (m2 & A2 & L2 & E2 & SN2 & (a2 & b2 & c2 & d2 & EM2) & EV2 & FA2 & H2).
    exists m2, A2, L2, (E1 ++ E2). split; [exact SN2|]. split; [rewrite EM2, EM; do 4 eexists; reflexivity|]. split; [rewrite EV2, EV1, EE, app_assoc; reflexivity|]. split; [exact FA2|]. intros y.
    replace (if y =? x then ix :: r else []) with ((if y =? x then [ix] else []) ++ (if y =? x then r else [])) by (destruct (y =? x); reflexivity).
    eapply holds_trans; [eapply (holds_ext y m m A0 A A1 A1); [reflexivity|reflexivity|intros sd; symmetry; apply EB|reflexivity|apply H1]|]. eapply (holds_ext y m1 m A1 A1 A2 A2); [congruence|congruence|reflexivity|reflexivity|apply H2].
Qed.
Lemma cancels_holds s s' k m A L x oo bl al : fines A -> lots_pos m -> cancels e s s' k m A L x oo bl al -> exists A' L' E,
  seen e s' k m A' L' /\ a_evs A' = a_evs A ++ E /\ fines A' /\ forall y, holds y m A A' E [].
Proof.
  intros [FB FS] CP (A' & oo' & [_ _ wb wa (E & EV & PM) _ _] & SN' & _). exists A', (put_acct L x oo'), E. split; [exact SN'|]. split; [exact EV|].
  assert (CN : forall p, 0 < p -> 0 <= m_coin_lot m) by (intros; unfold lots_pos in CP; lia).
  assert (PN : forall p, 0 < p -> 0 <= p * m_pc_lot m) by (intros; unfold lots_pos in CP; nia).
  split; [split; [rewrite wb; exact (proj1 (drop_weight (fun _ => m_coin_lot m) CN 0 bl _ FB))|rewrite wa; exact (proj1 (drop_weight (fun _ => m_coin_lot m) CN 0 al _ FS))]|]. intros y.
  assert (NF : forall v, In v E -> is_fill v = false) by (intros v I; apply (Permutation_in _ PM) in I; apply in_app_or in I; destruct I as [I|I]; apply in_map_iff in I; destruct I as (l & <- & _); reflexivity).
  destruct (quiet_end y E NF) as (z1 & z2 & z3). unfold holds. rewrite z1, z2, z3, !open_coin_weight, !open_cost_weight, wb, wa. cbn [zsum].
  pose proof (proj2 (drop_weight (fun _ => m_coin_lot m) CN y bl _ FB)). pose proof (proj2 (drop_weight (fun _ => m_coin_lot m) CN y al _ FS)). pose proof (proj2 (drop_weight (fun p => p * m_pc_lot m) PN y bl _ FB)). lia.
Qed.
Lemma takes_holds s s' k m A L ix t cw pw : fines A -> lots_pos m -> takes e s s' k m A L ix t cw pw -> exists m' A' E,
  seen e s' k m' A' L /\ a_evs A' = a_evs A ++ E /\ forall y, holds y m A A' E [].
Proof.
  intros [FB FS] CP (m' & A' & tr & q' & gs & id & TD). cbv zeta in TD. destruct TD as (_ & SN' & RR & _ & OB & EV & RE & _). exists m', A', (concat gs). split; [exact SN'|]. split; [exact EV|]. intros y.
  set (tk := mkTaker (ti_side ix) id 0 0 t 0 AbortTransaction true) in *. destruct (ti_side ix); cbn [book_of other] in *.
  - destruct (met_asks m CP y tk _ _ _ _ _ gs RR RE eq_refl FS) as [_ H1]. destruct (sent_bid m y tk tr gs RE eq_refl) as [H2 H3]. cbn [tk tk_silent negb andb] in H2, H3. unfold holds. rewrite H2, H3, OB. cbn [zsum]. lia.
  - destruct (met_bids m CP y tk _ _ _ _ _ gs RR RE eq_refl FB) as (_ & H1 & H2). pose proof (sent_ask m y tk tr gs RE eq_refl) as H3. cbn [tk tk_silent negb andb] in H3. unfold holds. rewrite H3, OB. cbn [zsum]. lia.
Qed.

(** ** One instruction *)
Section Step.
Variables (s s' : store) (c : clock) (i : instr) (ms : list meta) (k : Z) (m : market) (A : astate) (L : list acct).
Hypothesis (HI : history e s) (G : no_overflow e s) (SZ : sized s) (LG : legal e ms) (WF : wf_instr i) (H : process e c s i ms = Ok s').
Hypothesis (SN : seen e s k m A L) (P : usable m).
Let WI : winv e s := reachable_inv e EO s HI.
Let W : wstruct (D s) := wi_str _ _ WI.
Let HM : D s k = Some (DMarket m) := sn_mkt _ _ _ _ _ _ SN.
Variables (m' : market) (A' : astate) (L' : list acct) (E : list event_view).
Hypothesis (SN' : seen e s' k m' A' L') (SC : same_config m m') (QE : queued e k s s' E).
Definition within_asked : Prop := forall y, holds y m A A' E (asked k y i ms).
Lemma start_fine : fines A /\ lots_pos m.
Proof.
  split; [|destruct P as (? & ? & _); split; assumption].
  assert (SO : forall sd, sorted (book_of A sd)) by (destruct (seen_state e s k m A L WI SN P) as (seq & o & MS); exact (cinv_sorted _ _ _ _ (ms_inv _ _ _ _ _ _ _ MS))).
  split; (split; [first [exact (SO Bid)|exact (SO Ask)]|]); intros l I; [exact (resting_pos e s k m A L WI SN P Bid l I)|exact (resting_pos e s k m A L WI SN P Ask l I)].
Qed.
Lemma asked_elsewhere y : key_at ms 0 <> Some k -> asked k y i ms = [].
Proof. intros N. unfold asked. destruct (key_at ms 0) as [k'|]; [|reflexivity]. destruct (acts_for i ms) as [x'|]; [|reflexivity]. destruct (Z.eqb_spec k' k); [congruence|reflexivity]. Qed.
Lemma asked_none y : orders_in i = [] -> asked k y i ms = [].
Proof. intros N. unfold asked. rewrite N. destruct (key_at ms 0), (acts_for i ms); try reflexivity. destruct ((z =? k) && (z0 =? y)); reflexivity. Qed.
Lemma asked_here x y : key_at ms 0 = Some k -> acts_for i ms = Some x -> asked k y i ms = if y =? x then orders_in i else [].
Proof. intros K0 K1. unfold asked. rewrite K0, K1, Z.eqb_refl. cbn [andb]. rewrite (Z.eqb_sym x y). reflexivity. Qed.
Lemma links : m_bids m' = m_bids m /\ m_asks m' = m_asks m /\ m_event_q m' = m_event_q m.
Proof. destruct SC as (? & ? & ? & ? & ? & ->). repeat split; reflexivity. Qed.
Lemma no_news : D s' (m_event_q m) = D s (m_event_q m) -> E = [].
Proof.
  intros DQ. destruct (sn_evs _ _ _ _ _ _ SN) as (q1 & Q1 & Q2). destruct (sn_evs _ _ _ _ _ _ SN') as (q2 & Q3 & Q4). destruct links as (_ & _ & EQ). rewrite EQ in Q3. assert (q2 = q1) by congruence. subst q2.
  assert (EE : a_evs A' = a_evs A) by (eapply views_fun; eassumption). eapply (queued_fun e); [exact QE|]. apply (queued_iff e _ _ _ _ _ _ _ _ _ _ SN SN'). exists [], (a_evs A). rewrite app_nil_r. auto.
Qed.
Lemma same_books : D s' (m_bids m) = D s (m_bids m) -> D s' (m_asks m) = D s (m_asks m) -> forall sd, book_of A' sd = book_of A sd.
Proof.
  intros DB DA. destruct links as (LB & LA & _). destruct (sn_bids _ _ _ _ _ _ SN) as (b1 & B1 & B2). destruct (sn_bids _ _ _ _ _ _ SN') as (b2 & B3 & B4). destruct (sn_asks _ _ _ _ _ _ SN) as (a1 & A1 & A2). destruct (sn_asks _ _ _ _ _ _ SN') as (a2 & A3 & A4).
  rewrite LB in B3. rewrite LA in A3. intros []; cbn [book_of]; congruence.
Qed.
Lemma calm : (forall sd, book_of A' sd = book_of A sd) -> E = [] -> (forall y, asked k y i ms = []) -> within_asked.
Proof. intros EB EE EA y. rewrite EE, EA. apply holds_still. exact EB. Qed.
Lemma such_news A2 L2 m2 E2 B : seen e s' k m2 A2 L2 -> a_evs A2 = a_evs A ++ E2 -> (forall y, holds y m A A2 E2 (B y)) -> (forall y, asked k y i ms = B y) -> within_asked.
Proof.
  intros S2 EV H2 AS y. destruct (seen_same e _ _ _ _ _ _ _ _ S2 SN') as (EM & EB & EE). assert (X : E = E2). { eapply (queued_fun e); [exact QE|]. apply (queued_iff e _ _ _ _ _ _ _ _ _ _ SN SN'). exists [], (a_evs A). split; [reflexivity|]. split; [congruence|auto]. }
  rewrite X, AS. eapply (holds_ext y m m A A A2 A'); [reflexivity|reflexivity|reflexivity|exact EB|apply H2].
Qed.
Lemma frame : (forall y, y = m_bids m \/ y = m_asks m \/ y = m_event_q m -> D s' y = D s y) -> (forall y, asked k y i ms = []) -> within_asked.
Proof. intros F EA. apply calm; [apply same_books; apply F; auto|apply no_news; apply F; auto|exact EA]. Qed.
Lemma not_account y : y = m_bids m \/ y = m_asks m \/ y = m_event_q m -> D s y <> Some DZero /\ (forall oo, D s y <> Some (DOO oo)) /\ y <> k /\ (forall oo, D s' y <> Some (DOO oo)).
Proof.
  destruct links as (LB & LA & LQ). destruct (sn_bids _ _ _ _ _ _ SN) as (b1 & B1 & _). destruct (sn_asks _ _ _ _ _ _ SN) as (a1 & A1 & _). destruct (sn_evs _ _ _ _ _ _ SN) as (q1 & Q1 & _).
  destruct (sn_bids _ _ _ _ _ _ SN') as (b2 & B2 & _). destruct (sn_asks _ _ _ _ _ _ SN') as (a2 & A2 & _). destruct (sn_evs _ _ _ _ _ _ SN') as (q2 & Q2 & _). rewrite LB in B2. rewrite LA in A2. rewrite LQ in Q2.
  intros [->|[->| ->]]; (split; [congruence|]); (split; [congruence|]); split; congruence.
Qed.
Lemma other_market k0 m0 m1 xo : deed e s s' k0 m0 m1 xo -> (forall a o, xo = Some (a, o) -> D s a = Some DZero \/ exists oo, D s a = Some (DOO oo)) -> k0 <> k -> (forall y, asked k y i ms = []) -> within_asked.
Proof.
  intros DE XO NK EA. pose proof (de_mkt _ _ _ _ _ _ _ DE) as HM0. apply frame; [|exact EA]. intros y Y. destruct (not_account y Y) as (N1 & N2 & _).
  destruct (apart _ _ _ _ _ W HM0 HM (fun X => NK (eq_sym X)) y ltac:(tauto)) as (n1 & n2 & n3 & n4 & n5). eapply de_else; [exact DE|try assumption..]. intros a o EX EY. destruct (XO a o EX) as [DX|(oo & DX)]; [congruence|]. subst a. exact (N2 _ DX).
Qed.
Lemma same_records : (forall y, y <> k -> D s' y = D s y \/ exists o, D s' y = Some (DOO o)) -> (forall y, asked k y i ms = []) -> within_asked.
Proof. intros F EA. apply frame; [|exact EA]. intros y Y. destruct (not_account y Y) as (_ & _ & N1 & N2). destruct (F y N1) as [X|(o & X)]; [exact X|exfalso; exact (N2 o X)]. Qed.

Lemma stays_order ix : i = INewOrderV3 ix -> within_asked.
Proof.
  intros EI. pose proof H as HJ. rewrite EI in HJ. pose proof WF as WJ. rewrite EI in WJ. pose proof HJ as HP. cbn [process] in HJ.
  destruct (order_deed e EO _ _ _ _ _ W HJ) as (k0 & x0 & w & m0 & m1 & oo & oo' & K0 & K1 & SG & _ & _ & DE & LO & _). destruct (Z.eq_dec k0 k) as [EK|NK].
  - rewrite EK in *. destruct (order_effect e EO s k m A L WI SN P (guard_room e s 1 G ltac:(lia)) c ix ms s' HP K0 (wf_order _ WJ)) as (x1 & w1 & t & payer & oo1 & K1' & _ & _ & _ & _ & _ & OD).
    destruct start_fine as [FA LP]. destruct (orders_holds _ _ _ _ _ _ _ _ _ _ _ SN LP FA (wf_order _ WJ) OD) as (m2 & A2 & L2 & E2 & SN2 & _ & EV2 & _ & HH).
    eapply such_news; [exact SN2|exact EV2|exact HH|]. intros y. rewrite (asked_here x1 y K0) by (rewrite EI; exact K1'). rewrite EI. reflexivity.
  - eapply other_market; [exact DE| |exact NK|intros y; apply asked_elsewhere; congruence]. intros a o [= <- <-]. destruct LO as [(L1 & _)|(L1 & _)]; eauto.
Qed.
Lemma stays_replace ixs : process e c s (IReplaceMany ixs) ms = Ok s' -> Forall order_ix_ok ixs -> (length ixs <= 8)%nat -> acts_for i ms = key_at ms 1 -> orders_in i = ixs -> within_asked.
Proof.
  intros HR FO LN AF OI. destruct (replace_deed e EO s c ixs ms s' W HR) as (k0 & x0 & w & m0 & m1 & oo & oo' & K0 & K1 & SG & _ & _ & DE & LO & _). destruct (Z.eq_dec k0 k) as [EK|NK].
  - rewrite EK in *. destruct (replace_effect e EO s k m A L WI G SN P c ixs ms s' LG FO LN HR K0) as (x1 & o1 & payer & s1 & K1' & IX & _ & _ & CC & PL). destruct start_fine as [FA LP].
    destruct (cancels_holds _ _ _ _ _ _ _ _ _ _ FA LP CC) as (A2 & L2 & E2 & SN2 & EV2 & FA2 & H2).
    destruct (placing_holds _ _ _ _ _ _ _ _ PL FO m A2 L2 SN2 LP FA2) as (m3 & A3 & L3 & E3 & SN3 & _ & EV3 & _ & H3).
    assert (EV : a_evs A3 = a_evs A ++ (E2 ++ E3)) by (rewrite EV3, EV2, app_assoc; reflexivity).
    eapply such_news; [exact SN3|exact EV|intros y; eapply holds_trans; [apply H2|apply H3]|]. intros y. cbn [app]. rewrite (asked_here x1 y K0) by (rewrite AF; exact K1'). rewrite OI. reflexivity.
  - eapply other_market; [exact DE| |exact NK|intros y; apply asked_elsewhere; congruence]. intros a o [= <- <-]. destruct LO as (L1 & _). eauto.
Qed.
Lemma stays_cancel core : proc_cancel e s core ms = Ok s' -> (forall o x oo o' oo', core o x oo = Ok (o', oo') -> ob_mkt o' = ob_mkt o /\ same_id oo oo') -> orders_in i = [] ->
  (key_at ms 0 = Some k -> exists x oo bl al, In (x, oo) L /\ cancels e s s' k m A L x oo bl al) -> within_asked.
Proof.
  intros HC F OI CE. destruct (cancel_deed e EO s core ms s' W HC F) as (k0 & x0 & w & m0 & oo & oo' & K0 & K3 & SG & DE & LO & _). destruct (Z.eq_dec k0 k) as [EK|NK].
  - rewrite EK in *. destruct (CE K0) as (x1 & oo1 & bl & al & IX & CC). destruct start_fine as [FA LP]. destruct (cancels_holds _ _ _ _ _ _ _ _ _ _ FA LP CC) as (A2 & L2 & E2 & SN2 & EV2 & _ & H2).
    eapply such_news; [exact SN2|exact EV2|exact H2|]. intros y. apply asked_none. exact OI.
  - eapply other_market; [exact DE| |exact NK|intros y; apply asked_none; exact OI]. intros a o [= <- <-]. destruct LO as (L1 & _). eauto.
Qed.
Lemma stays_prune n : i = IPrune n -> within_asked.
Proof.
  intros EI. pose proof H as HJ. rewrite EI in HJ. pose proof WF as WJ. rewrite EI in WJ. pose proof HJ as HP. cbn [process] in HJ.
  destruct (prune_deed e EO _ _ _ _ W HJ) as (k0 & x0 & auth & m0 & oo0 & oo1 & K0 & _ & _ & _ & _ & DE & LO & _). destruct (Z.eq_dec k0 k) as [EK|NK].
  - rewrite EK in *. destruct (prune_effect e EO s k m A L WI SN P c n ms s' HP K0 ltac:(unfold wf_instr, u16 in WJ; lia)) as (x1 & oo2 & bl & al & _ & IX & _ & _ & _ & _ & _ & _ & CC & _).
    destruct start_fine as [FA LP]. destruct (cancels_holds _ _ _ _ _ _ _ _ _ _ FA LP CC) as (A2 & L2 & E2 & SN2 & EV2 & _ & H2).
    eapply such_news; [exact SN2|exact EV2|exact H2|]. intros y. apply asked_none. rewrite EI. reflexivity.
  - eapply other_market; [exact DE| |exact NK|intros y; apply asked_none; rewrite EI; reflexivity]. intros a o [= <- <-]. destruct LO as (L1 & _). eauto.
Qed.
Lemma stays_settle : i = ISettleFunds -> within_asked.
Proof.
  intros EI. pose proof H as HJ. rewrite EI in HJ. pose proof HJ as HP. cbn [process] in HJ. assert (EA : forall y, asked k y i ms = []) by (intros y; apply asked_none; rewrite EI; reflexivity).
  destruct (settle_deed e EO _ _ _ W HJ) as (k0 & x0 & w & m0 & m1 & oo & oo' & K0 & K1 & SG & _ & DE & LO & _). destruct (Z.eq_dec k0 k) as [EK|NK].
  - rewrite EK in *. destruct (settle_effect e EO s k m A L WI SN P c ms s' HP K0) as (x1 & oo1 & cw & pw & K1' & IX & _ & K5 & K6 & (m2 & oo2 & SN2 & _)).
    eapply (such_news _ _ _ [] (fun _ => []) SN2 ltac:(rewrite app_nil_r; reflexivity)); [intros y; apply holds_still; reflexivity|exact EA].
  - eapply other_market; [exact DE| |exact NK|exact EA]. intros a o [= <- <-]. destruct LO as (L1 & _). eauto.
Qed.
Lemma stays_sweep : i = ISweepFees -> within_asked.
Proof.
  intros EI. pose proof H as HJ. rewrite EI in HJ. cbn [process] in HJ. assert (EA : forall y, asked k y i ms = []) by (intros y; apply asked_none; rewrite EI; reflexivity).
  destruct (sweep_ran e _ _ _ W HJ) as (k2 & m2 & pw2 & p2 & spl2 & KM2 & _ & HM2 & _ & _ & TR).
  apply frame; [|exact EA]. intros y Y. destruct (not_account y Y) as (_ & _ & N & _).
  rewrite (out_D e EO _ _ _ _ _ _ _ TR), (dexd_put_owned _ _ _ _ _ _ HM2). destruct (Z.eqb_spec y k2) as [EY|]; [|reflexivity]. exfalso. subst y.
  destruct (sn_bids _ _ _ _ _ _ SN) as (b1 & B1 & _). destruct (sn_asks _ _ _ _ _ _ SN) as (a1 & A1 & _). destruct (sn_evs _ _ _ _ _ _ SN) as (q1 & Q1 & _). destruct Y as [Y|[Y|Y]]; congruence.
Qed.
Lemma stays_take ix : i = ISendTake ix -> within_asked.
Proof.
  intros EI. pose proof H as HJ. rewrite EI in HJ. pose proof WF as WJ. rewrite EI in WJ. pose proof HJ as HP. cbn [process] in HJ. assert (EA : forall y, asked k y i ms = []) by (intros y; apply asked_none; rewrite EI; reflexivity).
  destruct (take_deed e EO _ _ _ _ W HJ) as (k0 & m0 & m1 & K0 & _ & _ & DE & _). destruct (Z.eq_dec k0 k) as [EK|NK].
  - rewrite EK in *. destruct (take_effect e EO s k m A L WI SN P (guard_room e s 1 G ltac:(lia)) c ix ms s' HP K0 (wf_take_ok _ WJ)) as (w1 & t & cw & pw & _ & K5 & K6 & _ & TD).
    destruct start_fine as [FA LP]. destruct (takes_holds _ _ _ _ _ _ _ _ _ _ FA LP TD) as (m2 & A2 & E2 & SN2 & EV2 & H2). eapply such_news; [exact SN2|exact EV2|exact H2|exact EA].
  - eapply other_market; [exact DE|discriminate|exact NK|exact EA].
Qed.
Lemma stays_consume : consuming i -> within_asked.
Proof.
  intros CI. destruct (AbsentProofs.consume_kept e EO s s' c i ms k m A L HI G H SN P m' A' L' CI SN') as (us & EA & _).
  destruct (crank_view e EO s c i ms s' W H CI) as (k1 & m1 & _ & V2 & _ & _ & V5 & V6).
  assert (T : forall y, y = m_bids m \/ y = m_asks m -> D s' y = D s y).
  { intros y Y. destruct (not_account y ltac:(tauto)) as (_ & N & _). assert (NQ : y <> m_event_q m1) by (intros X; destruct V5 as (? & ? & V5 & _); destruct (sn_bids _ _ _ _ _ _ SN) as (b1 & B1 & _); destruct (sn_asks _ _ _ _ _ _ SN) as (a1 & A1 & _); destruct Y as [Y|Y]; congruence).
    destruct (V6 y NQ) as [X|(o & o' & (L1 & _) & _)]; [exact X|exfalso; exact (N _ L1)]. }
  apply calm; [apply same_books; apply T; auto|eapply (queued_fun e); [exact QE|]; apply (queued_iff e _ _ _ _ _ _ _ _ _ _ SN SN'); exists us, (a_evs A'); rewrite app_nil_r; auto|].
  intros y. apply asked_none. destruct CI as (n & [->| ->]); reflexivity.
Qed.
Theorem exposure_step : within_asked.
Proof.
  assert (X : forall j, j = i -> process e c s j ms = Ok s' -> wf_instr j -> within_asked); [|exact (X i eq_refl H WF)].
  intros j EI HJ WJ. assert (CO : consuming i -> within_asked) by exact stays_consume. assert (EA : orders_in i = [] -> forall y, asked k y i ms = []) by (intros N y; apply asked_none; exact N).
  destruct j; try (apply CO; rewrite <- EI; eexists; eauto; fail); try discriminate.
  - cbn [process] in HJ. destruct (init_ran e _ _ _ _ _ HJ) as (k1 & rqa & eqa & ba & aa & cv & pv & cm & pm & p & auths & R). apply frame; [|apply EA; rewrite <- EI; reflexivity].
    assert (KP : forall y d, D s y = Some d -> d <> DZero -> D s' y = D s y) by (intros y d DY ND; rewrite DY; eapply WorldInit.in_kept; [exact EO|exact R|exact DY|exact ND]).
    destruct (sn_bids _ _ _ _ _ _ SN) as (b1 & B1 & _). destruct (sn_asks _ _ _ _ _ _ SN) as (a1 & A1 & _). destruct (sn_evs _ _ _ _ _ _ SN) as (q1 & Q1 & _). intros y [->|[->| ->]]; eapply KP; try eassumption; discriminate.
  - cbn [process] in HJ. assert (ES : s' = s) by congruence. apply frame; [intros y _; rewrite ES; reflexivity|apply EA; rewrite <- EI; reflexivity].
  - apply stays_settle; auto.
  - cbn [process] in HJ. destruct (disable_deed e EO _ _ _ W HJ) as (k0 & m0 & K0 & _ & _ & DE & ES & _). destruct (Z.eq_dec k0 k) as [EK|NK].
    + rewrite EK in *. apply same_records; [|apply EA; rewrite <- EI; reflexivity]. intros y NY. left. rewrite ES, (dexd_put_owned _ _ _ _ _ _ HM). destruct (Z.eqb_spec y k); [contradiction|reflexivity].
    + eapply other_market; [exact DE|discriminate|exact NK|apply EA; rewrite <- EI; reflexivity].
  - apply stays_sweep; auto.
  - eapply stays_order; eauto.
  - pose proof HJ as H1. cbn [process] in HJ. eapply stays_cancel; [exact HJ|cbv beta; intros * HH; eapply cancel_v2_frame; exact HH|rewrite <- EI; reflexivity|]. intros K0.
    destruct (cancel_v2_effect e EO s k m A L WI SN P c _ _ ms s' H1 K0) as (y & oo & l & K3 & IN & SG & _ & _ & _ & R). do 4 eexists. eauto.
  - pose proof HJ as H1. cbn [process] in HJ. unfold proc_cancel_cid in HJ. apply rbind_ok in HJ. destruct HJ as (? & _ & HJ). eapply stays_cancel; [exact HJ|cbv beta; intros * HH; eapply cancel_cid_frame; exact HH|rewrite <- EI; reflexivity|]. intros K0.
    destruct (cancel_cid_effect e EO s k m A L WI SN P c _ ms s' H1 K0) as (_ & y & oo & sd & l & K3 & IN & SG & _ & _ & _ & R). do 4 eexists. eauto.
  - eapply stays_take; eauto.
  - cbn [process] in HJ. destruct (close_deed e EO _ _ _ W HJ) as (k0 & x0 & w & dest & m0 & oo & oo' & KM & SG & DE & LO & _). destruct (Z.eq_dec k0 k) as [EK|NK].
    + rewrite EK in *. destruct (close_ran e _ _ _ W HJ) as (k1 & x1 & w1 & dest1 & m1 & oo1 & oo1' & sm & KM1 & _ & _ & (LV & _) & _ & _ & _ & _ & ES).
      assert (DX : D (put_lamports (put_lamports s dest1 sm) x1 0) x1 = Some (DOO oo1)) by (rewrite !dexd_lam; exact LV). apply same_records; [|apply EA; rewrite <- EI; reflexivity].
      intros y NY. rewrite ES, (dexd_put_owned _ _ _ _ _ _ DX), !dexd_lam. destruct (Z.eqb_spec y x1) as [->|]; [|left; reflexivity]. right. eauto.
    + eapply other_market; [exact DE| |exact NK|apply EA; rewrite <- EI; reflexivity]. intros a o [= <- <-]. destruct LO as (L1 & _). eauto.
  - cbn [process] in HJ. destruct (init_oo_deed e EO _ _ _ _ W HJ) as (k0 & x0 & w & m0 & oo & rest & KM & SG & _ & DE & LO & _).
    assert (LX : D s x0 = Some DZero \/ exists o, D s x0 = Some (DOO o)) by (destruct LO as [(L1 & _)|(L1 & _)]; eauto).
    destruct (Z.eq_dec k0 k) as [EK|NK].
    + rewrite EK in *. destruct (init_oo_ran e _ _ _ _ W HJ) as (k1 & x1 & w1 & m1 & auth & oo1 & rest1 & KM1 & _ & _ & _ & _ & _ & _ & ES). assert (EX : x1 = x0) by congruence. rewrite EX in *.
      assert (DX : exists d, D s x0 = Some d) by (destruct LX as [LX|(o & LX)]; eauto). destruct DX as (d & DX). apply same_records; [|apply EA; rewrite <- EI; reflexivity].
      intros y NY. rewrite ES, (dexd_put_owned _ _ _ _ _ _ DX). destruct (Z.eqb_spec y x0) as [->|]; [|left; reflexivity]. right. eauto.
    + eapply other_market; [exact DE| |exact NK|apply EA; rewrite <- EI; reflexivity]. intros a o [= <- <-]. exact LX.
  - eapply stays_prune; eauto.
  - pose proof HJ as H1. cbn [process] in HJ. eapply stays_cancel; [exact HJ|cbv beta; intros * HH; eapply cancel_cids_frame; exact HH|rewrite <- EI; reflexivity|]. intros K0.
    destruct (cancel_cids_effect e EO s k m A L WI SN P c _ ms s' H1 K0) as (y & oo & K3 & IN & SG & R). do 4 eexists. eauto.
  - apply (stays_replace [ix] HJ); [constructor; [exact (wf_order _ WJ)|constructor]|cbn; lia|rewrite <- EI; reflexivity|rewrite <- EI; reflexivity].
  - destruct WJ as [LN F]. apply (stays_replace ixs HJ); [|lia|rewrite <- EI; reflexivity|rewrite <- EI; reflexivity]. eapply Forall_impl; [|exact F]. intros a. apply wf_order.
Qed.
End Step.

(** ** A stretch of a history *)
Lemma env_books s s2 k m A L : history e s -> rely e s s2 -> seen e s k m A L -> usable m -> exists A2 L2, seen e s2 k m A2 L2 /\ forall sd, book_of A2 sd = book_of A sd.
Proof.
  intros HI R SN P. destruct (env_seen e EO _ _ _ _ _ _ HI R SN P) as (A2 & L2 & SN2 & _). exists A2, L2. split; [exact SN2|].
  assert (EB : forall y sd b, D s y = Some (DSlab sd b) -> forall sd2 b2, D s2 y = Some (DSlab sd2 b2) -> b2 = b) by (intros y sd b H1 sd2 b2 H2; eapply rely_was in H2; [|exact R|discriminate]; congruence).
  destruct (sn_bids _ _ _ _ _ _ SN) as (b1 & B1 & B2). destruct (sn_bids _ _ _ _ _ _ SN2) as (b2 & B3 & B4). destruct (sn_asks _ _ _ _ _ _ SN) as (a1 & A1 & A2'). destruct (sn_asks _ _ _ _ _ _ SN2) as (a2 & A3 & A4).
  pose proof (EB _ _ _ B1 _ _ B3). pose proof (EB _ _ _ A1 _ _ A3). intros []; cbn [book_of]; congruence.
Qed.
Lemma dealings_statement k x s E B T s' : dealings e k x s E B T s' -> statement e k x s E T s'.
Proof. induction 1; [constructor|eapply statement_tx; eassumption|eapply statement_env; eassumption]. Qed.
Lemma exposure_story k x s E B T s' : dealings e k x s E B T s' -> history e s -> forall m A L, seen e s k m A L -> usable m ->
  history e s' /\ exists m' A' L', seen e s' k m' A' L' /\ same_config m m' /\ holds x m A A' E B.
Proof.
  intros ST HI m A L SN P. induction ST as [|E B T s1 c b ms i s2 E1 ST IH G SZ HB LG U H Q|E B T s1 s2 ST IH R].
  - split; [exact HI|]. exists m, A, L. split; [exact SN|]. split; [apply same_config_refl|]. apply holds_still. reflexivity.
  - destruct IH as (HI1 & m1 & A1 & L1 & SN1 & SC1 & HH). assert (P1 : usable m1) by (destruct SC1 as (? & ? & ? & ? & ? & ->); exact P). assert (ML : m_coin_lot m = m_coin_lot m1 /\ m_pc_lot m = m_pc_lot m1) by (destruct SC1 as (? & ? & ? & ? & ? & ->); split; reflexivity). destruct ML as [ML1 ML2].
    split; [rewrite <- (did e b i c s1 s2 ms U H); apply reach_tx; assumption|]. destruct (unpack_pack _ _ HB U) as [WF _].
    destruct (seen_after e EO _ _ _ _ _ _ _ _ _ HI1 G SZ LG WF H SN1 P1) as (m2 & A2 & L2 & SN2 & SC2).
    pose proof (exposure_step s1 s2 c i ms k m1 A1 L1 HI1 G LG WF H SN1 P1 m2 A2 L2 E1 SN2 SC2 Q x) as HX.
    exists m2, A2, L2. split; [exact SN2|]. split; [eapply same_config_trans; eassumption|]. eapply holds_trans; [exact HH|]. eapply (holds_ext x m1 m A1 A1 A2 A2); [exact ML1|exact ML2|reflexivity|reflexivity|exact HX].
  - destruct IH as (HI1 & m1 & A1 & L1 & SN1 & SC1 & HH). assert (P1 : usable m1) by (destruct SC1 as (? & ? & ? & ? & ? & ->); exact P).
    split; [eapply reach_env; eassumption|]. destruct (env_books _ _ _ _ _ _ HI1 R SN1 P1) as (A2 & L2 & SN2 & EB). exists m1, A2, L2. split; [exact SN2|]. split; [exact SC1|]. eapply (holds_ext x m m A A A1 A2); [reflexivity|reflexivity|reflexivity|exact EB|exact HH].
Qed.
Theorem exposure k x s E B T s' m A L m' A' L' : history e s -> dealings e k x s E B T s' -> seen e s k m A L -> usable m -> seen e s' k m' A' L' ->
  zsum bought (events_of x E) + open_coin m x (a_bids A') <= open_coin m x (a_bids A) + zsum (to_buy m) B /\
  zsum sold (events_of x E) + open_coin m x (a_asks A') <= open_coin m x (a_asks A) + zsum (to_sell m) B /\
  zsum spent (events_of x E) + open_cost m x (a_bids A') <= open_cost m x (a_bids A) + zsum to_spend B.
Proof.
  intros HI ST SN P SN'. destruct (exposure_story k x s E B T s' ST HI m A L SN P) as (_ & m2 & A2 & L2 & SN2 & _ & HH). destruct (seen_same e _ _ _ _ _ _ _ _ SN2 SN') as (_ & EB & _).
  exact (holds_ext x m m A A A2 A' E B eq_refl eq_refl (fun _ => eq_refl) EB HH).
Qed.

Lemma open_nonneg m x bk : lots_pos m -> fine bk -> 0 <= open_coin m x bk /\ 0 <= open_cost m x bk.
Proof.
  intros [CP PP] [_ PO]. split; apply zsum_nonneg; intros l I; apply filter_In in I; destruct (PO l (proj1 I)); [nia|]. apply Z.mul_nonneg_nonneg; nia.
Qed.
Lemma news_ok k x s E B T s' : dealings e k x s E B T s' -> history e s -> forall m A L, seen e s k m A L -> usable m -> Forall ev_ok E.
Proof.
  intros ST HI m A L SN P. induction ST as [|E B T s1 c b ms i s2 E1 ST IH G SZ HB LG U H Q|E B T s1 s2 ST IH R]; [constructor| |exact IH].
  apply Forall_app. split; [exact IH|]. assert (ST2 : dealings e k x s (E ++ E1) (B ++ asked k x i ms) (T ++ [entry e k x s1 s2 i ms]) s2) by (eapply dealings_tx; eassumption).
  destruct (exposure_story k x s _ _ _ s2 ST2 HI m A L SN P) as (HI2 & m2 & A2 & L2 & SN2 & SC2 & _). assert (P2 : usable m2) by (destruct SC2 as (? & ? & ? & ? & ? & ->); exact P).
  destruct (exposure_story k x s _ _ _ s1 ST HI m A L SN P) as (HI1 & m1 & A1 & L1 & SN1 & _).
  pose proof (pending_ok e EO s2 k m2 A2 L2 HI2 SN2 P2) as OK. apply (queued_iff e _ _ _ _ _ _ _ _ _ _ SN1 SN2) in Q. destruct Q as (vs & rest & _ & EV & _). rewrite EV in OK. apply Forall_app in OK. apply OK.
Qed.
Lemma trade_parts x E : zsum coin_trade (events_of x E) = zsum bought (events_of x E) - zsum sold (events_of x E).
Proof. induction (events_of x E) as [|v r IH]; [reflexivity|]. cbn [zsum]. rewrite IH. destruct v as [[] ? ? ? ? ? ? ? ? ?|]; cbn [coin_trade bought sold]; lia. Qed.
Lemma cost_part x E : Forall ev_ok E -> - zsum spent (events_of x E) <= zsum pc_trade (events_of x E).
Proof.
  intros OK. assert (OK2 : Forall ev_ok (events_of x E)) by (apply Forall_forall; intros v I; apply filter_In in I; rewrite Forall_forall in OK; apply OK, I). clear OK. induction OK2 as [|v r O OK IH]; [cbn; lia|]. cbn [zsum]. destruct v as [[] ? ? ? ? ? ? ? ? ?|]; cbn [pc_trade spent ev_ok] in *; lia.
Qed.
Lemma parts_nonneg x E : Forall ev_ok E -> 0 <= zsum bought (events_of x E) /\ 0 <= zsum sold (events_of x E).
Proof.
  intros OK. assert (OK2 : Forall ev_ok (events_of x E)) by (apply Forall_forall; intros v I; apply filter_In in I; rewrite Forall_forall in OK; apply OK, I). clear OK. induction OK2 as [|v r O OK IH]; [cbn; lia|]. cbn [zsum]. destruct v as [[] ? ? ? ? ? ? ? ? ?|]; cbn [bought sold ev_ok] in *; lia.
Qed.
Theorem gain_and_loss k x s E B T s' m A L cn pc m' A' L' cn' pc' : history e s -> dealings e k x s E B T s' -> seen e s k m A L -> usable m -> m_coin_vault m <> m_pc_vault m -> seen e s' k m' A' L' ->
  owned x A L cn pc -> owned x A' L' cn' pc' ->
  (zsum coin_out T + cn') - (zsum coin_in T + cn) <= open_coin m x (a_bids A) + zsum (to_buy m) B /\
  (zsum coin_in T + cn) - (zsum coin_out T + cn') <= open_coin m x (a_asks A) + zsum (to_sell m) B /\
  (zsum pc_in T + pc) - (zsum pc_out T + pc') <= open_cost m x (a_bids A) + zsum to_spend B.
Proof.
  intros HI ST SN P NV SN' OW OW'. destruct (exposure _ _ _ _ _ _ _ _ _ _ _ _ _ HI ST SN P SN') as (X1 & X2 & X3).
  destruct (statement_balances e EO _ _ _ _ _ _ _ _ _ _ _ _ _ _ _ _ HI (dealings_statement _ _ _ _ _ _ _ ST) SN P NV SN' OW OW') as [C1 C2]. pose proof (news_ok _ _ _ _ _ _ _ ST HI _ _ _ SN P) as OK.
  destruct (exposure_story k x s _ _ _ s' ST HI m A L SN P) as (HI2 & m2 & A2 & L2 & SN2 & SC2 & _). destruct (seen_same e _ _ _ _ _ _ _ _ SN2 SN') as (EM & _ & _).
  assert (P2 : usable m' /\ m_coin_lot m' = m_coin_lot m /\ m_pc_lot m' = m_pc_lot m) by (rewrite EM; destruct SC2 as (? & ? & ? & ? & ? & ->); repeat split; apply P). destruct P2 as (P2 & ML1 & ML2).
  destruct (start_fine s' k m' A' L' HI2 SN' P2) as [[FB FS] LP].
  assert (LM : lots_pos m) by (unfold lots_pos in *; lia). destruct (open_nonneg m x (a_bids A') LM FB) as [n1 n2]. destruct (open_nonneg m x (a_asks A') LM FS) as [n3 _].
  rewrite trade_parts in C1. pose proof (cost_part x E OK). destruct (parts_nonneg x E OK). lia.
Qed.
Theorem dealings_exist k x s E s' : stretch e k s E s' -> history e s -> forall m A L, seen e s k m A L -> usable m -> exists B T, dealings e k x s E B T s'.
Proof.
  intros ST HI m A L SN P.
  assert (X : history e s' /\ (exists m' A' L', seen e s' k m' A' L' /\ same_config m m') /\ exists B T, dealings e k x s E B T s'); [|apply X].
  induction ST as [|E s1 c b ms E1 ST IH G SZ HB LG Q|E s1 s2 ST IH R].
  - split; [exact HI|]. split; [exists m, A, L; split; [exact SN|apply same_config_refl]|]. exists [], []. constructor.
  - destruct IH as (HI1 & (m1 & A1 & L1 & SN1 & SC1) & B & T & TT). assert (P1 : usable m1) by (destruct SC1 as (? & ? & ? & ? & ? & ->); exact P). split; [apply reach_tx; assumption|].
    destruct (process_bytes e c s1 b ms) as [s2|?|] eqn:PB.
    + pose proof PB as PB1. unfold process_bytes in PB1. apply rbind_ok in PB1. destruct PB1 as (i & U & H). destruct (unpack b) as [i0|] eqn:UB; cbn [ok_or] in U; [|discriminate]. injection U as ->. destruct (unpack_pack _ _ HB UB) as [WF _].
      assert (ES : transact e c s1 b ms = s2) by (eapply did; eassumption). rewrite ES in *. destruct (seen_after e EO _ _ _ _ _ _ _ _ _ HI1 G SZ LG WF H SN1 P1) as (m2 & A2 & L2 & SN2 & SC2).
      split; [exists m2, A2, L2; split; [exact SN2|eapply same_config_trans; eassumption]|]. do 2 eexists. eapply dealings_tx; eassumption.
    + assert (ES : transact e c s1 b ms = s1) by (unfold transact; rewrite PB; reflexivity). rewrite ES in *. assert (E1 = []) as -> by (eapply (queued_fun e); [exact Q|]; apply (queued_iff e _ _ _ _ _ _ _ _ _ _ SN1 SN1); exists [], (a_evs A1); rewrite app_nil_r; auto).
      rewrite app_nil_r. split; [eauto|eauto].
    + assert (ES : transact e c s1 b ms = s1) by (unfold transact; rewrite PB; reflexivity). rewrite ES in *. assert (E1 = []) as -> by (eapply (queued_fun e); [exact Q|]; apply (queued_iff e _ _ _ _ _ _ _ _ _ _ SN1 SN1); exists [], (a_evs A1); rewrite app_nil_r; auto).
      rewrite app_nil_r. split; [eauto|eauto].
  - destruct IH as (HI1 & (m1 & A1 & L1 & SN1 & SC1) & B & T & TT). assert (P1 : usable m1) by (destruct SC1 as (? & ? & ? & ? & ? & ->); exact P). split; [eapply reach_env; eassumption|]. split; [|exists B, T; eapply dealings_env; eassumption].
    destruct (env_seen e EO _ _ _ _ _ _ HI1 R SN1 P1) as (A2 & L2 & SN2 & _). eauto.
Qed.
End Main.
