(** Orders, takes and cancellations as steps in the life of a resting order (C61). *)
From Coq Require Import Permutation.
From Verif Require Import Base BaseProofs Fees ListSum Queue QueueProofs Codec CodecProofs Critbit CritbitProofs CritbitSlab Market Matching MatchSteps MatchSpec MatchFacts MatchReport MatchRefine MatchAsk MatchBid MatchRun Ledger LedgerSums LedgerSteps Slots
  Core CoreInv CoreNew CoreOrder CoreCancel CoreConsume CoreSettle CoreFrame Instr InstrProofs Store Process StoreProofs World WorldInv WorldLoad WorldRun WorldStep WorldStep2 WorldConsume WorldInit WorldMain WorldSpec WorldFacts
  WorldRange WorldCancel WorldPay WorldTrade WorldCrank WorldOpen WorldAuth WorldRights WorldSizes WorldIsolate WorldSupply LifeSpec LifeProofs.

Lemma story_owner m sd l q r q' : story m sd l q r q' -> forall v, In v r -> ev_owner v = l_owner l.
Proof. induction 1; intros v I; cbn [In] in I; try tauto; intuition (subst; try reflexivity; auto). Qed.
Lemma sorted_both A : sorted (a_bids A) -> sorted (a_asks A) -> forall sd, sorted (book_of A sd).
Proof. intros B C []; assumption. Qed.

Lemma rounds_keys k q bk tr q' bk' : rounds k q bk tr q' bk' -> forall y, In y bk' -> exists z, In z bk /\ l_key z = l_key y.
Proof.
  induction 1 as [q bk|q bk b t tr q' bk' B W T U A1 A2 R IH]; intros y I; [eauto|]. destruct (IH y I) as (z & Z1 & Z2). apply take_from_In in Z1. destruct Z1 as [[Z1 _]|(x & X1 & X2 & _ & ->)]; [eauto|].
  exists x. split; [assumption|]. exact Z2.
Qed.
Lemma finish_keys cl pl k hr al can opp own own' E n : finish cl pl k hr al can opp own own' E n -> forall y, In y own' -> In y own \/ l_key y = tk_id k.
Proof.
  intros F y I. inversion F as [E0 HE HC|l0 E0 AL CN NX HR EL HE|l0 w E0 AL CN NX HR EL WO HE]; subst; [auto| |]; apply lins_In in I; destruct I as [->|I]; auto.
  apply ldel_In in I. left. apply I.
Qed.
(** Both sides in order, and every id given out already. *)
Definition ordered (num : Z) (A : astate) : Prop := (forall sd, sorted (book_of A sd)) /\ forall sd y, In y (book_of A sd) -> issued num sd (l_key y).

Section Steps.
Variable e : env.
Hypothesis EO : env_ok e.
Notation D := (dexd e).
Notation acct := (Z * open_orders)%type.

(** Every order resting on both states comes before [l]. *)
Definition last_of (A A' : astate) (sd : side) (l : leaf) : Prop :=
  forall y y', In y (book_of A sd) -> In y' (book_of A' sd) -> l_key y' = l_key y -> l_key y = l_key l \/ before sd y l.
(** Why an event about [l] is there, when account [x] acts; [F] says that a side was full. *)
Definition why (m : market) (x : Z) (F : side -> Prop) (A A' : astate) (sd : side) (l : leaf) (v : event_view) : Prop :=
  (is_fill v = true /\ x <> l_owner l) \/ v = released sd l false 0 0 \/ (is_fill v = false /\ x = l_owner l) \/
  ((exists q, 0 < q /\ v = released sd l false (part m sd l q) 0) /\ F sd /\ last_of A A' sd l).
(** From [A] to [A'], with [d] order numbers given out. *)
Definition lives (m : market) (num : Z) (A A' : astate) (E : list event_view) (C : side -> leaf -> event_view -> Prop) : Prop :=
  forall sd l q, issued num sd (l_key l) -> rests sd l A q ->
    exists q', story m sd l q (filter (about sd (l_key l)) E) q' /\ rests sd l A' q' /\ forall v, In v (filter (about sd (l_key l)) E) -> C sd l v.
(** Orders are served in their order. *)
Definition ranks (num : Z) (A : astate) (E : list event_view) : Prop :=
  forall sd l q, issued num sd (l_key l) -> rests sd l A q -> 0 < q -> served_first sd l E.
(** Every event names an order of account [o] or one that was there, and every order is of account [o] or was there. *)
Definition heard (o : option Z) (A : astate) (E : list event_view) : Prop :=
  forall v, In v E -> o = Some (ev_owner v) \/ exists sd l, In l (book_of A sd) /\ ev_owner v = l_owner l /\ about sd (l_key l) v = true.
Definition come (o : option Z) (A A' : astate) : Prop := forall sd y, In y (book_of A' sd) -> o = Some (l_owner y) \/ exists l q, In l (book_of A sd) /\ y = set_qty l q.
Lemma come_refl o A A' : (forall sd, book_of A' sd = book_of A sd) -> come o A A'.
Proof. intros B sd y I. rewrite B in I. right. exists y, (l_qty y). rewrite set_qty_same. auto. Qed.
Lemma come_trans o A A1 A' : come o A A1 -> come o A1 A' -> come o A A'.
Proof. intros C1 C2 sd y I. destruct (C2 sd y I) as [X|(l & q & I1 & ->)]; [auto|]. destruct (C1 sd l I1) as [X|(l0 & q0 & I0 & ->)]; [left; exact X|right]. exists l0, q. auto. Qed.
Lemma heard_app o A A1 E1 E2 : come o A A1 -> heard o A E1 -> heard o A1 E2 -> heard o A (E1 ++ E2).
Proof.
  intros C H1 H2 v I. apply in_app_or in I. destruct I as [I|I]; [auto|]. destruct (H2 v I) as [X|(sd & l & IL & OWN & AB)]; [auto|]. destruct (C sd l IL) as [X|(l0 & q0 & I0 & ->)]; [left; rewrite OWN; exact X|right]. exists sd, l0. auto.
Qed.
Definition goes (d : Z) (s s' : store) (m : market) (x : Z) (F : side -> Prop) (A A' : astate) : Prop :=
  exists E, a_evs A' = a_evs A ++ E /\ (forall num, next_number e s m num -> next_number e s' m (num + d) /\
    (0 <= num -> num + d <= B64 -> ordered num A -> ordered (num + d) A' /\ lives m num A A' E (why m x F A A') /\ ranks num A E)) /\ heard (Some x) A E /\ come (Some x) A A'.

Lemma rests_book sd l A q : rests sd l A q = rests_in (book_of A sd) l q.
Proof. reflexivity. Qed.
Lemma lives_back m num A A' E C sd y : lives m num A A' E C -> In y (book_of A' sd) -> issued num sd (l_key y) -> exists z, In z (book_of A sd) /\ l_key z = l_key y.
Proof.
  intros LV I IS. destruct (existsb (fun z => l_key z =? l_key y) (book_of A sd)) eqn:X.
  - apply existsb_exists in X. destruct X as (z & Z1 & Z2). exists z. split; [assumption|lia].
  - exfalso. assert (R : rests sd y A 0).
    { right. split; [reflexivity|]. intros z Z1 Z2. assert (T : existsb (fun z => l_key z =? l_key y) (book_of A sd) = true) by (apply existsb_exists; exists z; split; [assumption|lia]). congruence. }
    destruct (LV sd y 0 IS R) as (q' & S & R' & _). destruct (story_0 _ _ _ _ _ _ S eq_refl) as [_ ->]. destruct R' as [[? _]|[_ R']]; [lia|]. exact (R' y I eq_refl).
Qed.
Lemma ranks_app m num num1 A A1 E1 E2 C : num <= num1 -> lives m num A A1 E1 C -> ranks num A E1 -> ranks num1 A1 E2 -> ranks num A (E1 ++ E2).
Proof.
  intros LE LV R1 R2 sd l q IS RE Q. apply served_app; [eapply R1; eassumption|]. destruct (LV sd l q IS RE) as (q1 & S1 & RE1 & _).
  destruct (Z.eq_dec q1 0) as [Z0|NZ]; [left; eapply story_ended; eassumption|right]. apply (R2 sd l q1); [eapply issued_weaken; eassumption|exact RE1|destruct RE1 as [[? _]|[? _]]; lia].
Qed.
Lemma goes_trans d1 d2 s s1 s' m m1 x (F F1 F2 : side -> Prop) A A1 A' : m_coin_lot m1 = m_coin_lot m -> m_pc_lot m1 = m_pc_lot m -> m_req_q m1 = m_req_q m ->
  (forall sd, F1 sd -> F sd) -> (forall sd, F2 sd -> F sd) -> 0 <= d1 -> 0 <= d2 ->
  goes d1 s s1 m x F1 A A1 -> goes d2 s1 s' m1 x F2 A1 A' -> goes (d1 + d2) s s' m x F A A'.
Proof.
  intros L1 L2 LR H1 H2 D1 D2 (E1 & EV1 & G1 & H3 & C3) (E2 & EV2 & G2 & H4 & C4). exists (E1 ++ E2). split; [rewrite EV2, EV1, app_assoc; reflexivity|]. split; [|split; [eapply heard_app; eassumption|eapply come_trans; eassumption]]. intros num NN. destruct (G1 num NN) as [N1 G1'].
  assert (N1' : next_number e s1 m1 (num + d1)) by (unfold next_number in *; rewrite LR; exact N1). destruct (G2 _ N1') as [N2 G2']. split; [unfold next_number in *; rewrite <- LR; rewrite Z.add_assoc; exact N2|].
  intros B1 B2 SO. destruct (G1' B1 ltac:(lia) SO) as [SO1 [LV1 RK1]]. destruct (G2' ltac:(lia) ltac:(lia) SO1) as [SO2 [LV2 RK2]]. split; [rewrite Z.add_assoc; exact SO2|].
  split; [|eapply (ranks_app m num (num + d1)); [lia|exact LV1|exact RK1|exact RK2]]. intros sd l q IL RE.
  destruct (LV1 sd l q IL RE) as (q1 & S1 & R1 & C1). destruct (LV2 sd l q1 (issued_weaken num (num + d1) sd _ ltac:(lia) IL) R1) as (q2 & S2 & R2 & C2). apply (story_mkt m sd l m1) in S2; [|assumption..].
  exists q2. rewrite in_filter_app. split; [eapply story_app; eassumption|]. split; [exact R2|].
  assert (BK : forall y y', In y (book_of A sd) -> In y' (book_of A' sd) -> l_key y' = l_key y -> exists z, In z (book_of A1 sd) /\ l_key z = l_key y).
  { intros y y' I I' EK. destruct (lives_back _ _ _ _ _ _ sd y' LV2 I') as (z & Z1 & Z2); [|exists z; split; [assumption|congruence]]. rewrite EK. eapply issued_weaken; [|apply (proj2 SO); exact I]. lia. }
  intros v V. apply in_app_or in V. destruct V as [V|V].
  - destruct (C1 v V) as [X|[X|[X|(X & X1 & X2)]]]; [left; exact X|right; left; exact X|right; right; left; exact X|right; right; right]. split; [exact X|]. split; [auto|].
    intros y y' I I' EK. destruct (BK y y' I I' EK) as (z & Z1 & Z2). exact (X2 y z I Z1 Z2).
  - destruct (C2 v V) as [X|[X|[X|(X & X1 & X2)]]]; [left; exact X|right; left; exact X|right; right; left; exact X|right; right; right]. split; [|split; [auto|]].
    + destruct X as (n & N & ->). exists n. split; [assumption|]. unfold part. rewrite L1, L2. reflexivity.
    + intros y y' I I' EK. destruct (BK y y' I I' EK) as (z & Z1 & Z2). assert (Q : l_key z = l_key l \/ before sd z l) by (apply (X2 z y' Z1 I'); congruence).
      unfold before in *. rewrite Z2 in Q. exact Q.
Qed.
Lemma goes_none s s' m x F A A' : (forall sd, book_of A' sd = book_of A sd) -> a_evs A' = a_evs A -> D s' (m_req_q m) = D s (m_req_q m) -> goes 0 s s' m x F A A'.
Proof.
  intros B EV RQ. exists []. split; [rewrite app_nil_r; exact EV|]. split; [|split; [intros v []|apply come_refl; exact B]]. intros num NN. rewrite Z.add_0_r. split; [unfold next_number in *; congruence|]. intros _ _ [SO IS]. split; [split; intros sd; rewrite B; auto|].
  split; [|intros sd l q _ _ _; apply served_nil]. intros sd l q _ RE. exists q. split; [apply story_still|]. split; [|intros v []]. unfold rests in *. rewrite B. exact RE.
Qed.

(** ** One order *)
Lemma orders_goes s s' k m A L ix t x payer oo : seen e s k m A L -> 0 < oi_price ix < B64 -> orders e s s' k m A L ix t x payer oo ->
  exists m' A' L', seen e s' k m' A' L' /\ (exists a b c d, m' = set_counters m a b c d) /\ goes 1 s s' m x (fun sd => full e s m sd A) A A'.
Proof.
  intros SN PR (m' & A' & L' & oo' & tr & q' & n & E & slot & id & dep & OD). cbv zeta in OD. destruct OD as (LIM & (FR & num & NN & NN' & ID) & SN' & _ & EV & RP & _ & _ & _ & _ & OM).
  exists m', A', L'. split; [exact SN'|]. split; [destruct (oi_side ix); [destruct OM as (_ & _ & _ & _ & ->)|destruct OM as (_ & _ & _ & _ & ->)]; do 4 eexists; reflexivity|].
  assert (R : exists sl, D s (match oi_side ix with Bid => m_bids m | Ask => m_asks m end) = Some (DSlab (oi_side ix) sl)).
  { destruct (sn_bids _ _ _ _ _ _ SN) as (sb & HB & _). destruct (sn_asks _ _ _ _ _ _ SN) as (sa & HA & _). destruct (oi_side ix); eauto. }
  destruct R as (sl & HS). specialize (RP sl HS). set (tk := mkTaker (oi_side ix) id x slot t (oi_cid ix) (oi_st ix) false) in *. destruct RP as [RR _ _ (gs & Ee & -> & FG & FI)].
  exists (concat gs ++ Ee). split; [exact EV|]. split.
  2:{ split.
    - intros v I. apply in_app_or in I. destruct I as [I|I].
      + destruct (rounds_heard m tk _ _ _ _ _ RR gs FG v I) as [X|(l & I1 & X)]; [left; cbn [tk_owner tk] in X; congruence|right]. exists (other (oi_side ix)), l. auto.
      + destruct (finish_heard m tk _ _ _ _ _ _ _ _ FI v I) as [X|(l & I1 & X)]; [left; cbn [tk_owner tk] in X; congruence|right]. exists (oi_side ix), l. auto.
    - intros sd y I. assert (CS : sd = oi_side ix \/ sd = other (oi_side ix)) by (destruct sd, (oi_side ix); auto). destruct CS as [->| ->].
      + destruct (finish_come m tk _ _ _ _ _ _ _ _ FI y I) as [X|X]; [left; cbn [tk_owner tk] in X; congruence|right]. exists y, (l_qty y). rewrite set_qty_same. auto.
      + right. exact (rounds_come tk _ _ _ _ _ RR y I). }
  intros num0 NN0. assert (num0 = num) by (unfold next_number in *; congruence). subst num0. split; [exact NN'|]. intros B1 B2 [SO IU].
  destruct (rounds_story m tk _ _ _ _ _ RR gs FG (SO (other (oi_side ix)))) as [SO1 RS]. destruct (finish_story m tk _ _ _ _ _ _ _ _ FI (SO (oi_side ix))) as (SO2 & QX & FS). cbn [tk_side tk_id tk_owner tk] in *.
  split.
  { split; [intros sd; destruct (oi_side ix), sd; assumption|]. assert (OWN : forall y, In y (book_of A' (oi_side ix)) -> issued (num + 1) (oi_side ix) (l_key y)).
    { intros y I. destruct (finish_keys _ _ _ _ _ _ _ _ _ _ _ FI y I) as [I'|EK]; [eapply issued_weaken; [|apply IU; exact I']; lia|]. cbn [tk_id tk] in EK. rewrite EK, ID. unfold numbered.
      replace (match oi_side ix with Bid => B64 - 1 - num | Ask => num end) with (seq_part (oi_side ix) num) by (unfold seq_part; destruct (oi_side ix); reflexivity). apply issued_next; assumption. }
    assert (OTH : forall y, In y (book_of A' (other (oi_side ix))) -> issued (num + 1) (other (oi_side ix)) (l_key y)).
    { intros y I. destruct (rounds_keys _ _ _ _ _ _ RR y I) as (z & Z1 & Z2). cbn [tk_side tk] in Z1. rewrite <- Z2. eapply issued_weaken; [|apply IU; exact Z1]. lia. }
    intros sd y I. destruct (oi_side ix), sd; cbn [other] in *; auto. }
  split; [|intros sd l q IS RE Q; apply served_app; [|right; apply served_nofill; exact (finish_nofill m tk _ _ _ _ _ _ _ _ FI)]].
  2:{ assert (CS : sd = oi_side ix \/ sd = other (oi_side ix)) by (destruct sd, (oi_side ix); auto). destruct CS as [->| ->]; [exact (rounds_served_own m tk tr gs l FG)|].
      exact (rounds_served m tk _ _ _ _ _ RR gs FG (SO (other (oi_side ix))) l q RE Q). }
  intros sd l q IS RE.
  assert (FRESH : sd = oi_side ix -> l_key l <> id).
  { intros ->. rewrite ID. unfold numbered. pose proof (next_fresh num (oi_side ix) (l_key l) (oi_price ix) ltac:(lia) PR IS) as X. unfold seq_part in X. destruct (oi_side ix); exact X. }
  assert (CS : sd = oi_side ix \/ sd = other (oi_side ix)) by (destruct sd, (oi_side ix); auto). destruct CS as [->| ->].
  - specialize (FRESH eq_refl). destruct (FS l q FRESH RE) as (q2 & S2 & R2 & C2). exists q2. rewrite in_filter_app. pose proof (rounds_quiet m tk tr gs (l_key l) FG FRESH) as RQ. cbn [tk_side tk] in RQ. rewrite RQ. cbn [app]. split; [exact S2|]. split; [exact R2|].
    intros v V. destruct (C2 v V) as ((Q & ->) & NR & WO). right. right. right. split; [exists q; auto|]. split.
    + intros sl' HS'. assert (sl' = sl) by congruence. subst sl'. exact NR.
    + intros y y' I I' EK. destruct (proj2 WO y I) as [->|BF]; [left; reflexivity|right; exact BF].
  - destruct (RS l q RE) as (q2 & S2 & R2 & C2). exists q2. rewrite in_filter_app, QX, app_nil_r. split; [exact S2|]. split; [exact R2|].
    intros v V. destruct (C2 v V) as [X|[X|X]]; [left; exact X|right; left; exact X|right; right; left; exact X].
Qed.
Lemma takes_goes s s' k m A L ix t cw pw : takes e s s' k m A L ix t cw pw ->
  exists m' A' L', seen e s' k m' A' L' /\ (exists a b c d, m' = set_counters m a b c d) /\
    exists E, a_evs A' = a_evs A ++ E /\ heard None A E /\ come None A A' /\ forall num, next_number e s m num -> next_number e s' m (num + 1) /\
      (ordered num A -> lives m num A A' E (fun sd l v => is_fill v = true \/ v = released sd l false 0 0) /\ ranks num A E).
Proof.
  intros (m' & A' & tr & q' & gs & id & OD). cbv zeta in OD. destruct OD as ((_ & num & NN & NN') & SN' & RR & _ & OWN & EV & FG & NZ & _ & _ & OM). exists m', A', L. split; [exact SN'|].
  split; [destruct (ti_side ix); [destruct OM as (_ & _ & _ & ->)|destruct OM as (_ & _ & ->)]; do 4 eexists; reflexivity|].
  exists (concat gs). split; [exact EV|]. set (tk := mkTaker (ti_side ix) id 0 0 t 0 AbortTransaction true) in *. split; [|split].
  { intros v I. destruct (rounds_heard m tk _ _ _ _ _ RR gs FG v I) as [X|(l & I1 & X)]; [exfalso; exact (NZ v I X)|right]. exists (other (ti_side ix)), l. auto. }
  { intros sd y I. right. assert (CS : sd = ti_side ix \/ sd = other (ti_side ix)) by (destruct sd, (ti_side ix); auto). destruct CS as [->| ->]; [exists y, (l_qty y); rewrite set_qty_same, <- OWN; auto|exact (rounds_come tk _ _ _ _ _ RR y I)]. }
  intros num0 NN0. assert (num0 = num) by (unfold next_number in *; congruence). subst num0. split; [exact NN'|]. intros [SO _].
  destruct (rounds_story m tk _ _ _ _ _ RR gs FG (SO (other (ti_side ix)))) as [SO1 RS]. cbn [tk_side tk_id tk_owner tk] in *.
  split.
  2:{ intros sd l q IS RE Q. assert (CS : sd = ti_side ix \/ sd = other (ti_side ix)) by (destruct sd, (ti_side ix); auto). destruct CS as [->| ->]; [exact (rounds_served_own m tk tr gs l FG)|].
      exact (rounds_served m tk _ _ _ _ _ RR gs FG (SO (other (ti_side ix))) l q RE Q). }
  intros sd l q IS RE.
  assert (QT : filter (about (ti_side ix) (l_key l)) (concat gs) = []).
  { clear - FG NZ. induction FG as [|[b u] g tr gs RG F IH]; [reflexivity|]. cbn [concat] in *. rewrite in_filter_app, IH, app_nil_r by (intros v V; apply NZ, in_or_app; right; exact V). unfold reported in RG.
    assert (AO : forall f c, about (ti_side ix) (l_key l) (maker_out (other (tk_side tk)) f c b) = false) by (intros; unfold about; cbn [maker_out ev_side tk tk_side]; rewrite (proj2 (side_eqb_other (ti_side ix))); reflexivity).
    assert (AF : forall ft, about (ti_side ix) (l_key l) (maker_fill (m_coin_lot m) (m_pc_lot m) tk (b, u) ft) = false) by (intros; unfold about, maker_fill; cbn [tk tk_side]; destruct (ti_side ix); reflexivity).
    destruct (self tk (b, u)) eqn:SF.
    - exfalso. destruct RG as (u1 & st & ->). apply (NZ (taker_out tk u1 st)); [right; left; reflexivity|reflexivity].
    - destruct RG as (ft & rest & -> & _). cbn [filter tk tk_silent]. rewrite AF, app_nil_r. destruct (u =? l_qty b); [cbn [filter]; rewrite AO|]; reflexivity. }
  assert (CS : sd = ti_side ix \/ sd = other (ti_side ix)) by (destruct sd, (ti_side ix); auto). destruct CS as [->| ->].
  - rewrite QT. exists q. split; [apply story_still|]. split; [|intros v []]. unfold rests in *. rewrite OWN. exact RE.
  - destruct (RS l q RE) as (q2 & S2 & R2 & C2). exists q2. split; [exact S2|]. split; [exact R2|]. intros v V. destruct (C2 v V) as [[X _]|[X|[_ X]]]; [left; exact X|right; exact X|].
    exfalso. pose proof (story_owner _ _ _ _ _ _ S2 v V) as OW. apply filter_In in V. apply (NZ v); [apply V|]. rewrite OW. symmetry. exact X.
Qed.

(** ** Cancellations *)
Lemma key_nodup bk ls : sorted bk -> incl ls bk -> NoDup ls -> NoDup (map l_key ls).
Proof.
  intros SO I. induction 1 as [|x ls N ND IH]; cbn [map]; constructor; [|apply IH; intros y Y; apply I; right; exact Y].
  intros X. apply in_map_iff in X. destruct X as (y & EK & Y). apply N. assert (x = y) by (eapply sorted_uniq; [exact SO|apply I; left; reflexivity|apply I; right; exact Y|symmetry; exact EK]). subst y. exact Y.
Qed.
Lemma about_out m sd sd' id l : about sd id (WorldSpec.out_of m sd' l) = side_eqb sd' sd && (l_key l =? id).
Proof. reflexivity. Qed.
Lemma outs_other m sd sd' id ls : side_eqb sd' sd = false \/ ~ In id (map l_key ls) -> filter (about sd id) (map (WorldSpec.out_of m sd') ls) = [].
Proof.
  intros N. induction ls as [|x ls IH]; [reflexivity|]. cbn [map filter]. rewrite about_out, IH by (destruct N as [N|N]; [auto|right; intros X; apply N; right; exact X]).
  destruct N as [->|N]; [reflexivity|]. destruct (Z.eqb_spec (l_key x) id) as [EK|]; [exfalso; apply N; left; exact EK|]. rewrite andb_false_r. reflexivity.
Qed.
Lemma outs_one m sd ls l : NoDup (map l_key ls) -> In l ls -> filter (about sd (l_key l)) (map (WorldSpec.out_of m sd) ls) = [WorldSpec.out_of m sd l].
Proof.
  induction ls as [|x ls IH]; intros ND I; [destruct I|]. inversion ND as [|? ? N ND']; subst. cbn [map filter]. rewrite about_out, side_eqb_refl. cbn [andb]. destruct I as [->|I].
  - rewrite Z.eqb_refl, outs_other; [reflexivity|right; exact N].
  - destruct (Z.eqb_spec (l_key x) (l_key l)) as [EK|]; [|apply IH; assumption]. exfalso. apply N. rewrite EK. apply in_map. exact I.
Qed.
Lemma filter_perm {X} (p : X -> bool) a b : Permutation a b -> Permutation (filter p a) (filter p b).
Proof. induction 1; cbn [filter]; repeat match goal with |- context [if p ?x then _ else _] => destruct (p x) end; eauto using Permutation. Qed.
Lemma withdrawn_lives m A x oo A' oo' bl al num : (forall sd, sorted (book_of A sd)) -> NoDup bl -> NoDup al -> withdrawn m A x oo A' oo' bl al ->
  (forall sd, sorted (book_of A' sd)) /\ exists E, a_evs A' = a_evs A ++ E /\ lives m num A A' E (fun sd l v => is_fill v = false /\ x = l_owner l) /\ ranks num A E.
Proof.
  intros SO N1 N2 [w1 w2 w3 w4 (E & EV & PM) _ _]. split; [apply sorted_both; [rewrite w3|rewrite w4]; apply filter_sorted; [exact (SO Bid)|exact (SO Ask)]|].
  exists E. split; [exact EV|]. split.
  2:{ intros sd l q _ _ _. apply served_nofill. intros v I. apply (Permutation_in _ PM) in I. apply in_app_or in I. destruct I as [I|I]; apply in_map_iff in I; destruct I as (z & <- & _); reflexivity. }
  intros sd l q IS RE. set (ls := match sd with Bid => bl | Ask => al end).
  assert (LS : NoDup ls /\ (forall z, In z ls -> In z (book_of A sd) /\ l_owner z = x) /\ book_of A' sd = drop ls (book_of A sd)) by (unfold ls; destruct sd; auto). destruct LS as (NL & IL & BL).
  assert (NK : NoDup (map l_key ls)) by (eapply key_nodup; [exact (SO sd)|intros z Z0; apply IL, Z0|exact NL]).
  assert (PF : Permutation (filter (about sd (l_key l)) E) (filter (about sd (l_key l)) (map (WorldSpec.out_of m sd) ls))).
  { rewrite (filter_perm _ _ _ PM), in_filter_app. unfold ls. destruct sd; [rewrite (outs_other m Bid Ask) by (left; reflexivity); rewrite app_nil_r; reflexivity|rewrite (outs_other m Ask Bid) by (left; reflexivity); reflexivity]. }
  destruct (in_dec Z.eq_dec (l_key l) (map l_key ls)) as [IK|NI].
  - apply in_map_iff in IK. destruct IK as (z & EK & Z0). destruct (IL z Z0) as [ZB ZO]. destruct RE as [[Q I]|[_ I]]; [|exfalso; exact (I z ZB EK)].
    assert (z = set_qty l q) by (eapply sorted_uniq; [exact (SO sd)|exact ZB|exact I|exact EK]). subst z. rewrite (outs_one m sd ls (set_qty l q) NK Z0 : filter (about sd (l_key l)) _ = _) in PF.
    apply Permutation_sym, Permutation_length_1_inv in PF. rewrite PF. exists 0. split; [|split].
    + exact (story_out m sd l q true Q).
    + right. split; [reflexivity|]. intros y Y EY. rewrite BL in Y. apply WorldCancel.drop_In in Y. apply (proj2 Y). rewrite EY. apply in_map_iff. exists (set_qty l q). auto.
    + intros v [<-|[]]. split; [reflexivity|symmetry; exact ZO].
  - rewrite (outs_other m sd sd) in PF by (right; exact NI). apply Permutation_sym, Permutation_nil in PF. rewrite PF. exists q. split; [apply story_still|]. split; [|intros v []].
    unfold rests. rewrite BL. destruct RE as [[Q I]|[Q I]]; [left|right]; (split; [assumption|]).
    + apply WorldCancel.drop_In. split; [exact I|exact NI].
    + intros y Y. apply WorldCancel.drop_In in Y. apply I, Y.
Qed.
Lemma withdrawn_heard o m A x oo A' oo' bl al E : withdrawn m A x oo A' oo' bl al -> a_evs A' = a_evs A ++ E -> heard o A E /\ come o A A'.
Proof.
  intros [w1 w2 w3 w4 (E0 & EV & PM) _ _] EV'. assert (E0 = E) by (rewrite EV' in EV; apply app_inv_head in EV; symmetry; exact EV). subst E0. split.
  - intros v I. right. apply (Permutation_in _ PM) in I. apply in_app_or in I. destruct I as [I|I]; apply in_map_iff in I; destruct I as (l & <- & I); [exists Bid, l; destruct (w1 l I)|exists Ask, l; destruct (w2 l I)]; (split; [assumption|]); (split; [reflexivity|]); rewrite about_out, Z.eqb_refl; reflexivity.
  - intros sd y I. right. exists y, (l_qty y). rewrite set_qty_same. split; [|reflexivity]. destruct sd; cbn [book_of] in *; [rewrite w3 in I|rewrite w4 in I]; apply WorldCancel.drop_In in I; apply I.
Qed.
Lemma only_D s s' ys y : only s s' ys -> ~ In y ys -> D s' y = D s y.
Proof. intros O N. unfold dexd. rewrite (O y N). reflexivity. Qed.
Lemma cancels_goes s s' k m A L x oo bl al F : wstruct (D s) -> seen e s k m A L -> In (x, oo) L -> NoDup bl -> NoDup al -> cancels e s s' k m A L x oo bl al ->
  exists A' L', seen e s' k m A' L' /\ goes 0 s s' m x F A A'.
Proof.
  intros W SN IN N1 N2 (A' & oo' & WD & SN' & ON). exists A', (put_acct L x oo'). split; [exact SN'|].
  pose proof (proj1 (sn_oos _ _ _ _ _ _ SN x oo) IN) as (HX & _). destruct (sn_bids _ _ _ _ _ _ SN) as (sb & HB & _). destruct (sn_asks _ _ _ _ _ _ SN) as (sa & HA & _). destruct (sn_evs _ _ _ _ _ _ SN) as (qq & HQ & _).
  destruct (ws_req _ W _ _ (sn_mkt _ _ _ _ _ _ SN)) as (rq & HR).
  assert (RQ : D s' (m_req_q m) = D s (m_req_q m)) by (eapply only_D; [exact ON|]; cbn [In]; intros [X|[X|[X|[X|[]]]]]; rewrite <- X in HR; congruence).
  pose proof WD as [_ _ _ _ (E0 & EV0 & _) _ _]. exists E0. split; [exact EV0|]. split; [|eapply withdrawn_heard; eassumption]. intros num NN. rewrite Z.add_0_r. split; [unfold next_number in *; congruence|]. intros _ _ [SO IU].
  destruct (withdrawn_lives m A x oo A' oo' bl al num SO N1 N2 WD) as (SO' & E & EV & LV & RK). assert (E0 = E) by (rewrite EV in EV0; apply app_inv_head in EV0; symmetry; exact EV0). subst E0. split; [split; [exact SO'|]|split; [|exact RK]].
  { intros sd y I. apply IU. destruct WD as [_ _ w3 w4 _ _ _]. destruct sd; cbn [book_of] in *; [rewrite w3 in I|rewrite w4 in I]; apply WorldCancel.drop_In in I; apply I. }
  intros sd l q IS RE. destruct (LV sd l q IS RE) as (q' & S & R & C). exists q'. split; [exact S|]. split; [exact R|]. intros v V. right. right. left. apply C, V.
Qed.

(** ** The orders of a replacement *)
Lemma goes_weaken d s s' m x (F F' : side -> Prop) A A' : (forall sd, F sd -> F' sd) -> goes d s s' m x F A A' -> goes d s s' m x F' A A'.
Proof.
  intros FF (E & EV & G & HC). exists E. split; [exact EV|]. split; [|exact HC]. intros num NN. destruct (G num NN) as [N G']. split; [exact N|]. intros B1 B2 SO. destruct (G' B1 B2 SO) as [SO' [LV RK]]. split; [exact SO'|]. split; [|exact RK].
  intros sd l q IS RE. destruct (LV sd l q IS RE) as (q' & S & R & C). exists q'. split; [exact S|]. split; [exact R|]. intros v V. destruct (C v V) as [X|[X|[X|(X & X1 & X2)]]]; [left; exact X|right; left; exact X|right; right; left; exact X|right; right; right; auto].
Qed.
Lemma goes_same d s s' m x F A A' B B' : (forall sd, book_of B sd = book_of A sd) -> a_evs B = a_evs A -> (forall sd, book_of B' sd = book_of A' sd) -> a_evs B' = a_evs A' -> goes d s s' m x F A A' -> goes d s s' m x F B B'.
Proof.
  intros X1 X2 X3 X4 (E & EV & G & HE & CO). exists E. split; [congruence|]. split; [|split].
  2:{ intros v I. destruct (HE v I) as [X|(sd & l & IL & X)]; [left; exact X|right]. exists sd, l. rewrite X1. auto. }
  2:{ intros sd y I. rewrite X3 in I. rewrite X1. exact (CO sd y I). }
  intros num NN. destruct (G num NN) as [N G']. split; [exact N|]. intros B1 B2 SO.
  destruct SO as [SO IU]. destruct (G' B1 B2) as [[SO' IU'] [LV RK]]; [split; intros sd; rewrite <- X1; [apply SO|apply IU]|]. split; [split; intros sd; rewrite X3; [apply SO'|apply IU']|].
  split; [|intros sd l q IS RE; unfold rests in RE; rewrite X1 in RE; exact (RK sd l q IS RE)].
  intros sd l q IS RE. unfold rests in *. rewrite X1 in RE. rewrite X3. destruct (LV sd l q IS RE) as (q' & S & R & C). exists q'. split; [exact S|]. split; [exact R|]. intros v V. destruct (C v V) as [X|[X|[X|(X & Y1 & Y2)]]]; [left; exact X|right; left; exact X|right; right; left; exact X|right; right; right].
  split; [exact X|]. split; [exact Y1|]. intros y y' I I'. rewrite X1 in I. rewrite X3 in I'. apply Y2; assumption.
Qed.
Lemma placing_goes k x payer w dc s ixs s' : placing e k x payer w dc s ixs s' -> Forall (fun ix => 0 < oi_price ix < B64) ixs -> forall m A L, seen e s k m A L ->
  exists m' A' L', seen e s' k m' A' L' /\ (exists a b c d, m' = set_counters m a b c d) /\ goes (zlen ixs) s s' m x (fun _ => True) A A'.
Proof.
  induction 1 as [s|s s1 s' m A L oo t ix r SN IN OW TF OD PL IH]; intros FO m0 A0 L0 SN0.
  - exists m0, A0, L0. split; [exact SN0|]. split; [exists (m_coin_deposits m0), (m_pc_deposits m0), (m_pc_fees m0), (m_rebates m0); destruct m0; reflexivity|]. apply goes_none; reflexivity.
  - inversion FO as [|? ? F1 F2]; subst. destruct (seen_same e _ _ _ _ _ _ _ _ SN0 SN) as (-> & EB & EE). destruct (orders_goes _ _ _ _ _ _ _ _ _ _ _ SN F1 OD) as (m1 & A1 & L1 & SN1 & (a & b & c & d & ->) & G1).
    destruct (IH F2 _ _ _ SN1) as (m2 & A2 & L2 & SN2 & (a2 & b2 & c2 & d2 & ->) & G2). exists (set_counters m0 a2 b2 c2 d2), A2, L2. split; [exact SN2|]. split; [do 4 eexists; reflexivity|].
    change (zlen (ix :: r)) with (Z.of_nat (S (length r))). rewrite Nat2Z.inj_succ, <- Z.add_1_l. change (Z.of_nat (length r)) with (zlen r).
    eapply goes_trans; [..|eapply goes_same; [..|exact G1]|exact G2]; try reflexivity; try exact EE; try (intros sd; symmetry; apply EB); try (symmetry; exact EE); auto; unfold zlen; lia.
Qed.
End Steps.
