(** When the vaults never hold much, the guard of World.v holds by itself (C24). *)
From Coq Require Import Permutation.
From Verif Require Import Base BaseProofs Fees ListSum Queue QueueProofs Codec CodecProofs Critbit CritbitProofs CritbitSlab Market Matching MatchSteps MatchSpec MatchFacts MatchRefine MatchAsk MatchBid MatchRun Ledger Slots
  Core CoreInv CoreNew CoreOrder CoreCancel CoreConsume CoreSettle CoreFrame Instr InstrProofs Store Process StoreProofs World WorldInv WorldLoad WorldRun WorldStep WorldStep2 WorldConsume WorldInit WorldMain WorldSpec WorldFacts
  WorldRange WorldCancel WorldPay WorldTrade WorldCrank WorldOpen WorldAuth WorldRights WorldSizes WorldIsolate.

(** ** Events *)
(** No fill in the list costs its maker more than [K]. *)
Definition bounded (K : Z) (v : event_view) : Prop := ev_paid_coin v <= K /\ ev_paid_pc v <= K.
Lemma bounded_out K sd r u st a b c d : 0 <= K -> bounded K (EvOut sd r u st a b c d).
Proof. intros H. split; cbn; lia. Qed.
Lemma bounded_taker K sd a b c d f g h i : 0 <= K -> bounded K (EvFill sd false a b c d f g h i).
Proof. intros H. destruct sd; split; cbn; lia. Qed.
(** Orders of other accounts than [x] are worth no more than [K]. *)
Definition modest_books (m : market) (K x : Z) (A : astate) : Prop :=
  forall sd l, In l (book_of A sd) -> l_owner l <> x -> 0 <= l_price l /\ worth m sd l <= K.
Lemma rounds_qty k q bk tr q' bk' : rounds k q bk tr q' bk' -> forall b t, In (b, t) tr -> 0 < t <= l_qty b.
Proof. induction 1 as [q bk|q bk b t tr q' bk' B _ T _ _ _ R IH]; intros b0 t0 Hin; [destruct Hin|]. destruct Hin as [[= <- <-]|Hin]; [exact T|eauto]. Qed.
Lemma worth_less m sd l0 l n : 0 < m_coin_lot m -> 0 < m_pc_lot m -> same_order l0 l -> 0 <= l_price l0 -> n <= l_qty l ->
  match sd with Bid => n * l_price l * m_pc_lot m | Ask => n * m_coin_lot m end <= worth m sd l0.
Proof.
  intros C P (K & _ & _ & _ & _ & Q) PR N. assert (EP : l_price l = l_price l0) by (unfold l_price; rewrite K; reflexivity). rewrite EP. unfold worth. destruct sd; [|nia].
  apply Z.mul_le_mono_nonneg_r; [lia|]. apply Z.mul_le_mono_nonneg_r; lia.
Qed.
Lemma rounds_bounded m K x tk A q tr q' bk' gs : 0 < m_coin_lot m -> 0 < m_pc_lot m -> 0 <= K -> tk_owner tk = x -> modest_books m K x A ->
  rounds tk q (book_of A (other (tk_side tk))) tr q' bk' -> Forall2 (reported (m_coin_lot m) (m_pc_lot m) tk) tr gs -> forall v, In v (concat gs) -> bounded K v.
Proof.
  intros C P K0 X MB R F. apply concat_all. intros g Ig v Iv. destruct (Forall2_right _ _ _ F g Ig) as ([b t] & Ib & RB).
  pose proof (rounds_qty _ _ _ _ _ _ R b t Ib) as T. destruct (rounds_seen _ _ _ _ _ _ R b t Ib) as (l0 & I0 & SO).
  unfold reported in RB. destruct (self tk (b, t)) eqn:SF.
  - destruct RB as (u & st & ->). destruct Iv as [<-|[<-|[]]]; apply bounded_out; assumption.
  - destruct RB as (ft & rest & -> & RS). unfold self in SF. cbn [fst] in SF.
    assert (N : l_owner l0 <> x) by (destruct SO as (_ & EO & _); rewrite EO; lia). destruct (MB _ _ I0 N) as [PR W].
    destruct Iv as [<-|Iv].
    + pose proof (worth_less m (other (tk_side tk)) l0 b t C P SO PR (proj2 T)) as WL. unfold maker_fill, value. cbn [fst snd]. destruct (tk_side tk); cbn [other] in *; split; cbn [ev_paid_coin ev_paid_pc]; lia.
    + apply in_app_or in Iv. destruct Iv as [Iv|Iv].
      * destruct (t =? l_qty b); [|destruct Iv]. destruct Iv as [<-|[]]. apply bounded_out. assumption.
      * destruct (tk_silent tk); [destruct Iv|]. destruct Iv as [<-|Iv]; [unfold taker_fill; destruct (tk_side tk); apply bounded_taker; assumption|].
        destruct RS as [->|(u & ->)]; [destruct Iv|]. destruct Iv as [<-|[]]. apply bounded_out. assumption.
Qed.
Lemma rounds_modest m K x tk bk q tr q' bk' sd : 0 < m_coin_lot m -> 0 < m_pc_lot m ->
  (forall l, In l bk -> l_owner l <> x -> 0 <= l_price l /\ worth m sd l <= K) -> rounds tk q bk tr q' bk' -> forall l, In l bk' -> l_owner l <> x -> 0 <= l_price l /\ worth m sd l <= K.
Proof.
  intros C P MB R l I N. destruct (rounds_less _ _ _ _ _ _ R l I) as (l0 & I0 & SO). assert (N0 : l_owner l0 <> x) by (destruct SO as (_ & -> & _); exact N).
  destruct (MB _ I0 N0) as [PR W]. pose proof (worth_less m sd l0 l (l_qty l) C P SO PR (Z.le_refl _)) as WL. split; [|unfold worth in *; destruct sd; lia].
  destruct SO as (E & _). unfold l_price in *. rewrite <- E. exact PR.
Qed.
Lemma report_bounded m K x tk lim po hr al q Lq A own' opp' E tr q' n : 0 < m_coin_lot m -> 0 < m_pc_lot m -> 0 <= K -> tk_owner tk = x -> modest_books m K x A ->
  report (m_coin_lot m) (m_pc_lot m) tk lim po hr al q Lq (book_of A (other (tk_side tk))) (book_of A (tk_side tk)) opp' own' E tr q' n ->
  (forall v, In v E -> bounded K v) /\ (forall l, In l opp' -> l_owner l <> x -> 0 <= l_price l /\ worth m (other (tk_side tk)) l <= K) /\
  (forall l, In l own' -> l_owner l <> x -> 0 <= l_price l /\ worth m (tk_side tk) l <= K).
Proof.
  intros C P K0 X MB [R _ _ (gs & Ee & -> & F & FI)]. pose proof (rounds_bounded m K x tk A q tr q' opp' gs C P K0 X MB R F) as B1.
  pose proof (rounds_modest m K x tk _ q tr q' opp' (other (tk_side tk)) C P (MB _) R) as B2. split; [|split; [exact B2|]].
  - intros v I. apply in_app_or in I. destruct I as [I|I]; [auto|]. destruct FI as [E OE _|l E _ _ _ _ _ OE|l w E _ _ _ _ _ _ OE].
    + destruct OE as [->|(_ & u & ->)]; [destruct I|]. destruct I as [<-|[]]. apply bounded_out. assumption.
    + destruct OE as [->|(_ & u & st & ->)]; [destruct I|]. destruct I as [<-|[]]. apply bounded_out. assumption.
    + apply in_app_or in I. destruct I as [I|[<-|[]]]; [|apply bounded_out; assumption]. destruct OE as [->|(_ & u & st & ->)]; [destruct I|]. destruct I as [<-|[]]. apply bounded_out. assumption.
  - destruct FI as [E OE _|l E _ _ _ _ EL OE|l w E _ _ _ _ EL _ OE]; intros y Iy Ny.
    + exact (MB _ _ Iy Ny).
    + apply lins_In in Iy. destruct Iy as [->|Iy]; [subst l; cbn [l_owner] in Ny; congruence|exact (MB _ _ Iy Ny)].
    + apply lins_In in Iy. destruct Iy as [->|Iy]; [subst l; cbn [l_owner] in Ny; congruence|]. apply ldel_In in Iy. exact (MB _ _ (proj1 Iy) Ny).
Qed.

Section Supply.
Variable e : env.
Hypothesis EO : env_ok e.
Notation D := (dexd e).
Variable K : Z -> Z.

(** Every fill waiting to be consumed is bounded. *)
Definition qbounded (b : Z) (q : queue event) : Prop := forall ev v, In ev (q_list q) -> event_as_view ev = Ok v -> bounded b v.
Definition fills_bounded (s : store) : Prop := forall k m q, D s k = Some (DMarket m) -> usable m -> D s (m_event_q m) = Some (DEventQ q) -> qbounded (K k) q.

Lemma seen_qb s k m A L b : seen e s k m A L -> (forall v, In v (a_evs A) -> bounded b v) -> forall q, D s (m_event_q m) = Some (DEventQ q) -> qbounded b q.
Proof.
  intros SN H q HQ ev v I E. destruct (sn_evs _ _ _ _ _ _ SN) as (q0 & HQ0 & F). assert (q0 = q) by congruence. subst q0.
  clear - I E H F. revert H I. induction F as [|ev0 v0 l r E0 F IH]; intros H I; [destruct I|]. destruct I as [->|I].
  - assert (v0 = v) by congruence. subst. apply H. left. reflexivity.
  - apply IH; [intros w Iw; apply H; right; exact Iw|exact I].
Qed.
Lemma qb_seen s k m A L b q : seen e s k m A L -> D s (m_event_q m) = Some (DEventQ q) -> qbounded b q -> forall v, In v (a_evs A) -> bounded b v.
Proof.
  intros SN HQ H v I. destruct (sn_evs _ _ _ _ _ _ SN) as (q0 & HQ0 & F). assert (q0 = q) by congruence. subst q0.
  destruct (Forall2_right _ _ _ F v I) as (ev & IE & E). exact (H ev v IE E).
Qed.

(** ** The state *)
Section One.
Variables (s : store) (k : Z) (m : market) (A : astate) (L : list (Z * open_orders)).
Hypothesis (H : history e s) (SN : seen e s k m A L) (P : usable m) (MO : modest e K s).
Let HM := sn_mkt _ _ _ _ _ _ SN.
Lemma vault_small : 0 <= m_coin_deposits m <= K k /\ 0 <= m_pc_deposits m <= K k.
Proof.
  destruct (counters_in_range e EO s k m A L H SN P) as ((C1 & C2 & C3 & C4) & _). destruct (MO k m HM P) as (V & _).
  destruct (coin_conserved e EO s k m A L H SN P) as (_ & _ & (t & T & T1) & _). destruct (pc_conserved e EO s k m A L H SN P) as (_ & _ & _ & (t2 & T2 & T3) & _).
  pose proof (V _ _ (or_introl eq_refl) T). pose proof (V _ _ (or_intror eq_refl) T2). destruct (_ =? _) in T3; lia.
Qed.
Lemma books_modest x : modest_books m (K k) x A.
Proof.
  intros sd l I _. destruct (counters_in_range e EO s k m A L H SN P) as (_ & C2 & C3). destruct (C3 sd l I) as (Q & PR & W). split; [lia|].
  destruct (deposits_cover e EO s k m A L H SN P) as [D1 D2]. pose proof vault_small as [V1 V2].
  assert (F1 : 0 <= total oo_coin_free L) by (apply zsum_nonneg; intros [y oy] IY; cbn [snd]; destruct (C2 _ _ IY); lia).
  assert (F2 : 0 <= total oo_pc_free L) by (apply zsum_nonneg; intros [y oy] IY; cbn [snd]; destruct (C2 _ _ IY); lia).
  assert (M : forall f (bk : list leaf), (forall y, In y bk -> 0 <= f y) -> In l bk -> f l <= zsum f bk).
  { intros f bk F. induction bk as [|y r IH]; intros IL; [destruct IL|]. cbn [zsum]. assert (0 <= zsum f r) by (apply zsum_nonneg; intros; apply F; right; assumption).
    destruct IL as [->|IL]; [lia|]. pose proof (F y (or_introl eq_refl)). specialize (IH (fun z Z => F z (or_intror Z)) IL). lia. }
  destruct sd; cbn [book_of] in I.
  - pose proof (M (worth m Bid) (a_bids A) ltac:(intros y Y; destruct (C3 Bid y Y); lia) I). lia.
  - pose proof (M (worth m Ask) (a_asks A) ltac:(intros y Y; destruct (C3 Ask y Y); lia) I). lia.
Qed.
End One.

Lemma paid_sum b q f : (forall v, bounded b v -> f v <= b) -> 0 <= b -> qbounded b q -> pending_paid f q <= b * zlen (q_list q).
Proof.
  intros F B0 Q. unfold pending_paid, qbounded in *. revert Q. generalize (q_list q). intros l. induction l as [|ev r IH]; intros Q; cbn [zsum]; [unfold zlen; cbn; lia|].
  rewrite zlen_cons. specialize (IH (fun ev v I => Q ev v (or_intror I))). destruct (event_as_view ev) as [v|?|] eqn:E; [pose proof (F v (Q ev v (or_introl eq_refl) E)); lia|lia|lia].
Qed.
Theorem modest_guard s : history e s -> modest e K s -> fills_bounded s -> no_overflow e s.
Proof.
  intros H MO FB k m HM P. destruct (market_seen e EO s k m H HM P) as (A & L & SN). pose proof (vault_small s k m A L H SN P MO) as [V1 V2].
  destruct (MO k m HM P) as (_ & CAP & RQ). split; [|exact RQ]. intros q HQ. specialize (CAP q HQ). pose proof (FB k m q HM P HQ) as Q.
  destruct (one_inv e EO s k m A L H SN P) as (seq & o & MS & C & _). pose proof (ms_evq _ _ _ _ _ _ _ MS) as EQ. assert (ob_eq o = q) as OQ by congruence.
  pose proof (ci_rep _ _ _ _ C) as R. assert (QK : q_ok q) by (rewrite <- OQ; destruct R; assumption). pose proof (q_list_len q QK). pose proof (qk_count _ QK).
  pose proof (paid_sum (K k) q ev_paid_coin (fun v X => proj1 X) ltac:(lia) Q). pose proof (paid_sum (K k) q ev_paid_pc (fun v X => proj2 X) ltac:(lia) Q).
  assert (K k * zlen (q_list q) <= K k * zlen (q_buf q)) by (apply Z.mul_le_mono_nonneg_l; lia). rewrite Z.mul_add_distr_l, Z.mul_1_r in CAP. lia.
Qed.

(** ** Steps *)
Lemma seen_same s k m A L m' A' L' : seen e s k m A L -> seen e s k m' A' L' -> m' = m /\ (forall sd, book_of A' sd = book_of A sd) /\ a_evs A' = a_evs A.
Proof.
  intros [a1 (sb & a2 & B) (sa & a3 & B2) (q & a4 & F) _ _] [b1 (sb' & b2 & C) (sa' & b3 & C2) (q' & b4 & F') _ _]. assert (m' = m) by congruence. subst m'.
  split; [reflexivity|]. split; [intros []; cbn [book_of]; congruence|]. assert (q' = q) by congruence. subst q'. clear - F F'. revert F F'. generalize (a_evs A) (a_evs A'). intros l. generalize (q_list q).
  intros ql l2 F. revert l2. induction F as [|ev v r l E F IH]; intros l2 F2; inversion F2; subst; [reflexivity|]. f_equal; [congruence|auto].
Qed.
Definition calm (k x : Z) (m : market) (A : astate) : Prop := modest_books m (K k) x A /\ forall v, In v (a_evs A) -> bounded (K k) v.
Lemma calm_same k x m A A' : (forall sd, book_of A' sd = book_of A sd) -> a_evs A' = a_evs A -> calm k x m A -> calm k x m A'.
Proof. intros B E [C1 C2]. split; [intros sd l I; rewrite B in I; eapply C1; exact I|rewrite E; exact C2]. Qed.
Lemma calm_mkt k x m m' A : m_coin_lot m' = m_coin_lot m -> m_pc_lot m' = m_pc_lot m -> calm k x m A -> calm k x m' A.
Proof.
  intros E1 E2 [C1 C2]. split; [|exact C2]. intros sd l I N. destruct (C1 sd l I N) as [P W]. split; [exact P|]. unfold worth in *. rewrite E1, E2. exact W.
Qed.
Lemma drop_In (ls bk : list leaf) l : In l (drop ls bk) -> In l bk.
Proof. unfold drop. intros I. apply filter_In in I. apply I. Qed.
Lemma cancels_calm s s' k m A L x oo bl al y : 0 <= K k -> cancels e s s' k m A L x oo bl al -> calm k y m A ->
  exists A' L', seen e s' k m A' L' /\ calm k y m A'.
Proof.
  intros K0 (A' & oo' & [w1 w2 w3 w4 (E & w5 & w6) _ _] & SN' & _) [C1 C2]. exists A', (put_acct L x oo'). split; [exact SN'|]. split.
  - intros [] l I; cbn [book_of] in I; [rewrite w3 in I|rewrite w4 in I]; apply drop_In in I; [apply (C1 Bid)|apply (C1 Ask)]; exact I.
  - intros v I. rewrite w5 in I. apply in_app_or in I. destruct I as [I|I]; [auto|]. apply (Permutation_in _ w6) in I. apply in_app_or in I.
    destruct I as [I|I]; apply in_map_iff in I; destruct I as (l & <- & _); apply bounded_out; assumption.
Qed.
Lemma orders_calm s s' k m A L ix t x payer oo : 0 <= K k -> usable m -> seen e s k m A L -> orders e s s' k m A L ix t x payer oo -> calm k x m A ->
  exists m' A' L', seen e s' k m' A' L' /\ calm k x m' A' /\ usable m'.
Proof.
  intros K0 P SN (m' & A' & L' & oo' & tr & q' & n & E & slot & id & dep & OD) [C1 C2]. cbv zeta in OD. destruct OD as (_ & _ & SN' & _ & EV & RP & _ & _ & _ & _ & MM).
  assert (CF : m_coin_lot m' = m_coin_lot m /\ m_pc_lot m' = m_pc_lot m /\ m_bids m' = m_bids m /\ m_asks m' = m_asks m) by (destruct (oi_side ix); destruct MM as (_ & _ & _ & _ & ->); repeat split).
  clear MM. destruct CF as (F1 & F2 & F3 & F4). exists m', A', L'. split; [exact SN'|]. split; [|unfold usable in *; rewrite F1, F2, F3, F4; exact P]. destruct P as (P1 & P2 & _).
  apply (calm_mkt k x m m' A' F1 F2).
  assert (R : exists sl, D s (match oi_side ix with Bid => m_bids m | Ask => m_asks m end) = Some (DSlab (oi_side ix) sl)).
  { destruct (sn_bids _ _ _ _ _ _ SN) as (sb & HB & _). destruct (sn_asks _ _ _ _ _ _ SN) as (sa & HA & _). destruct (oi_side ix); eauto. }
  destruct R as (sl & HS). specialize (RP sl HS).
  destruct (report_bounded m (K k) x (mkTaker (oi_side ix) id x slot t (oi_cid ix) (oi_st ix) false) _ _ _ _ _ _ A _ _ E tr q' n P1 P2 K0 eq_refl C1 RP) as (B1 & B2 & B3). cbn [tk_side] in *. split.
  - intros sd l I N. destruct (oi_side ix), sd; cbn [other] in *; auto.
  - intros v I. rewrite EV in I. apply in_app_or in I. destruct I; auto.
Qed.
Lemma placing_calm k x payer w d s ixs s' : 0 <= K k -> placing e k x payer w d s ixs s' -> forall m A L, seen e s k m A L -> usable m -> calm k x m A ->
  exists m' A' L', seen e s' k m' A' L' /\ calm k x m' A'.
Proof.
  intros K0. induction 1 as [s|s s1 s' m A L oo t ix r SN IN OW TF OD PL IH]; intros m0 A0 L0 SN0 P C; [eauto|].
  destruct (seen_same _ _ _ _ _ _ _ _ SN SN0) as (-> & EB & EE). assert (C' : calm k x m A) by (eapply calm_same; [| |exact C]; [intros; symmetry; apply EB|symmetry; exact EE]).
  destruct (orders_calm s s1 k m A L ix t x payer oo K0 P SN OD C') as (m' & A' & L' & SN' & C1 & P'). eapply IH; eassumption.
Qed.
Lemma takes_calm s s' k m A L ix t cw pw : 0 <= K k -> usable m -> takes e s s' k m A L ix t cw pw -> calm k 0 m A -> exists m' A' L', seen e s' k m' A' L' /\ (forall v, In v (a_evs A') -> bounded (K k) v).
Proof.
  intros K0 (P1 & P2 & _) (m' & A' & tr & q' & gs & id & OD) [C1 C2]. cbv zeta in OD. destruct OD as (_ & SN' & R & _ & _ & EV & F & _). exists m', A', L. split; [exact SN'|].
  intros v I. rewrite EV in I. apply in_app_or in I. destruct I as [I|I]; [auto|].
  eapply (rounds_bounded m (K k) 0 (mkTaker (ti_side ix) id 0 0 t 0 AbortTransaction true) A); try eassumption. reflexivity.
Qed.

Theorem fills_step s c i ms s' : history e s -> no_overflow e s -> sized s -> legal e ms -> wf_instr i -> process e c s i ms = Ok s' -> modest e K s -> fills_bounded s -> fills_bounded s'.
Proof.
  intros HI G SZ LG WF H MO FB. pose proof (reachable_inv e EO s HI) as WI. pose proof (wi_str _ _ WI) as W.
  assert (FR : forall k0 m0 m1 xo, deed e s s' k0 m0 m1 xo -> (forall x o, xo = Some (x, o) -> D s x = Some DZero \/ exists oo, D s x = Some (DOO oo)) ->
    (usable m0 -> forall q, D s' (m_event_q m0) = Some (DEventQ q) -> qbounded (K k0) q) -> fills_bounded s').
  { intros k0 m0 m1 xo DE X T k m q HM P HQ. pose proof (de_mkt _ _ _ _ _ _ _ DE) as HM0. pose proof (de_mkt' _ _ _ _ _ _ _ DE) as HM1. destruct (Z.eq_dec k k0) as [->|N].
    - assert (m1 = m) by congruence. subst m1. pose proof (de_same _ _ _ _ _ _ _ DE) as SB. assert (EQ : m_event_q m = m_event_q m0 /\ (usable m -> usable m0)) by (clear - SB; unfold same_but in SB; rewrite SB; split; [reflexivity|intros X; exact X]).
      destruct EQ as [EQ EP]. rewrite EQ in HQ. apply T; auto.
    - pose proof (de_mkts _ _ _ _ _ _ _ DE k N ltac:(eauto)) as EM. rewrite HM in EM. symmetry in EM. destruct (apart _ _ _ _ _ W HM0 EM N (m_event_q m) ltac:(auto)) as (n1 & n2 & n3 & n4 & n5).
      destruct (ws_evq _ W _ _ EM) as (q0 & HQ0). rewrite (de_else _ _ _ _ _ _ _ DE) in HQ; try assumption; [eapply FB; eassumption|]. intros x o E EX. subst x. destruct (X _ _ E) as [Z|(oo & Z)]; congruence. }
  assert (QK : forall k m, D s k = Some (DMarket m) -> D s' (m_event_q m) = D s (m_event_q m) -> usable m -> forall q, D s' (m_event_q m) = Some (DEventQ q) -> qbounded (K k) q).
  { intros k m HM EQ P q HQ. rewrite EQ in HQ. eapply FB; eassumption. }
  assert (SC : forall k m, D s k = Some (DMarket m) -> usable m -> exists A L, seen e s k m A L /\ 0 <= K k /\ forall x, calm k x m A).
  { intros k m HM P. destruct (market_seen e EO s k m HI HM P) as (A & L & SN). exists A, L. split; [exact SN|]. destruct (vault_small s k m A L HI SN P MO) as [V _]. split; [lia|].
    intros x. split; [exact (books_modest s k m A L HI SN P MO x)|]. destruct (sn_evs _ _ _ _ _ _ SN) as (q & HQ & _). eapply qb_seen; [exact SN|exact HQ|]. eapply FB; eassumption. }
  assert (SE : forall k m m' A' L', seen e s' k m' A' L' -> m_event_q m' = m_event_q m -> (forall v, In v (a_evs A') -> bounded (K k) v) -> forall q, D s' (m_event_q m) = Some (DEventQ q) -> qbounded (K k) q).
  { intros k m m' A' L' SN' EQ B q HQ. eapply seen_qb; [exact SN'|exact B|rewrite EQ; exact HQ]. }
  assert (CM : forall k m m' xo A' L', deed e s s' k m m' xo -> forall m2, seen e s' k m2 A' L' -> m_event_q m2 = m_event_q m).
  { intros k m m' xo A' L' DE m2 SN'. pose proof (sn_mkt _ _ _ _ _ _ SN'). pose proof (de_mkt' _ _ _ _ _ _ _ DE). assert (m2 = m') by congruence. subst m2. pose proof (de_same _ _ _ _ _ _ _ DE) as SB. clear - SB. unfold same_but in SB. rewrite SB. reflexivity. }
  assert (CA : forall core, proc_cancel e s core ms = Ok s' -> (forall o x oo o' oo', core o x oo = Ok (o', oo') -> ob_mkt o' = ob_mkt o /\ same_id oo oo') ->
    (forall k m A L, seen e s k m A L -> usable m -> key_at ms 0 = Some k -> exists x oo bl al, cancels e s s' k m A L x oo bl al) -> fills_bounded s').
  { intros core HC F CE. destruct (cancel_deed e EO s core ms s' W HC F) as (k & x & w & m & oo & oo' & K0 & _ & _ & DE & (LV & _) & _). eapply FR; [exact DE|intros y o [= <- <-]; eauto|].
    intros P. destruct (SC k m (de_mkt _ _ _ _ _ _ _ DE) P) as (A & L & SN & KP & C). destruct (CE k m A L SN P K0) as (x1 & o1 & bl & al & CC).
    destruct (cancels_calm s s' k m A L x1 o1 bl al 0 KP CC (C 0)) as (A' & L' & SN' & [_ B]). eapply SE; [exact SN'|reflexivity|exact B]. }
  assert (RP : forall ixs, proc_replace e c s ixs ms = Ok s' -> Forall order_ix_ok ixs -> (length ixs <= 8)%nat -> fills_bounded s').
  { intros ixs HR FO LN. destruct (replace_deed e EO s c ixs ms s' W HR) as (k & x & w & m & m' & oo & oo' & K0 & _ & _ & _ & _ & DE & (LV & _) & _). eapply FR; [exact DE|intros y o [= <- <-]; eauto|].
    intros P. destruct (SC k m (de_mkt _ _ _ _ _ _ _ DE) P) as (A & L & SN & KP & C). destruct (replace_effect e EO s k m A L WI G SN P c ixs ms s' LG FO LN HR K0) as (x1 & o1 & payer & s1 & _ & _ & _ & _ & CC & PL).
    destruct (cancels_calm s s1 k m A L x1 o1 _ _ x1 KP CC (C x1)) as (A1 & L1 & SN1 & C1). destruct (placing_calm k x1 payer _ _ s1 ixs s' KP PL m A1 L1 SN1 P C1) as (m2 & A2 & L2 & SN2 & [_ B]).
    eapply SE; [exact SN2|eapply CM; eassumption|exact B]. }
  assert (CR : forall k m qa oos n, D s k = Some (DMarket m) -> consume_with e s m qa oos n = Ok s' -> fills_bounded s').
  { intros k m qa oos n HM HC. destruct (consume_deed e EO s k m qa oos n s' W HM HC) as (W' & HM' & _ & _ & V). intros k2 m2 q2 H2 P2 HQ2.
    destruct (Z.eq_dec k2 k) as [->|N].
    - assert (m2 = m) by congruence. subst m2. destruct (ws_evq _ W _ _ HM) as (q & HQ). assert (QF : proper m -> qfits m q) by (intros PR; eapply guard_fits; eauto).
      destruct (step_consume e EO k m s q qa oos n s' WI HM HQ QF HC) as (-> & WI' & QU & s1 & q' & CL & -> & MD').
      destruct (consume_loop_inv e EO k m oos _ _ _ _ _ (mid_start e EO k m s q WI HM HQ QF) CL) as (_ & _ & R). destruct (R P2) as (vs & E1 & _).
      rewrite (at_q_D e m s1 q' _ (md_q _ _ _ _ _ MD')), Z.eqb_refl in HQ2. injection HQ2 as <-. intros ev v I E. apply (FB k m q HM P2 HQ ev v); [|exact E]. rewrite E1. apply in_or_app. auto.
    - assert (H2' : D s k2 = Some (DMarket m2)).
      { destruct (Z.eq_dec k2 (m_event_q m)) as [E|NE]; [|destruct (V k2 NE) as [E|(_ & o & o' & _ & E & _)]; congruence]. exfalso. destruct (ws_evq _ W' _ _ HM') as (q & HQ). congruence. }
      destruct (apart _ _ _ _ _ W HM H2' N (m_event_q m2) ltac:(auto)) as (_ & _ & _ & n4 & _). destruct (ws_evq _ W _ _ H2') as (q0 & HQ0).
      destruct (V _ n4) as [E|(_ & o & o' & (E & _) & _)]; [|congruence]. rewrite E in HQ2. eapply FB; eassumption. }
  destruct i; cbn [process] in H; try discriminate.
  - destruct (init_ran e _ _ _ _ _ H) as (k1 & rqa & eqa & ba & aa & cv & pv & cm & pm & p & auths & R). assert (SZ' : a_len (sget s eqa) < 9223372036854775808) by (specialize (SZ eqa); unfold I64_MAX in SZ; lia).
    intros k m q HM P HQ. destruct (in_was_market e EO _ _ _ _ _ _ _ _ _ _ _ _ _ _ _ R k m HM) as [[-> ->]|[N HM0]].
    + pose proof (in_state e EO _ _ _ _ _ _ _ _ _ _ _ _ _ _ _ W R SZ' P) as MS. intros ev v I _. pose proof (ms_evq _ _ _ _ _ _ _ MS) as EQ. pose proof (r_evs _ _ (ci_rep _ _ _ _ (ms_inv _ _ _ _ _ _ _ MS))) as RE.
      rewrite HQ in EQ. pose proof (f_equal (fun o => match o with Some (DEventQ z) => z | _ => q end) EQ) as Q1. cbv beta iota in Q1. rewrite <- Q1 in RE. rewrite RE in I. destruct I.
    + destruct (ws_evq _ W _ _ HM0) as (q0 & HQ0). assert (X : D s' (m_event_q m) = Some (DEventQ q0)) by (eapply WorldInit.in_kept; [exact EO|exact R|exact HQ0|discriminate]). assert (q0 = q) by congruence. subst q0. eapply FB; eassumption.
  - injection H as <-. exact FB.
  - unfold proc_consume in H. destruct (rev ms) as [|z1 [|z2 [|eqa [|mkt [|z3 z4]]]]]; try discriminate. apply rbind_ok in H. destruct H as (m & HM & H). apply rbind_ok in H. destruct H as (? & _ & H).
    apply load_market_ok in HM. destruct HM as [HM _]. eapply CR; eauto.
  - destruct (settle_deed e EO _ _ _ W H) as (k & x & w & m & m' & oo & oo' & K0 & _ & _ & _ & DE & (LV & _) & _). eapply FR; [exact DE|intros y o [= <- <-]; eauto|].
    intros P. destruct (SC k m (de_mkt _ _ _ _ _ _ _ DE) P) as (A & L & SN & KP & C).
    destruct (settle_effect e EO s k m A L WI SN P c ms s' H K0) as (x1 & oo1 & cw & pw & _ & IN & _ & _ & _ & (m2 & oo2 & SN2 & E2 & _)). eapply SE; [exact SN2|eapply CM; eassumption|exact (proj2 (C 0))].
  - destruct (disable_deed e EO _ _ _ W H) as (k & m & _ & _ & _ & DE & E & _). eapply FR; [exact DE|discriminate|]. pose proof (de_mkt _ _ _ _ _ _ _ DE) as HM. apply QK; [exact HM|].
    destruct (ws_evq _ W _ _ HM) as (q & HQ). rewrite E, (dexd_put_owned _ _ _ _ _ _ HM). destruct (Z.eqb_spec (m_event_q m) k) as [EK|]; [congruence|reflexivity].
  - destruct (sweep_ran e _ _ _ W H) as (k0 & m0 & pw0 & p0 & spl0 & KM0 & _ & HM & _ & _ & TR). destruct (sweep_deed e EO _ _ _ W H) as (k & m & pw & p & spl & KM & _ & _ & DE & _).
    assert (k0 = k) by congruence. subst k0. pose proof (de_mkt _ _ _ _ _ _ _ DE) as HM'. assert (m0 = m) by congruence. subst m0. eapply FR; [exact DE|discriminate|]. apply QK; [exact HM|].
    destruct (ws_evq _ W _ _ HM) as (q & HQ). rewrite (out_D e EO _ _ _ _ _ _ _ TR), (dexd_put_owned _ _ _ _ _ _ HM). destruct (Z.eqb_spec (m_event_q m) k) as [EK|]; [congruence|reflexivity].
  - destruct (order_deed e EO _ _ _ _ _ W H) as (k & x & w & m & m' & oo & oo' & K0 & _ & _ & _ & _ & DE & LO & _). eapply FR; [exact DE|intros y o [= <- <-]; destruct LO as [(LO & _)|(LO & _)]; eauto|].
    intros P. destruct (SC k m (de_mkt _ _ _ _ _ _ _ DE) P) as (A & L & SN & KP & C).
    destruct (order_effect e EO s k m A L WI SN P (guard_room e s 1 G ltac:(lia)) c ix ms s' H K0 (wf_order _ WF)) as (x1 & w1 & t & payer & oo1 & _ & _ & _ & _ & _ & _ & OD).
    destruct (orders_calm s s' k m A L ix t x1 payer oo1 KP P SN OD (C x1)) as (m2 & A2 & L2 & SN2 & [_ B] & _). eapply SE; [exact SN2|eapply CM; eassumption|exact B].
  - eapply CA; [exact H|cbv beta; intros * HH; eapply cancel_v2_frame; exact HH|]. intros k m A L SN P K0.
    destruct (cancel_v2_effect e EO s k m A L WI SN P c _ _ ms s' H K0) as (x & oo & l & _ & _ & _ & _ & _ & _ & R). do 4 eexists. exact R.
  - pose proof H as H0. unfold proc_cancel_cid in H. apply rbind_ok in H. destruct H as (? & _ & H). eapply CA; [exact H|cbv beta; intros * HH; eapply cancel_cid_frame; exact HH|]. intros k m A L SN P K0.
    destruct (cancel_cid_effect e EO s k m A L WI SN P c _ ms s' H0 K0) as (_ & x9 & oo & sd & l & _ & _ & _ & _ & _ & _ & R). do 4 eexists. exact R.
  - destruct (take_deed e EO _ _ _ _ W H) as (k & m & m' & K0 & _ & _ & DE & _). eapply FR; [exact DE|discriminate|]. intros P. destruct (SC k m (de_mkt _ _ _ _ _ _ _ DE) P) as (A & L & SN & KP & C).
    destruct (take_effect e EO s k m A L WI SN P (guard_room e s 1 G ltac:(lia)) c ix ms s' H K0 (wf_take_ok _ WF)) as (w1 & t & cw & pw & _ & _ & _ & _ & TD).
    destruct (takes_calm s s' k m A L ix t cw pw KP P TD (C 0)) as (m2 & A2 & L2 & SN2 & B). eapply SE; [exact SN2|eapply CM; eassumption|exact B].
  - destruct (close_ran e _ _ _ W H) as (k0 & x0 & w0 & dest0 & m0 & oo0 & oo0' & sm & KM0 & _ & HM & (LV0 & _) & _ & _ & _ & _ & E). destruct (close_deed e EO _ _ _ W H) as (k & x & w & dest & m & oo & oo' & KM & _ & DE & (LV & _) & _).
    assert (k0 = k) by congruence. subst k0. assert (x0 = x) by congruence. subst x0. pose proof (de_mkt _ _ _ _ _ _ _ DE) as HM'. assert (m0 = m) by congruence. subst m0. eapply FR; [exact DE|intros y o [= <- <-]; eauto|]. apply QK; [exact HM|].
    destruct (ws_evq _ W _ _ HM) as (q & HQ). assert (DX : D (put_lamports (put_lamports s dest0 sm) x 0) x = Some (DOO oo)) by (rewrite !dexd_lam; exact LV).
    rewrite E, (dexd_put_owned _ _ _ _ _ _ DX), !dexd_lam. destruct (Z.eqb_spec (m_event_q m) x) as [EK|]; [congruence|reflexivity].
  - destruct (init_oo_ran e _ _ _ _ W H) as (k0 & x0 & w0 & m0 & auth & oo0 & rest0 & KM0 & _ & _ & HM & _ & _ & _ & E). destruct (init_oo_deed e EO _ _ _ _ W H) as (k & x & w & m & oo & rest & KM & _ & _ & DE & LO & _).
    assert (k0 = k) by congruence. subst k0. assert (x0 = x) by congruence. subst x0. pose proof (de_mkt _ _ _ _ _ _ _ DE) as HM'. assert (m0 = m) by congruence. subst m0.
    assert (LX : exists d, D s x = Some d /\ (d = DZero \/ exists o, d = DOO o)) by (destruct LO as [(LO & _)|(LO & _)]; eauto). destruct LX as (d & DX & LX).
    eapply FR; [exact DE|intros y o [= <- <-]; destruct LX as [->|(o1 & ->)]; eauto|]. apply QK; [exact HM|].
    destruct (ws_evq _ W _ _ HM) as (q & HQ). rewrite E, (dexd_put_owned _ _ _ _ _ _ DX). destruct (Z.eqb_spec (m_event_q m) x) as [EK|]; [|reflexivity]. exfalso. destruct LX as [->|(o1 & ->)]; congruence.
  - destruct (prune_deed e EO _ _ _ _ W H) as (k & x & auth & m & oo & oo' & K0 & _ & _ & _ & _ & DE & (LV & _) & _). eapply FR; [exact DE|intros y o [= <- <-]; eauto|].
    intros P. destruct (SC k m (de_mkt _ _ _ _ _ _ _ DE) P) as (A & L & SN & KP & C).
    destruct (prune_effect e EO s k m A L WI SN P c _ ms s' H K0 ltac:(cbn [wf_instr] in WF; unfold u16 in WF; lia)) as (x1 & o1 & bl & al & _ & _ & _ & _ & _ & _ & _ & _ & CC & _).
    destruct (cancels_calm s s' k m A L x1 o1 bl al 0 KP CC (C 0)) as (A' & L' & SN' & [_ B]). eapply SE; [exact SN'|reflexivity|exact B].
  - unfold proc_consume_perm in H. destruct (rev ms) as [|z1 [|eqa [|mkt [|z3 z4]]]]; try discriminate. apply rbind_ok in H. destruct H as (m & HM & H). apply rbind_ok in H. destruct H as (? & _ & H).
    apply rbind_ok in H. destruct H as (? & _ & H). apply load_market_ok in HM. destruct HM as [HM _]. eapply CR; eauto.
  - eapply CA; [exact H|cbv beta; intros * HH; eapply cancel_cids_frame; exact HH|]. intros k m A L SN P K0.
    destruct (cancel_cids_effect e EO s k m A L WI SN P c _ ms s' H K0) as (x & oo & _ & _ & _ & R). do 4 eexists. exact R.
  - apply (RP [ix] H); [constructor; [exact (wf_order _ WF)|constructor]|cbn; lia].
  - destruct WF as [LN F]. apply (RP ixs H); [|lia]. eapply Forall_impl; [|exact F]. intros a. apply wf_order.
Qed.
End Supply.

(** ** Histories *)
Section Whole.
Variable e : env.
Hypothesis EO : env_ok e.
Notation D := (dexd e).
Lemma modest_history K s : reachable e (modest e K) s -> history e s /\ fills_bounded e K s.
Proof.
  induction 1 as [s G|s c b ms H [IH FB] G SZ HB LG|s s' H [IH FB] R].
  - split; [apply reach_start; exact G|]. intros k m q HM _ _. apply (ge_blank _ _ G) in HM. discriminate.
  - pose proof (modest_guard e EO K s IH G FB) as NO. split; [apply reach_tx; assumption|].
    unfold transact. destruct (process_bytes e c s b ms) as [s'|?|] eqn:E; [|exact FB|exact FB]. unfold process_bytes in E. apply rbind_ok in E. destruct E as (i & U & E).
    destruct (unpack b) as [i0|] eqn:UB; cbn [ok_or] in U; [|discriminate]. injection U as ->. destruct (unpack_pack _ _ HB UB) as [WF _]. eapply fills_step; eassumption.
  - split; [eapply reach_env; eassumption|]. intros k m q HM P HQ.
    assert (HM0 : D s k = Some (DMarket m)) by (destruct (re_dex _ _ _ R k) as [E|[[E _]|[E _]]]; congruence).
    assert (HQ0 : D s (m_event_q m) = Some (DEventQ q)) by (destruct (re_dex _ _ _ R (m_event_q m)) as [E|[[E _]|[E _]]]; congruence). eapply FB; eassumption.
Qed.
Theorem modest_suffices K s : reachable e (modest e K) s -> history e s.
Proof. intros H. apply (modest_history K s H). Qed.
Theorem modest_no_overflow K s : reachable e (modest e K) s -> modest e K s -> no_overflow e s.
Proof. intros H M. destruct (modest_history K s H). eapply modest_guard; eassumption. Qed.
End Whole.
